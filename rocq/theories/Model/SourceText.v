(** Model of the source-text handling: _040_ordinary_functions/function_name.py, the cleaning part of
    code_normalizer_implementation.py and the construction of the executed code and namespace in
    ordinary_core_classes.py / autonomous_core_classes.py.  Definitions only.

    Characters are Coq's 256 [ascii] codes, read as Latin-1 (simplification: no characters above U+00FF). *)
From Coq Require Import String Ascii.
From Verif Require Import Lib.Py.
Local Open Scope nat_scope.

Definition text := list ascii.
Definition T (s : string) : text := list_ascii_of_string s.
Definition LF : ascii := ascii_of_nat 10.
Definition CR : ascii := ascii_of_nat 13.
Definition SP : ascii := " "%char.
Definition TAB : ascii := ascii_of_nat 9.

(** str.isspace for one character (Latin-1) *)
Definition is_space (c : ascii) : bool :=
  let n := nat_of_ascii c in ((9 <=? n) && (n <=? 13)) || ((28 <=? n) && (n <=? 32)) || (n =? 133) || (n =? 160).
(** the characters at which str.splitlines cuts (Latin-1) *)
Definition is_break (c : ascii) : bool :=
  let n := nat_of_ascii c in ((10 <=? n) && (n <=? 13)) || ((28 <=? n) && (n <=? 30)) || (n =? 133).

(** str.split('\n') *)
Fixpoint split_lf (s : text) : list text :=
  match s with
  | [] => [[]]
  | c :: s' => if decide (c = LF) then [] :: split_lf s'
               else match split_lf s' with l :: ls => (c :: l) :: ls | [] => [[c]] end
  end.
(** str.splitlines() : [line] is the line being read; "\r\n" is one break; a break at the end starts no line *)
Fixpoint splitlines_from (line : text) (s : text) : list text :=
  match s with
  | [] => match line with [] => [] | _ => [line] end
  | c :: s' =>
      if is_break c then
        line :: match s' with
                | c' :: s'' => if decide (c = CR) then if decide (c' = LF) then splitlines_from [] s'' else splitlines_from [] s' else splitlines_from [] s'
                | [] => []
                end
      else splitlines_from (line ++ [c]) s'
  end.
Definition splitlines (s : text) : list text := splitlines_from [] s.
(** "\n".join *)
Fixpoint join_lf (ls : list text) : text :=
  match ls with [] => [] | [l] => l | l :: ls' => l ++ LF :: join_lf ls' end.

Fixpoint lstrip (s : text) : text := match s with c :: s' => if is_space c then lstrip s' else s | [] => [] end.
Definition rstrip (s : text) : text := rev (lstrip (rev s)).
Definition strip (s : text) : text := rstrip (lstrip s).
Fixpoint startswith (p s : text) : bool :=
  match p, s with
  | [], _ => true
  | a :: p', b :: s' => bool_decide (a = b) && startswith p' s'
  | _ :: _, [] => false
  end.
(** s.find(c): the index or -1 *)
Fixpoint find_char (c : ascii) (s : text) : option nat :=
  match s with
  | [] => None
  | d :: s' => if decide (c = d) then Some 0 else option_map S (find_char c s')
  end.
(** s.replace(old, new, 1) for a non-empty old *)
Fixpoint replace_first (old new s : text) : text :=
  if startswith old s then new ++ drop (length old) s
  else match s with [] => [] | c :: s' => c :: replace_first old new s' end.

(** function_name.py:3-12.  [stripped_line[3:end]], where end = -1 (no parenthesis) drops the last character. *)
Fixpoint name_in_lines (ls : list text) : res text :=
  match ls with
  | [] => Err ValueError
  | line :: ls' =>
      let stripped := strip line in
      if startswith (T "def ") stripped then
        let stop := match find_char "("%char stripped with Some n => n | None => length stripped - 1 end in
        Ok (strip (drop 3 (take stop stripped)))
      else name_in_lines ls'
  end.
Definition get_function_name_from_source (src : text) : res text := name_in_lines (split_lf src).

(** code_normalizer_implementation.py:51-73: drop blank lines (only spaces and tabs), measure the indent of the first
    line that is left, and remove it from all lines, each of which must start with it. *)
Definition blank (line : text) : bool := forallb (fun c => bool_decide (c = SP) || bool_decide (c = TAB)) line.
Fixpoint dedent (indent : text) (ls : list text) : res (list text) :=
  match ls with
  | [] => Ok []
  | l :: ls' => if startswith indent l then let? rest := dedent indent ls' in Ok (drop (length indent) l :: rest) else Err AssertionError
  end.
Definition clean_source (code : text) : res text :=
  match List.filter (fun l => negb (blank l)) (splitlines code) with
  | [] => Err IndexError                                           (* code_no_empty_lines[0] *)
  | first :: others =>
      let indent := take (length first - length (lstrip first)) first in
      let? ls := dedent indent (first :: others) in
      Ok (join_lf ls)
  end.

(** ordinary_core_classes.py:103-126: the code that is executed.  [hash] is get_hash_signature(source). *)
Definition tmp_name (fn_name hash : text) : text := T "tmp_func_" ++ fn_name ++ hash.
Definition kwargs_var (fn_name hash : text) : text := T "kwargs_" ++ fn_name ++ hash.
Definition result_var (fn_name hash : text) : text := T "result" ++ fn_name ++ hash.
Definition source_to_exec (fn_name hash src : text) : text :=
  replace_first (SP :: fn_name ++ T "(") (SP :: tmp_name fn_name hash ++ T "(") src
  ++ [LF; LF] ++ result_var fn_name hash ++ T " = " ++ tmp_name fn_name hash ++ T "(**" ++ kwargs_var fn_name hash ++ T ")".

(** What a global name can denote while the body runs. *)
Inductive binding := BSelf | BPth | BModule (n : text) | BIsland (n : text) | BKwargs.
(** ordinary_core_classes.py:135-141 _available_names; [module_names] are the globals of that module *)
Definition ordinary_names (module_names : list text) (fn_name : text) : dict text binding :=
  dict_set (T "pth") BPth (dict_set (T "self") BSelf (dict_set fn_name BSelf (dict_update [] (map (fun n => (n, BModule n)) module_names)))).
(** autonomous_core_classes.py:288-293: each dependency is looked up in the island *)
Definition autonomous_names (module_names : list text) (fn_name : text) (dependencies : list text) : dict text binding :=
  dict_update (ordinary_names module_names fn_name) (map (fun n => (n, BIsland n)) dependencies).
(** ordinary_core_classes.py:177-179: the namespace of one execution *)
Definition namespace (names : dict text binding) (fn_name hash : text) : dict text binding :=
  dict_set (kwargs_var fn_name hash) BKwargs names.
