(** Model of reading an augmented source back: _070_pure_functions/process_augmented_func_src.py:13-61 with
    astkeywords_dict_convertors.py:3-19, on the text that pure_core_classes.py:229-239 writes ([aug_text] of Registry.v).
    Python's lexer and parser are reduced to what this needs: a block begins with a line that starts with '@'; its
    decorator is a call with keyword arguments whose values are single-quoted strings or lists of them; everything up to the
    next line that starts with '@' is the function.  Simplified: of the escape sequences only the backslash before n, t, r, a
    quote, a backslash and a line end are known (others are kept, as Python keeps unknown ones); neighbouring literals are
    not joined; keywords in another order than the one the library writes are refused. *)
From Coq Require Import String Ascii.
From Verif Require Import Lib.Py Model.Registry.
Local Open Scope string_scope.

Definition nl : ascii := ascii_of_nat 10.
Definition tab : ascii := ascii_of_nat 9.
Definition cr : ascii := ascii_of_nat 13.
Definition quote : ascii := "'".
Definition backslash : ascii := ascii_of_nat 92.

(** the characters an escape sequence stands for *)
Definition escaped (c : ascii) : string :=
  if decide (c = "n"%char) then String nl ""
  else if decide (c = "t"%char) then String tab ""
  else if decide (c = "r"%char) then String cr ""
  else if decide (c = nl) then ""
  else if decide (c = backslash \/ c = quote \/ c = ascii_of_nat 34) then String c ""
  else String backslash (String c "").
(** the rest of a string literal, after its opening quote: its value and what follows *)
Fixpoint lit_body (s : string) : option (string * string) :=
  match s with
  | EmptyString => None
  | String c r =>
      if decide (c = quote) then Some ("", r)
      else if decide (c = nl \/ c = cr) then None
      else if decide (c = backslash) then
        match r with
        | EmptyString => None
        | String d r' => match lit_body r' with Some (v, t) => Some (escaped d +:+ v, t) | None => None end
        end
      else match lit_body r with Some (v, t) => Some (String c v, t) | None => None end
  end.

(** line ends mean nothing inside parentheses *)
Fixpoint skip_blanks (s : string) : string :=
  match s with
  | String c r => if decide (c = " "%char \/ c = tab \/ c = nl) then skip_blanks r else s
  | EmptyString => s
  end.
Definition is_ident (c : ascii) : bool :=
  let n := nat_of_ascii c in
  ((65 <=? n) && (n <=? 90) || (97 <=? n) && (n <=? 122) || (48 <=? n) && (n <=? 57) || (n =? 95))%nat.
Fixpoint read_ident (s : string) : string * string :=
  match s with
  | String c r => if is_ident c then let '(n, t) := read_ident r in (String c n, t) else ("", s)
  | EmptyString => ("", "")
  end.
Definition expect (c : ascii) (s : string) : option string :=
  match s with String d r => if decide (d = c) then Some r else None | EmptyString => None end.

(** the rest of a list of string literals, after its bracket *)
Fixpoint read_list (fuel : nat) (s : string) : option (list string * string) :=
  match fuel with
  | O => None
  | S fuel =>
      match skip_blanks s with
      | String c r =>
          if decide (c = "]"%char) then Some ([], r)
          else if decide (c = quote) then
            match lit_body r with
            | Some (v, t) =>
                match skip_blanks t with
                | String d t' =>
                    if decide (d = ","%char) then match read_list fuel t' with Some (l, u) => Some (v :: l, u) | None => None end
                    else if decide (d = "]"%char) then Some ([v], t')
                    else None
                | EmptyString => None
                end
            | None => None
            end
          else None
      | EmptyString => None
      end
  end.

Inductive pval := PStr (s : string) | PList (l : list string).
Definition read_value (s : string) : option (pval * string) :=
  match s with
  | String c r =>
      if decide (c = quote) then match lit_body r with Some (v, t) => Some (PStr v, t) | None => None end
      else if decide (c = "["%char) then match read_list (String.length r) r with Some (l, t) => Some (PList l, t) | None => None end
      else None
  | EmptyString => None
  end.
(** the rest of a call, after its parenthesis: the keyword arguments and what follows *)
Fixpoint read_kwargs (fuel : nat) (s : string) : option (list (string * pval) * string) :=
  match fuel with
  | O => None
  | S fuel =>
      match expect ")" (skip_blanks s) with
      | Some r => Some ([], r)
      | None =>
          let '(name, r) := read_ident (skip_blanks s) in
          if decide (name = "") then None else
          match expect "=" r with
          | None => None
          | Some r =>
              match read_value r with
              | None => None
              | Some (v, t) =>
                  match expect "," (skip_blanks t) with
                  | Some t' => match read_kwargs fuel t' with Some (kw, u) => Some ((name, v) :: kw, u) | None => None end
                  | None => match expect ")" (skip_blanks t) with Some u => Some ([(name, v)], u) | None => None end
                  end
              end
          end
      end
  end.
(** primary_decorators (__init__.py:52-56) and their parameters (autonomous_decorators.py, pure_decorator.py) *)
Definition to_decor (name : string) (kw : list (string * pval)) : option decor :=
  match kw with
  | [(k, PStr i)] =>
      if decide (k = "island_name") then
        if decide (name = "autonomous") then Some (DAut false i)
        else if decide (name = "strictly_autonomous") then Some (DAut true i)
        else if decide (name = "pure") then Some (DPure i None) else None
      else None
  | [(k, PStr i); (k2, PList g)] =>
      if decide (k = "island_name" /\ k2 = "guards" /\ name = "pure") then Some (DPure i (Some g)) else None
  | _ => None
  end.
Fixpoint after (a s : string) : option string :=
  match a, s with
  | EmptyString, _ => Some s
  | String c a', String d s' => if decide (c = d) then after a' s' else None
  | _, _ => None
  end.
Definition read_decorator (s : string) : option (decor * string) :=
  match after "@pth." s with
  | None => None
  | Some r =>
      let '(name, r) := read_ident r in
      match expect "(" r with
      | None => None
      | Some r =>
          match read_kwargs (String.length r) r with
          | None => None
          | Some (kw, t) =>
              match to_decor name kw, expect nl t with
              | Some d, Some u => Some (d, u)
              | _, _ => None
              end
          end
      end
  end.
(** everything up to the next line that starts with '@'; [bol]: at the beginning of a line *)
Fixpoint read_source (bol : bool) (s : string) : string * string :=
  match s with
  | EmptyString => ("", "")
  | String c r =>
      if bol && bool_decide (c = "@"%char) then ("", s)
      else let '(a, b) := read_source (bool_decide (c = nl)) r in (String c a, b)
  end.
Fixpoint read_blocks (fuel : nat) (s : string) : option (list (decor * string)) :=
  match s, fuel with
  | EmptyString, _ => Some []
  | _, O => None
  | _, S fuel =>
      match read_decorator s with
      | None => None
      | Some (d, r) =>
          let '(src, t) := read_source true r in
          match read_blocks fuel t with Some es => Some ((d, src) :: es) | None => None end
      end
  end.
Definition read_augmented (s : string) : option (list (decor * string)) := read_blocks (String.length s) s.
