(** * Spec: small specifications, written from the English properties and
    independent of the C control flow.  Only basic types of the model are used. *)
From Verif Require Import Types.

(** ** Paths *)

(** A directory is named by the list of its components, the root by []. *)
Definition dirpath := list bytes.

(** A component: no '/' and no NUL inside. *)
Definition plain_comp (c : bytes) : Prop := ~ In SL c /\ ~ In NUL c.
(** A proper component is also not empty. *)
Definition comp_ok (c : bytes) : Prop := c <> [] /\ plain_comp c.
(** A proper path has only proper components. *)
Definition path_ok (p : dirpath) : Prop := Forall comp_ok p.

(** "/c1/c2/../cn" *)
Definition slashed (p : list bytes) : bytes := flat_map (fun c => SL :: c) p.
(** The path as text, "/" for the root. *)
Definition show (p : dirpath) : bytes :=
  match p with [] => [SL] | _ => slashed p end.

(** Walking: "." stays, ".." goes to the parent (the root is its own parent), any
    other name goes down. *)
Definition walk (d : dirpath) (c : bytes) : dirpath :=
  if beq c (lit "..") then removelast d
  else if beq c (lit ".") then d
  else d ++ [c].
Definition resolve (d : dirpath) (p : list bytes) : dirpath := fold_left walk p d.

(** A component that is neither "." nor "..". *)
Definition no_dots (c : bytes) : Prop := c <> lit "." /\ c <> lit "..".

(** Components of a text: what stands between slashes, except that a slash
    directly after a slash counts as an ordinary first character of the next
    component (so "//" does not separate).  The result is the text before the first
    separating slash and the components after it. *)
Fixpoint text_comps (s : bytes) : bytes * list bytes :=
  match s with
  | [] => ([], [])
  | c :: r =>
      if ceq c SL then
        match r with
        | [] => ([], [[]])
        | c' :: r' => let (h, t) := text_comps r' in ([], (c' :: h) :: t)
        end
      else let (h, t) := text_comps r in (c :: h, t)
  end.

(** What a user types as a path, seen from directory [cwd]: absolute if it starts
    with '/', one trailing '/' is ignored. *)
Definition full_text (cwd : dirpath) (t : bytes) : bytes :=
  match t with
  | c :: _ => if ceq c SL then t else (match cwd with [] => [SL] | _ => show cwd ++ [SL] end) ++ t
  | [] => match cwd with [] => [SL] | _ => show cwd ++ [SL] end
  end.
Definition drop_trailing_slash (t : bytes) : bytes :=
  if (1 <? length t) && ceq (last t NUL) SL then removelast t else t.
(** A lone empty component is the root: both read "/". *)
Definition root_form (p : dirpath) : dirpath := match p with [[]] => [] | _ => p end.
Definition resolve_text (cwd : dirpath) (t : bytes) : dirpath :=
  root_form (resolve [] (snd (text_comps (drop_trailing_slash (full_text cwd t))))).

(** ** Hex escapes *)

(** Value of a hexadecimal digit, either case; other characters count as 0. *)
Fixpoint index_of (c : byte) (l : bytes) : option N :=
  match l with
  | [] => None
  | d :: r => if ceq c d then Some 0%N else option_map N.succ (index_of c r)
  end.
Definition hex_value (c : byte) : N :=
  match index_of c (lit "0123456789ABCDEF") with
  | Some n => n
  | None => match index_of c (lit "0123456789abcdef") with Some n => n | None => 0%N end
  end.

(** \xNN is the byte NN, \c is c, anything else stands for itself; an escape cut off
    by the end of the text stands for nothing. *)
Fixpoint decode (s : bytes) : bytes :=
  match s with
  | [] => []
  | c :: r =>
      if ceq c BSL then
        match r with
        | [] => []
        | d :: r' =>
            if ceq d "x"%char then
              match r' with
              | h :: l :: r'' => ascii_of_N (16 * hex_value h + hex_value l) :: decode r''
              | _ => []
              end
            else d :: decode r'
        end
      else c :: decode r
  end.

(** The text "\xNN" for each byte. *)
Definition hex_digit (upper : bool) (n : N) : byte :=
  nth (N.to_nat n) (lit (if upper then "0123456789ABCDEF" else "0123456789abcdef")) "0"%char.
Definition encode_byte (upper : bool) (c : byte) : bytes :=
  [BSL; "x"%char; hex_digit upper (N_of_ascii c / 16); hex_digit upper (N_of_ascii c mod 16)].
Definition encode (upper : bool) (d : bytes) : bytes := flat_map (encode_byte upper) d.

(** Memory after storing [d] at offset [o]. *)
Definition stored (m : bytes) (o : nat) (d : bytes) : bytes :=
  firstn o m ++ d ++ skipn (o + length d) m.
