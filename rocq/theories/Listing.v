(** * Listing: reading what ls and help print (C75). *)
From Verif Require Import Shell Spec Words Sched Editor Line Tree Cmds.

(** ** A reader of the text on the terminal *)

(** The text without colour codes (ESC up to 'm'). *)
Fixpoint unstyled (code : bool) (t : bytes) : bytes :=
  match t with
  | [] => []
  | c :: r => if code then unstyled (negb (ceq c "m"%char)) r else if ceq c ESC then unstyled true r else c :: unstyled false r
  end.
(** Its lines, without the line ends. *)
Fixpoint lines_from (cur t : bytes) : list bytes :=
  match t with
  | [] => []
  | c :: r => if ceq c CR then lines_from cur r else if ceq c LF then cur :: lines_from [] r else lines_from (cur ++ [c]) r
  end.
Definition text_lines (t : bytes) : list bytes := lines_from [] (unstyled false t).

(** A name, and a description: "name   - description". *)
Fixpoint first_part (t : bytes) : bytes := match t with [] => [] | c :: r => if ceq c SP then [] else c :: first_part r end.
Fixpoint after_blanks (t : bytes) : bytes := match t with c :: r => if ceq c SP then after_blanks r else t | [] => [] end.
Definition read_name (t : bytes) : bytes * option bytes :=
  let n := first_part t in
  (n, match after_blanks (skipn (length n) t) with "-"%char :: _ :: d => Some d | _ => None end).

(** What a line of ls tells: a sub-directory; or the name of a file, whether it can be read,
    written and executed and has a help text, and its description. *)
Inductive seen := SeenDir (name : bytes) | SeenFile (name : bytes) (readable writable executable helped : bool) (description : option bytes).
Definition read_ls_line (l : bytes) : list seen :=
  match l with
  | "d"%char :: _ =>
      let n := skipn 6 l in if ceq (last n NUL) SL then [SeenDir (removelast n)] else []
  | _ :: r :: w :: x :: h :: _ =>
      let (n, d) := read_name (skipn 6 l) in
      [SeenFile n (ceq r "r"%char) (ceq w "w"%char) (ceq x "x"%char) (ceq h "h"%char) d]
  | _ => []
  end.
Definition read_ls (t : bytes) : list seen := flat_map read_ls_line (text_lines t).
Definition read_help (t : bytes) : list (bytes * option bytes) := map read_name (text_lines t).

(** ** What there is to see *)
Definition has {A} (o : option A) : bool := match o with Some _ => true | None => false end.
Definition looks (f : file) : seen := SeenFile (f_name f) (has (f_get f)) (has (f_set f)) (has (f_exec f)) (has (f_help f)) (f_desc f).

(** Texts of one line without colour codes; a name is one word. *)
Definition one_line (t : bytes) : Prop := ~ In ESC t /\ ~ In CR t /\ ~ In LF t.
Definition legible (f : file) : Prop :=
  one_line (f_name f) /\ ~ In SP (f_name f) /\ (forall d, f_desc f = Some d -> one_line d).

(** ** Walking through the tree *)

(** The directories found from [p] on, to the depth [n], if [names] tells the sub-directories. *)
Fixpoint explore (n : nat) (names : dirpath -> list bytes) (p : dirpath) : list dirpath :=
  p :: match n with 0 => [] | S n' => flat_map (fun c => explore n' names (p ++ [c])) (names p) end.
