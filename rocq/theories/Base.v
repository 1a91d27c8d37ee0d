(** * Base: bytes, outcomes and C-string primitives on bounded buffers.

    Nothing here models a particular microshell function; it gives meaning to
    the C constructs the library uses (array access, strlen, strcpy, strcat,
    strcmp, strncmp, sprintf into a buffer). *)
From Coq Require Export Ascii String Arith NArith Bool Lia List.
Export ListNotations.
Open Scope list_scope.

(** A C [char]/[uint8_t] is one of 256 values. *)
Notation byte := ascii (only parsing).
Notation bytes := (list ascii) (only parsing).

(** String literals of the C source: ["..."%string] turned into a byte list. *)
Definition lit (s : string) : bytes := list_ascii_of_string s.
Arguments lit s%string.

Definition NUL : byte := "000"%char.
Definition BS  : byte := "008"%char.   (* \x08 *)
Definition TAB : byte := "009"%char.   (* \x09 *)
Definition LF  : byte := "010"%char.   (* \n *)
Definition CR  : byte := "013"%char.   (* \r *)
Definition ETX : byte := "003"%char.   (* \x03, ctrl+c *)
Definition ESC : byte := "027"%char.   (* \x1B *)
Definition SP  : byte := " "%char.
Definition DQ  : byte := "034"%char.   (* double quote *)
Definition BSL : byte := "\"%char.     (* backslash *)
Definition SL  : byte := "/"%char.
Definition DEL : byte := "127"%char.   (* \x7F *)
Definition CRLF : bytes := [CR; LF].

Definition ceq (a b : byte) : bool := Ascii.eqb a b.

(** ** Outcomes *)

(** Every way the C program can leave defined, terminating behaviour. *)
Inductive err :=
| EOob        (* read or write outside an array *)
| ENull       (* null or dangling pointer dereferenced *)
| EUninit     (* indeterminate value used *)
| EAssert     (* USH_ASSERT failed *)
| EWrap       (* size_t subtraction below zero used as a size/index *)
| EDiverge.   (* endless walk over a cyclic list *)

Inductive res (A : Type) :=
| Ok (a : A)
| Err (e : err).
Arguments Ok {A} a.
Arguments Err {A} e.

Definition bind {A B} (m : res A) (f : A -> res B) : res B :=
  match m with Ok a => f a | Err e => Err e end.

Notation "x <- m ;; k" := (bind m (fun x => k))
  (at level 61, m at next level, right associativity).
Notation "' p <- m ;; k" := (bind m (fun p => k))
  (at level 61, p pattern, m at next level, right associativity).

Definition assert_ (b : bool) : res unit := if b then Ok tt else Err EAssert.

Definition is_ok {A} (m : res A) : bool :=
  match m with Ok _ => true | Err _ => false end.

(** ** Arrays *)

(** [b[i]] *)
Definition rd {A} (b : list A) (i : nat) : res A :=
  match nth_error b i with Some x => Ok x | None => Err EOob end.

Fixpoint upd {A} (b : list A) (i : nat) (x : A) : list A :=
  match b, i with
  | [], _ => []
  | _ :: r, 0 => x :: r
  | y :: r, S j => y :: upd r j x
  end.

(** [b[i] = x] *)
Definition wr {A} (b : list A) (i : nat) (x : A) : res (list A) :=
  if i <? length b then Ok (upd b i x) else Err EOob.

(** ** C strings *)

(** The string starting at the head of [b]: bytes up to the first NUL; running
    off the array is out of bounds. *)
Fixpoint c_str0 (b : bytes) : res bytes :=
  match b with
  | [] => Err EOob
  | c :: r => if ceq c NUL then Ok [] else s <- c_str0 r ;; Ok (c :: s)
  end.

(** The string at [&b[off]]. *)
Definition c_str (b : bytes) (off : nat) : res bytes := c_str0 (skipn off b).

Definition c_strlen (b : bytes) (off : nat) : res nat :=
  s <- c_str b off ;; Ok (length s).

(** Store the bytes [s] at [&b[off]]. *)
Definition wr_bytes (b : bytes) (off : nat) (s : bytes) : res bytes :=
  if off + length s <=? length b
  then Ok (firstn off b ++ s ++ skipn (off + length s) b)
  else Err EOob.

(** [strcpy(&b[off], s)] and [sprintf(&b[off], "%s", s)]: the characters and the
    terminating NUL. *)
Definition c_strcpy (b : bytes) (off : nat) (s : bytes) : res bytes :=
  wr_bytes b off (s ++ [NUL]).

(** [strcat(&b[off], s)] *)
Definition c_strcat (b : bytes) (off : nat) (s : bytes) : res bytes :=
  n <- c_strlen b off ;; c_strcpy b (off + n) s.

(** [strcmp(a, b) == 0] on string values. *)
Fixpoint beq (a b : bytes) : bool :=
  match a, b with
  | [], [] => true
  | x :: a', y :: b' => ceq x y && beq a' b'
  | _, _ => false
  end.

(** [strncmp(prefix, input, strlen(prefix)) == 0] on string values. *)
Fixpoint prefixb (p s : bytes) : bool :=
  match p, s with
  | [], _ => true
  | x :: p', y :: s' => ceq x y && prefixb p' s'
  | _ :: _, [] => false
  end.

(** A local array [char x[n]].  Its contents are indeterminate in C; the model
    fills it with a non-NUL byte so that a use of an unterminated string shows
    up as an out-of-bounds read. *)
Definition junk : byte := "?"%char.
Definition local_array (n : nat) : bytes := repeat junk n.

(** No byte of a C string value is NUL. *)
Definition no_nul (s : bytes) : Prop := ~ In NUL s.

(** ** Number formatting (printf %02X, %08lX, %-Ns) *)

Definition hexdig (n : N) : byte :=
  if (n <? 10)%N then ascii_of_N (48 + n) else ascii_of_N (55 + n).

(** Hexadecimal digits of [n], most significant first, at most [fuel] digits,
    no leading zeros (at least one digit when [fuel > 0]). *)
Fixpoint hex_aux (fuel : nat) (n : N) (acc : bytes) : bytes :=
  match fuel with
  | 0 => acc
  | S f =>
      let acc' := hexdig (n mod 16) :: acc in
      if (n <? 16)%N then acc' else hex_aux f (n / 16) acc'
  end.

Definition hex_of_N (n : N) : bytes := hex_aux (S (N.to_nat (N.log2 n))) n [].

(** [%0wX] *)
Definition fmt_hex (w : nat) (n : N) : bytes :=
  let h := hex_of_N n in repeat "0"%char (w - length h) ++ h.

(** [%-ws] *)
Definition fmt_left (w : nat) (s : bytes) : bytes := s ++ repeat SP (w - length s).
