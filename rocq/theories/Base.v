(** * Common vocabulary of the model

    Bytes, Go-like outcomes and the few Go standard library functions on byte
    slices and decimal numbers the code base uses.  A Go [[]byte] or [string] is
    a [list byte]. *)
From Coq Require Export List ZArith NArith Bool String Ascii.
From Coq Require Export Init.Byte Strings.Byte.
Export ListNotations.
#[global] Open Scope list_scope.

Definition bytes := list byte.

(** String literals as byte lists: [B "HNHBK"]. *)
Definition B (s : string) : bytes := list_byte_of_string s.
Arguments B s%string_scope.

(** Go result conventions: a value, an [error], or a run time panic. *)
Inductive outcome (A : Type) : Type :=
| Ok (a : A)
| Err
| Panic.
Arguments Ok {A} a.
Arguments Err {A}.
Arguments Panic {A}.

Definition obind {A C} (o : outcome A) (f : A -> outcome C) : outcome C :=
  match o with Ok a => f a | Err => Err | Panic => Panic end.
Definition omap {A C} (f : A -> C) (o : outcome A) : outcome C :=
  obind o (fun a => Ok (f a)).
Notation "'do' x <- o ; k" := (obind o (fun x => k))
  (at level 200, x pattern, o at level 100, k at level 200, right associativity).

(** [all_ok f l] is the usual Go loop [for _, x := range l { y, err := f(x); if
    err != nil { return err } ... }]. *)
Fixpoint all_ok {A C} (f : A -> outcome C) (l : list A) : outcome (list C) :=
  match l with
  | [] => Ok []
  | x :: l' => do y <- f x; do ys <- all_ok f l'; Ok (y :: ys)
  end.

Definition beq (a b : byte) : bool := Byte.eqb a b.

Fixpoint bytes_eqb (a b : bytes) : bool :=
  match a, b with
  | [], [] => true
  | x :: a', y :: b' => beq x y && bytes_eqb a' b'
  | _, _ => false
  end.

Definition zb (b : byte) : Z := Z.of_N (Byte.to_N b).

(** HBCI syntax bytes, token/lexer.go:10-17 *)
Definition b_nul   : byte := "000"%byte.
Definition b_plus  : byte := "+"%byte.
Definition b_colon : byte := ":"%byte.
Definition b_quote : byte := "'"%byte.
Definition b_qmark : byte := "?"%byte.
Definition b_at    : byte := "@"%byte.
Definition b_comma : byte := ","%byte.
Definition b_cr    : byte := "013"%byte.
Definition b_lf    : byte := "010"%byte.
Definition b_minus : byte := "-"%byte.
Definition b_zero  : byte := "0"%byte.

(** ['0' <= b && b <= '9'] *)
Definition is_digit (b : byte) : bool :=
  (48 <=? zb b)%Z && (zb b <=? 57)%Z.

(** [bytes.Join(ls, sep)] *)
Fixpoint join (sep : bytes) (ls : list bytes) : bytes :=
  match ls with
  | [] => []
  | [x] => x
  | x :: ls' => x ++ sep ++ join sep ls'
  end.

(** [bytes.Split(l, []byte{sep})] *)
Fixpoint split_on (sep : byte) (l : bytes) : list bytes :=
  match l with
  | [] => [[]]
  | b :: l' =>
      if beq b sep then [] :: split_on sep l'
      else match split_on sep l' with
           | [] => [[b]]           (* not reached: the result is never empty *)
           | x :: xs => (b :: x) :: xs
           end
  end.

(** [bytes.HasPrefix(l, p)] *)
Fixpoint has_prefix (p l : bytes) : bool :=
  match p, l with
  | [], _ => true
  | x :: p', y :: l' => beq x y && has_prefix p' l'
  | _ :: _, [] => false
  end.

(** Drops the longest prefix of bytes equal to [c]. *)
Fixpoint trim_left (c : byte) (l : bytes) : bytes :=
  match l with
  | [] => []
  | b :: l' => if beq b c then trim_left c l' else l
  end.

(** [bytes.TrimRight(l, string(c))] *)
Definition trim_right (c : byte) (l : bytes) : bytes := rev (trim_left c (rev l)).

(** [bytes.IndexByte(l, b) >= 0] *)
Definition mem_byte (b : byte) (l : bytes) : bool := existsb (beq b) l.

(** ** Decimal numbers *)

Definition digit_char (n : N) : byte :=
  match Byte.of_N (48 + n) with Some b => b | None => b_zero end.
Definition digit_val (b : byte) : N := (Byte.to_N b - 48)%N.

Fixpoint dec_digits (fuel : nat) (n : N) (acc : bytes) : bytes :=
  match fuel with
  | O => acc
  | S f =>
      let acc' := digit_char (n mod 10) :: acc in
      if (n / 10 =? 0)%N then acc' else dec_digits f (n / 10) acc'
  end.

(** [strconv.Itoa] / [fmt.Sprintf("%d")] on naturals and integers. *)
Definition itoa_N (n : N) : bytes := dec_digits (S (N.size_nat n)) n [].
Definition itoa (z : Z) : bytes :=
  if (z <? 0)%Z then b_minus :: itoa_N (Z.to_N (- z)) else itoa_N (Z.to_N z).

(** [fmt.Sprintf("%0*d", w, z)]: zero padding to width [w], sign first. *)
Definition pad_left (w : nat) (l : bytes) : bytes :=
  repeat b_zero (w - List.length l) ++ l.
Definition itoa_pad (w : nat) (z : Z) : bytes :=
  if (z <? 0)%Z then b_minus :: pad_left (w - 1) (itoa_N (Z.to_N (- z)))
  else pad_left w (itoa_N (Z.to_N z)).

Definition dec_val (l : bytes) : N :=
  fold_left (fun a b => (10 * a + digit_val b)%N) l 0%N.

Definition int64_max : Z := 9223372036854775807.
Definition int64_min : Z := -9223372036854775808.
Definition in_int64 (z : Z) : bool := ((int64_min <=? z) && (z <=? int64_max))%Z.

(** [strconv.Atoi]: optional sign, at least one decimal digit, nothing else,
    range error outside int64. *)
Definition atoi_digits (l : bytes) : option N :=
  match l with
  | [] => None
  | _ => if forallb is_digit l then Some (dec_val l) else None
  end.
Definition atoi (l : bytes) : outcome Z :=
  let parse (neg : bool) (ds : bytes) :=
    match atoi_digits ds with
    | None => Err
    | Some n =>
        let z := (if neg then - Z.of_N n else Z.of_N n)%Z in
        if in_int64 z then Ok z else Err
    end in
  match l with
  | c :: ds =>
      if beq c b_minus then parse true ds
      else if beq c b_plus then parse false ds
      else parse false l
  | [] => Err
  end.
