(** * Specification vocabulary for the transport: Base64 after RFC 4648, by bits *)
From Verif Require Import Base Transport_Model.
Open Scope Z_scope.

(** The bits of a byte, the highest first. *)
Definition bits8 (b : byte) : list bool := map (fun k => Z.testbit (zb b) k) [7; 6; 5; 4; 3; 2; 1; 0].
Definition bits_of (s : bytes) : list bool := flat_map bits8 s.
(** The number given by bits, the highest first. *)
Definition number (bs : list bool) : Z := fold_left (fun n (b : bool) => 2 * n + if b then 1 else 0) bs 0.
Definition letter (bs : list bool) : byte := nth (Z.to_nat (number bs)) alphabet b_eq.
(** One letter for every six bits; zero bits complete the last six. *)
Fixpoint letters (bs : list bool) : bytes :=
  match bs with
  | a :: b :: c :: d :: e :: f :: r => letter [a; b; c; d; e; f] :: letters r
  | [] => []
  | rest => [letter (rest ++ repeat false (6 - List.length rest))]
  end.
(** '=' up to a multiple of four characters. *)
Definition pad4 (s : bytes) : bytes :=
  s ++ repeat "="%byte ((4 - List.length s mod 4) mod 4).
Definition rfc4648 (s : bytes) : bytes := pad4 (letters (bits_of s)).

(** [broken_into_lines t w]: w is t with carriage returns and line feeds put
    anywhere. *)
Inductive broken_into_lines : bytes -> bytes -> Prop :=
| bl_nil : broken_into_lines [] []
| bl_char c t w : broken_into_lines t w -> broken_into_lines (c :: t) (c :: w)
| bl_cr t w : broken_into_lines t w -> broken_into_lines t (b_cr :: w)
| bl_lf t w : broken_into_lines t w -> broken_into_lines t (b_lf :: w).

(** The shape of Base64 text: letters of the alphabet, then at most two '=', a
    multiple of four characters in all. *)
Definition base64_shape (t : bytes) : Prop :=
  exists ls n, t = ls ++ repeat "="%byte n /\ (forall c, In c ls -> In c alphabet) /\ (n <= 2)%nat /\
    (List.length t mod 4 = 0)%nat.
