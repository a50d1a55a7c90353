(** * What RSA and ISO 9796-1 are

    Numbers written in bytes, RSA key pairs, and the padding of ISO/IEC 9796-1. *)
From Coq Require Import Znumtheory.
From Verif Require Import Base.
Open Scope Z_scope.

(** ** Numbers in bytes, most significant first *)
Fixpoint value (l : bytes) : Z :=
  match l with
  | [] => 0
  | b :: l' => zb b * 256 ^ Z.of_nat (List.length l') + value l'
  end.

Fixpoint strip (l : bytes) : bytes :=
  match l with
  | b :: l' => if beq b b_nul then strip l' else l
  | [] => []
  end.

(** [n] needs [k] bytes, or [k] bits. *)
Definition byte_size (n k : Z) : Prop := 1 <= k /\ 256 ^ (k - 1) <= n < 256 ^ k.
Definition bit_size (n k : Z) : Prop := 1 <= k /\ 2 ^ (k - 1) <= n < 2 ^ k.

(** ** RSA *)
(** [n] is the modulus of a key pair with the exponents [e] and [d]. *)
Definition rsa_pair (n e d : Z) : Prop :=
  exists p q, prime p /\ prime q /\ p <> q /\ n = p * q /\ 1 <= e /\ 1 <= d /\
    (p - 1 | e * d - 1) /\ (q - 1 | e * d - 1).

(** A product of two different primes *)
Definition rsa_modulus (n : Z) : Prop := exists p q, prime p /\ prime q /\ p <> q /\ n = p * q.

(** ** ISO 9796-1 *)
(** The permutation of half bytes of the standard *)
Definition perm : list Z := [14; 3; 5; 8; 9; 4; 2; 15; 0; 13; 11; 6; 7; 10; 12; 1].
Definition perm_byte (d : Z) : Z :=
  nth (Z.to_nat (d / 16)) perm 0 * 16 + nth (Z.to_nat (d mod 16)) perm 0.

(** Bytes of the message that fit: [t] of them *)
Definition iso_bytes (bits : Z) : Z := (bits + 13) / 16.

(** The last [t] bytes of the message repeated without end to the left: the [j]-th byte
    from the right is the [j mod z]-th byte of the message from the right. *)
Definition extended (m : bytes) (t : nat) : bytes :=
  rev (map (fun j => nth (j mod List.length m) (rev m) b_nul) (seq 0 t)).

(** The extended message with its redundancy: a byte computed from each byte before it; the
    one that belongs to the first byte of the message itself carries the number of padding
    bits plus one; the last half byte is 6. *)
Definition redundant (m : bytes) (t : nat) (pad : Z) : list Z :=
  List.concat (map (fun k =>
    let d := zb (nth k (extended m t) b_nul) in
    [ if (k =? t - List.length m)%nat then Z.lxor (perm_byte d) (pad + 1) else perm_byte d;
      if (k =? t - 1)%nat then d mod 16 * 16 + 6 else d ]) (seq 0 t)).

Definition number (l : list Z) : Z := fold_left (fun v d => v * 256 + d) l 0.

(** The number to be signed has one bit less than the modulus: its leading bit is set, the
    others are the last ones of the message with redundancy. *)
Definition iso_number (bits : Z) (m : bytes) (pad : Z) : Z :=
  2 ^ (bits - 2) + number (redundant m (Z.to_nat (iso_bytes bits)) pad) mod 2 ^ (bits - 2).

(** Sizes of a modulus the padding works for as implemented, and those for which a message
    can be recovered *)
Definition signs (bits : Z) : Prop := ~ (3 <= bits mod 16 <= 8).
Definition recovers (bits : Z) : Prop := bits mod 16 = 0 \/ bits mod 16 = 1 \/ 10 <= bits mod 16.
