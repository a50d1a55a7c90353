(** * Arithmetic behind RSA: Fermat's little theorem and the inverse exponent

    Facts about integers only; nothing here refers to the model. *)
From Coq Require Import ZArith Znumtheory Zpow_facts List Permutation Lia.
Import ListNotations.
Open Scope Z_scope.

Definition product (l : list Z) : Z := fold_right Z.mul 1 l.

Lemma product_perm l l' : Permutation l l' -> product l = product l'.
Proof. induction 1; cbn; try (f_equal; assumption); try lia. Qed.

Lemma product_map_mod a p l : p <> 0 ->
  product (map (fun i => (a * i) mod p) l) mod p = (a ^ Z.of_nat (length l) * product l) mod p.
Proof.
  intros Hp. induction l as [|x l IH]; [cbn; reflexivity|].
  change (product (map (fun i => (a * i) mod p) (x :: l)))
    with ((a * x) mod p * product (map (fun i => (a * i) mod p) l)).
  change (product (x :: l)) with (x * product l). cbn [length].
  rewrite Nat2Z.inj_succ, Z.pow_succ_r by lia.
  rewrite Z.mul_mod, IH, Z.mod_mod, <- Z.mul_mod by assumption. f_equal. ring.
Qed.

Lemma NoDup_map_inj {A C} (f : A -> C) l :
  (forall x y, In x l -> In y l -> f x = f y -> x = y) -> NoDup l -> NoDup (map f l).
Proof.
  intros I N. induction N as [|x l Nx N IH]; cbn; constructor.
  - rewrite in_map_iff. intros (y&E&Iy). apply Nx. rewrite (I x y); cbn; auto.
  - apply IH. intros. apply I; cbn; auto.
Qed.

Lemma product_prime p l : prime p -> (forall x, In x l -> 1 <= x < p) -> rel_prime (product l) p.
Proof.
  intros P. induction l as [|x l IH]; intros I.
  - apply rel_prime_1.
  - change (product (x :: l)) with (x * product l). apply rel_prime_sym. apply rel_prime_mult.
    + apply rel_prime_sym, rel_prime_le_prime; [exact P|apply I; now left].
    + apply rel_prime_sym, IH. intros. apply I. now right.
Qed.

Lemma mod_cancel a b c p : prime p -> rel_prime c p -> (a * c) mod p = (b * c) mod p -> a mod p = b mod p.
Proof.
  intros P R E. assert (2 <= p) by (destruct P; lia).
  assert (D : (p | (a - b) * c)).
  { apply Z.mod_divide; [lia|]. replace ((a - b) * c) with (a * c - b * c) by ring.
    rewrite Zminus_mod, E, Z.sub_diag. reflexivity. }
  rewrite Z.mul_comm in D.
  assert (D' : (p | a - b)) by (eapply Gauss; [exact D|now apply rel_prime_sym]).
  destruct D' as (k&K). replace a with (b + k * p) by lia. now rewrite Z_mod_plus_full.
Qed.

Lemma fermat p a : prime p -> ~ (p | a) -> a ^ (p - 1) mod p = 1.
Proof.
  intros P Na. assert (Hp : 2 <= p) by (destruct P; lia).
  set (l := map Z.of_nat (seq 1 (Z.to_nat (p - 1)))).
  set (f := fun i => (a * i) mod p).
  assert (Il : forall x, In x l <-> 1 <= x < p).
  { intros x. unfold l. rewrite in_map_iff. split.
    - intros (n&<-&I). apply in_seq in I. lia.
    - intros H. exists (Z.to_nat x). split; [lia|]. apply in_seq. lia. }
  assert (Nl : NoDup l).
  { apply NoDup_map_inj; [lia|apply seq_NoDup]. }
  assert (Ra : rel_prime a p).
  { apply rel_prime_sym. apply prime_rel_prime; assumption. }
  assert (Pm : Permutation (map f l) l).
  { apply NoDup_Permutation_bis.
    - apply NoDup_map_inj; [|exact Nl]. intros x y Ix Iy E. apply Il in Ix. apply Il in Iy.
      unfold f in E. rewrite !(Z.mul_comm a) in E. apply (mod_cancel x y a p P Ra) in E.
      rewrite !Z.mod_small in E by lia. exact E.
    - now rewrite map_length.
    - intros y Iy. apply in_map_iff in Iy as (x&<-&Ix). apply Il in Ix. apply Il. unfold f.
      pose proof (Z.mod_pos_bound (a * x) p ltac:(lia)).
      assert ((a * x) mod p <> 0); [|lia]. intros Z0. apply Z.mod_divide in Z0; [|lia].
      apply prime_mult in Z0 as [D|D]; [contradiction| |exact P].
      apply Z.divide_pos_le in D; lia. }
  pose proof (product_map_mod a p l ltac:(lia)) as E. fold f in E.
  rewrite (product_perm _ _ Pm) in E.
  assert (length l = Z.to_nat (p - 1)) as L by (unfold l; now rewrite map_length, seq_length).
  rewrite L, Z2Nat.id in E by lia.
  rewrite <- (Z.mul_1_l (product l)) in E at 1. symmetry in E.
  apply (mod_cancel _ _ _ p P) in E; [|apply product_prime; [exact P|intros x Ix; now apply Il]].
  rewrite E. apply Z.mod_1_l. lia.
Qed.

Lemma inverse_mod_prime p a k : prime p -> 1 <= k -> (p - 1 | k - 1) -> a ^ k mod p = a mod p.
Proof.
  intros P K (j&J). assert (Hp : 2 <= p) by (destruct P; lia).
  assert (0 <= j) by nia.
  destruct (Zdivide_dec p a) as [D|D].
  - assert (a mod p = 0) as -> by (apply Z.mod_divide; [lia|exact D]).
    apply Z.mod_divide; [lia|]. replace k with (1 + (k - 1)) by lia.
    rewrite Z.pow_add_r, Z.pow_1_r by lia. now apply Z.divide_mul_l.
  - replace k with ((p - 1) * j + 1) by lia.
    rewrite Z.pow_add_r, Z.pow_1_r, Z.pow_mul_r by nia.
    rewrite Z.mul_mod, (Zpower_mod _ j) by lia.
    rewrite fermat by assumption. rewrite Z.pow_1_l by lia. rewrite <- Z.mul_mod by lia.
    now rewrite Z.mul_1_l.
Qed.

(** The exponents of an RSA key pair undo each other. *)
Lemma rsa_inverse p q e d a : prime p -> prime q -> p <> q -> 1 <= e -> 1 <= d ->
  (p - 1 | e * d - 1) -> (q - 1 | e * d - 1) ->
  ((a ^ e) mod (p * q)) ^ d mod (p * q) = a mod (p * q).
Proof.
  intros P Q N He Hd Dp Dq. assert (2 <= p) by (destruct P; lia). assert (2 <= q) by (destruct Q; lia).
  rewrite <- Zpower_mod by nia. rewrite <- Z.pow_mul_r by lia.
  assert (Ep : (p | a ^ (e * d) - a)).
  { apply Z.mod_divide; [lia|]. rewrite Zminus_mod, (inverse_mod_prime p) by (auto; nia).
    now rewrite Z.sub_diag. }
  assert (Eq : (q | a ^ (e * d) - a)).
  { apply Z.mod_divide; [lia|]. rewrite Zminus_mod, (inverse_mod_prime q) by (auto; nia).
    now rewrite Z.sub_diag. }
  assert (R : rel_prime p q).
  { apply prime_rel_prime; [exact P|]. intros D. apply prime_div_prime in D; auto. }
  destruct Ep as (i&I). rewrite I in Eq. rewrite Z.mul_comm in Eq.
  assert (Di : (q | i)) by (eapply Gauss; [exact Eq|now apply rel_prime_sym]).
  destruct Di as (j&J). replace (a ^ (e * d)) with (a + j * (p * q)) by (rewrite J in I; lia).
  now rewrite Z_mod_plus_full.
Qed.

(** Only multiples of the modulus have powers that are multiples of it. *)
Lemma rsa_zero p q e a : prime p -> prime q -> p <> q -> 1 <= e ->
  (a ^ e) mod (p * q) = 0 <-> a mod (p * q) = 0.
Proof.
  intros P Q N He. assert (2 <= p) by (destruct P; lia). assert (2 <= q) by (destruct Q; lia).
  assert (R : rel_prime p q).
  { apply prime_rel_prime; [exact P|]. intros D. apply prime_div_prime in D; auto. }
  assert (K : forall r, prime r -> (r | a ^ e) -> (r | a)).
  { intros r Pr. assert (1 <= Z.of_nat (Z.to_nat e)) as Z1 by lia. rewrite <- (Z2Nat.id e) by lia.
    induction (Z.to_nat e) as [|n IH]; [lia|]. rewrite Nat2Z.inj_succ, Z.pow_succ_r by lia.
    intros D. apply prime_mult in D as [D|D]; [exact D| |exact Pr].
    destruct n; [cbn in D; apply Z.divide_trans with 1; [exact D|apply Z.divide_1_l]|].
    apply IH; [lia|exact D]. }
  split; intros E.
  - apply Z.mod_divide in E; [|nia]. apply Z.mod_divide; [nia|].
    assert (Dp : (p | a)) by (apply K; [exact P|]; eapply Z.divide_trans; [apply Z.divide_factor_l|exact E]).
    assert (Dq : (q | a)) by (apply K; [exact Q|]; eapply Z.divide_trans; [apply Z.divide_factor_r|exact E]).
    destruct Dp as (i&I). rewrite I, Z.mul_comm in Dq.
    assert (Di : (q | i)) by (eapply Gauss; [exact Dq|now apply rel_prime_sym]).
    destruct Di as (j&J). exists j. lia.
  - apply Z.mod_divide; [nia|]. apply Z.mod_divide in E; [|nia].
    replace e with (1 + (e - 1)) by lia. rewrite Z.pow_add_r, Z.pow_1_r by lia. now apply Z.divide_mul_l.
Qed.
