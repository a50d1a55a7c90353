(** * A key pair for the examples: Proth's theorem *)
From Coq Require Import ZArith Lia Znumtheory Zpow_facts.
From Verif Require Import Base Rsa_Facts Crypto_Spec Key_Model Key_Spec.
Open Scope Z_scope.

Lemma prime_factor d : 1 < d -> exists p, prime p /\ (p | d) /\ p <= d.
Proof.
  intros D. assert (0 <= d) as D0 by lia. revert D. pattern d. apply (Zlt_0_ind _); [|exact D0]. clear d D0.
  intros d IH _ D. destruct (prime_dec d) as [P|P]; [exists d; split; [exact P|]; split; [apply Z.divide_refl|lia]|].
  apply not_prime_divide in P as (c&C&Dc); [|exact D].
  destruct (IH c ltac:(lia) ltac:(lia)) as (p&P&Dp&L). exists p. split; [exact P|]. split; [|lia].
  eapply Z.divide_trans; eassumption.
Qed.
Lemma small_factor n : 1 < n -> ~ prime n -> exists p, prime p /\ (p | n) /\ p * p <= n.
Proof.
  intros N P. apply not_prime_divide in P as (c&C&(b&E)); [|exact N].
  assert (G : exists x, 1 < x /\ (x | n) /\ x * x <= n).
  { destruct (Z_le_gt_dec b c).
    - exists b. split; [nia|]. split; [exists c; lia|nia].
    - exists c. split; [lia|]. split; [exists b; lia|nia]. }
  destruct G as (x&X&Dx&S). destruct (prime_factor x X) as (p&Pp&Dp&L). exists p. split; [exact Pp|].
  split; [eapply Z.divide_trans; eassumption|]. assert (2 <= p) by (destruct Pp; lia). nia.
Qed.

(** An even and an odd part *)
Lemma two_part d : 0 < d -> exists j o, 0 <= j /\ d = 2 ^ j * o /\ Z.odd o = true.
Proof.
  intros D. assert (0 <= d) as D0 by lia. revert D. pattern d. apply (Zlt_0_ind _); [|exact D0]. clear d D0.
  intros d IH _ D. destruct (Z.odd d) eqn:O.
  - exists 0, d. split; [lia|]. split; [|exact O]. rewrite Z.pow_0_r. lia.
  - rewrite <- Z.negb_even in O. apply Bool.negb_false_iff, Z.even_spec in O as (c&->).
    destruct (IH c ltac:(lia) ltac:(lia)) as (j&o&J&->&O). exists (j + 1), o. split; [lia|]. split; [|exact O].
    rewrite Z.pow_add_r by lia. lia.
Qed.
Lemma minus_one_odd p o : 1 < p -> 0 <= o -> Z.odd o = true -> (p - 1) ^ o mod p = p - 1.
Proof.
  intros P O E. apply Z.odd_spec in E as (c&->). rewrite Z.pow_add_r, Z.pow_mul_r, Z.pow_1_r by lia.
  rewrite Z.mul_mod, Zpower_mod by lia. replace ((p - 1) ^ 2 mod p) with 1.
  - rewrite Z.pow_1_l by lia. rewrite (Z.mod_small 1) by lia. rewrite Z.mul_1_l, Z.mod_mod by lia. apply Z.mod_small. lia.
  - apply (Zmod_unique _ _ (p - 2)); [lia|]. rewrite Z.pow_2_r. ring.
Qed.

Lemma proth h k a : 0 < h < 2 ^ k -> 1 <= k -> a ^ (h * 2 ^ (k - 1)) mod (h * 2 ^ k + 1) = h * 2 ^ k -> prime (h * 2 ^ k + 1).
Proof.
  intros H K E. set (n := h * 2 ^ k + 1) in *. assert (K2 : 2 ^ k = 2 * 2 ^ (k - 1)) by (rewrite <- Z.pow_succ_r by lia; f_equal; lia).
  assert (0 < 2 ^ (k - 1)) by (apply Z.pow_pos_nonneg; lia). assert (N : 1 < n) by (unfold n; nia).
  destruct (prime_dec n) as [P|P]; [exact P|exfalso]. destruct (small_factor n N P) as (p&Pp&(c&C)&S).
  assert (2 <= p) as P2 by (destruct Pp; lia).
  assert (Po : p <> 2) by (intros ->; unfold n in C; lia).
  (* modulo p the power is -1 *)
  assert (Ep : a ^ (h * 2 ^ (k - 1)) mod p = p - 1).
  { pose proof (Z.div_mod (a ^ (h * 2 ^ (k - 1))) n ltac:(lia)) as Q. rewrite E in Q.
    set (y := a ^ (h * 2 ^ (k - 1)) / n) in Q. rewrite Q. replace (h * 2 ^ k) with (n - 1) by (unfold n; lia). rewrite C.
    symmetry. apply (Zmod_unique _ _ (c * y + c - 1)); [lia|]. ring. }
  assert (Nz : ~ (p | a)).
  { intros Z0. apply Z.mod_divide in Z0; [|lia]. rewrite Zpower_mod, Z0 in Ep by lia. rewrite Z.pow_0_l in Ep by nia. rewrite Z.mod_0_l in Ep; lia. }
  destruct (two_part (p - 1) ltac:(lia)) as (j&o&J&Ej&O).
  assert (0 < 2 ^ j) by (apply Z.pow_pos_nonneg; lia). assert (0 < o) by nia.
  assert (L : k <= j).
  { destruct (Z_le_gt_dec k j) as [L|L]; [exact L|exfalso].
    assert (X : a ^ (h * 2 ^ (k - 1) * o) mod p = p - 1).
    { rewrite Z.pow_mul_r by nia. rewrite Zpower_mod, Ep by lia. apply minus_one_odd; [lia|lia|exact O]. }
    assert (Y : a ^ (h * 2 ^ (k - 1) * o) mod p = 1).
    { assert (0 <= h * 2 ^ (k - 1 - j)) by (apply Z.mul_nonneg_nonneg; [lia|apply Z.pow_nonneg; lia]).
      replace (h * 2 ^ (k - 1) * o) with ((p - 1) * (h * 2 ^ (k - 1 - j))).
      - rewrite Z.pow_mul_r by lia.
        rewrite Zpower_mod by lia. rewrite fermat by assumption. rewrite Z.pow_1_l by lia. apply Z.mod_small. lia.
      - rewrite Ej. replace (2 ^ (k - 1)) with (2 ^ j * 2 ^ (k - 1 - j)) by (rewrite <- Z.pow_add_r by lia; f_equal; lia). ring. }
    lia. }
  assert (2 ^ k <= 2 ^ j) by (apply Z.pow_le_mono_r; lia). assert (2 ^ k + 1 <= p) by nia. unfold n in S. nia.
Qed.

(** Powers by squaring *)
Fixpoint power_mod (n a : Z) (e : positive) : Z :=
  match e with
  | xH => a mod n
  | xO e' => Z.square (power_mod n a e') mod n
  | xI e' => (a * (Z.square (power_mod n a e') mod n)) mod n
  end.
Lemma power_mod_spec n a e : 0 < n -> power_mod n a e = a ^ Z.pos e mod n.
Proof.
  intros N. induction e as [e IH|e IH|]; cbn [power_mod].
  - rewrite IH, Z.square_spec. rewrite <- Z.mul_mod by lia. rewrite Z.mul_mod_idemp_r by lia.
    replace (Z.pos e~1) with (1 + (Z.pos e + Z.pos e)) by lia. now rewrite !Z.pow_add_r, Z.pow_1_r by lia.
  - rewrite IH, Z.square_spec. replace (Z.pos e~0) with (Z.pos e + Z.pos e) by lia. rewrite Z.pow_add_r by lia. symmetry. apply Z.mul_mod. lia.
  - now rewrite Z.pow_1_r.
Qed.

Definition prime_1 : Z := 9223372036854775769 * 2 ^ 65 + 1.
Definition prime_2 : Z := 9223372036854775731 * 2 ^ 65 + 1.
Lemma prime_1_prime : prime prime_1.
Proof.
  apply (proth _ _ 3); [lia|lia|]. change (9223372036854775769 * 2 ^ (65 - 1)) with 170141183460469231012264284841211592704.
  rewrite <- power_mod_spec by lia. lazy. reflexivity.
Qed.
Lemma prime_2_prime : prime prime_2.
Proof.
  apply (proth _ _ 5); [lia|lia|]. change (9223372036854775731 * 2 ^ (65 - 1)) with 170141183460469230311288010040248631296.
  rewrite <- power_mod_spec by lia. lazy. reflexivity.
Qed.
