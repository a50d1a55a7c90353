(** * CRC-32: what it can tell apart (for C56 and C66) *)
From Coq Require Import Lia ZifyBool ZifyNat ZifyN.
From Verif Require Import Base Dialog_Model Seg_Model Request_Model.
Open Scope N_scope.

Lemma odd_lxor a b : N.odd (N.lxor a b) = xorb (N.odd a) (N.odd b).
Proof. rewrite <- !N.bit0_odd. apply N.lxor_spec. Qed.
Lemma shift_lxor a b : crc_shift (N.lxor a b) = N.lxor (crc_shift a) (crc_shift b).
Proof.
  unfold crc_shift. rewrite odd_lxor, N.shiftr_lxor. set (P := 0xEDB88320). clearbody P.
  destruct (N.odd a), (N.odd b); cbn [xorb]; apply N.bits_inj; intros i; rewrite !N.lxor_spec;
    destruct (N.testbit (N.shiftr a 1) i), (N.testbit (N.shiftr b 1) i), (N.testbit P i); reflexivity.
Qed.
Lemma lxor_small a b n : a < 2 ^ n -> b < 2 ^ n -> N.lxor a b < 2 ^ n.
Proof.
  intros A B. destruct (N.eq_dec (N.lxor a b) 0) as [->|Z]; [apply N.neq_0_lt_0, N.pow_nonzero; discriminate|].
  destruct (N.eq_dec a 0) as [->|Za]; [rewrite N.lxor_0_l; exact B|].
  destruct (N.eq_dec b 0) as [->|Zb]; [rewrite N.lxor_0_r; exact A|].
  apply N.log2_lt_pow2; [lia|]. eapply N.le_lt_trans; [apply N.log2_lxor|]. apply N.max_lub_lt; apply N.log2_lt_pow2; lia.
Qed.
Lemma shift_small c : c < 2 ^ 32 -> crc_shift c < 2 ^ 32.
Proof.
  intros H. unfold crc_shift. rewrite N.shiftr_div_pow2. change (2 ^ 1) with 2.
  assert (c / 2 < 2 ^ 32) by (apply N.div_lt_upper_bound; lia). destruct (N.odd c); [|assumption]. apply lxor_small; [assumption|reflexivity].
Qed.
Lemma shift_zero c : c < 2 ^ 32 -> crc_shift c = 0 -> c = 0.
Proof.
  intros H. unfold crc_shift. rewrite N.shiftr_div_pow2. change (2 ^ 1) with 2.
  assert (D : c / 2 < 2 ^ 31) by (apply N.div_lt_upper_bound; [lia|]; exact H).
  destruct (N.odd c) eqn:O; intros E.
  - apply N.lxor_eq in E. rewrite E in D. vm_compute in D. discriminate.
  - pose proof (N.div_mod c 2 ltac:(lia)) as M. rewrite E in M. rewrite <- (N.bit0_mod c), N.bit0_odd, O in M. cbn in M. lia.
Qed.
Lemma shift_double n : crc_shift (2 * n) = n.
Proof.
  unfold crc_shift. replace (N.odd (2 * n)) with false by (symmetry; rewrite N.odd_mul; reflexivity).
  rewrite N.shiftr_div_pow2. change (2 ^ 1) with 2. rewrite N.mul_comm. now apply N.div_mul.
Qed.
Fixpoint shifts (k : nat) (c : N) : N := match k with O => c | S j => shifts j (crc_shift c) end.
Lemma shifts_lxor k : forall a b, shifts k (N.lxor a b) = N.lxor (shifts k a) (shifts k b).
Proof. induction k as [|k IH]; intros a b; [reflexivity|]. cbn [shifts]. now rewrite shift_lxor. Qed.
Lemma shifts_add j k c : shifts (j + k) c = shifts k (shifts j c).
Proof. revert c. induction j as [|j IH]; intros c; [reflexivity|]. cbn [shifts Nat.add]. apply IH. Qed.
Lemma shifts_small k c : c < 2 ^ 32 -> shifts k c < 2 ^ 32.
Proof. revert c. induction k as [|k IH]; intros c H; [exact H|]. cbn [shifts]. apply IH, shift_small, H. Qed.
Lemma shifts_zero k c : c < 2 ^ 32 -> shifts k c = 0 -> c = 0.
Proof. revert c. induction k as [|k IH]; intros c H E; [exact E|]. cbn [shifts] in E. apply shift_zero; [exact H|]. apply IH; [now apply shift_small|exact E]. Qed.
Lemma shifts_byte n : shifts 8 (256 * n) = n.
Proof.
  replace (256 * n) with (2 * (2 * (2 * (2 * (2 * (2 * (2 * (2 * n)))))))) by lia. cbn [shifts]. now rewrite !shift_double.
Qed.
Lemma byte_shifts c b : crc_byte c b = shifts 8 (N.lxor c (Byte.to_N b)).
Proof. reflexivity. Qed.

(** The bytes as a number, lowest first *)
Fixpoint low_first (l : bytes) : N := match l with [] => 0 | b :: r => N.lxor (Byte.to_N b) (256 * low_first r) end.
Lemma shift_8 n : 256 * n = N.shiftl n 8.
Proof. rewrite N.shiftl_mul_pow2. change (2 ^ 8) with 256. lia. Qed.
Lemma byte_small b : Byte.to_N b < 2 ^ 8.
Proof. pose proof (Byte.to_N_bounded b). change (2 ^ 8) with 256. lia. Qed.
Lemma low_first_small l : low_first l < 2 ^ (8 * N.of_nat (List.length l)).
Proof.
  induction l as [|b r IH]; [reflexivity|]. cbn [low_first List.length]. apply lxor_small.
  - eapply N.lt_le_trans; [apply byte_small|]. apply N.pow_le_mono_r; lia.
  - replace (8 * N.of_nat (S (List.length r))) with (8 + 8 * N.of_nat (List.length r)) by lia. rewrite N.pow_add_r. change (2 ^ 8) with 256. apply N.mul_lt_mono_pos_l; [lia|exact IH].
Qed.
Lemma low_first_inj x : forall y, List.length x = List.length y -> low_first x = low_first y -> x = y.
Proof.
  induction x as [|b x IH]; intros [|c y] L E; try discriminate; [reflexivity|]. cbn [low_first List.length] in *.
  assert (M : forall a (n : N), (N.lxor (Byte.to_N a) (256 * n)) mod 2 ^ 8 = Byte.to_N a /\ N.shiftr (N.lxor (Byte.to_N a) (256 * n)) 8 = n).
  { intros a n. rewrite shift_8. split.
    - rewrite <- N.land_ones. apply N.bits_inj. intros i. rewrite N.land_spec, N.lxor_spec. destruct (N.lt_ge_cases i 8) as [H|H].
      + rewrite N.ones_spec_low, N.shiftl_spec_low by exact H. destruct (N.testbit (Byte.to_N a) i); reflexivity.
      + rewrite N.ones_spec_high by exact H. rewrite Bool.andb_false_r. symmetry. destruct (N.eq_dec (Byte.to_N a) 0) as [->|Z]; [apply N.bits_0|]. apply N.bits_above_log2.
        eapply N.lt_le_trans; [|exact H]. apply N.log2_lt_pow2; [lia|apply byte_small].
    - rewrite N.shiftr_lxor, N.shiftr_shiftl_l, N.sub_diag, N.shiftl_0_r by lia. rewrite (N.shiftr_div_pow2 (Byte.to_N a)), N.div_small by apply byte_small. apply N.lxor_0_l. }
  destruct (M b (low_first x)) as [B1 B2], (M c (low_first y)) as [C1 C2].
  rewrite <- E in C1, C2. f_equal.
  - assert (T : Byte.to_N b = Byte.to_N c) by (rewrite <- B1, <- C1; reflexivity).
    pose proof (Byte.of_to_N b) as X. rewrite T, Byte.of_to_N in X. now injection X.
  - apply IH; [lia|]. rewrite <- B2, <- C2. reflexivity.
Qed.

Lemma fold_difference x : forall y s t, List.length x = List.length y ->
  N.lxor (fold_left crc_byte x s) (fold_left crc_byte y t) = shifts (8 * List.length x) (N.lxor (N.lxor s t) (N.lxor (low_first x) (low_first y))).
Proof.
  induction x as [|b x IH]; intros [|c y] s t L; try discriminate.
  - cbn. now rewrite N.lxor_0_r.
  - cbn [fold_left List.length low_first] in *. rewrite IH by lia. rewrite !byte_shifts.
    replace (8 * S (List.length x))%nat with (8 + 8 * List.length x)%nat by lia. rewrite shifts_add. f_equal.
    rewrite !shifts_lxor, !shifts_byte. set (p := shifts 8 s). set (q := shifts 8 t). set (u := shifts 8 (Byte.to_N b)). set (v := shifts 8 (Byte.to_N c)).
    set (m := low_first x). set (n := low_first y). clearbody p q u v m n. apply N.bits_inj. intros i. rewrite !N.lxor_spec.
    destruct (N.testbit p i), (N.testbit q i), (N.testbit u i), (N.testbit v i), (N.testbit m i), (N.testbit n i); reflexivity.
Qed.

Lemma crc_small x s : s < 2 ^ 32 -> fold_left crc_byte x s < 2 ^ 32.
Proof.
  revert s. induction x as [|b x IH]; intros s H; [exact H|]. cbn [fold_left]. apply IH. rewrite byte_shifts. apply shifts_small. apply lxor_small; [exact H|].
  eapply N.lt_le_trans; [apply byte_small|]. apply N.pow_le_mono_r; lia.
Qed.
Lemma crc32_small x : crc32 x < 2 ^ 32.
Proof. apply lxor_small; [apply crc_small; reflexivity|reflexivity]. Qed.

(** Texts that differ in a stretch of at most four bytes have different checksums. *)
Lemma crc32_differs pre x y post : List.length x = List.length y -> (List.length x <= 4)%nat -> x <> y ->
  crc32 (pre ++ x ++ post) <> crc32 (pre ++ y ++ post).
Proof.
  intros L S D E. unfold crc32 in E.
  assert (E' : N.lxor (fold_left crc_byte (pre ++ x ++ post) 0xFFFFFFFF) (fold_left crc_byte (pre ++ y ++ post) 0xFFFFFFFF) = 0).
  { apply N.lxor_eq_0_iff. apply (f_equal (fun n => N.lxor n 0xFFFFFFFF)) in E. rewrite !N.lxor_assoc, N.lxor_nilpotent, !N.lxor_0_r in E. exact E. }
  rewrite !fold_left_app in E'. set (s := fold_left crc_byte pre 0xFFFFFFFF) in *.
  rewrite fold_difference in E' by reflexivity. rewrite fold_difference in E' by exact L.
  rewrite !N.lxor_nilpotent, N.lxor_0_r, N.lxor_0_l in E'.
  assert (B : forall l, (List.length l <= 4)%nat -> low_first l < 2 ^ 32).
  { intros l Hl. eapply N.lt_le_trans; [apply low_first_small|]. apply N.pow_le_mono_r; lia. }
  assert (Q : N.lxor (low_first x) (low_first y) < 2 ^ 32) by (apply lxor_small; apply B; lia).
  apply shifts_zero in E'; [|now apply shifts_small]. apply shifts_zero in E'; [|exact Q]. apply N.lxor_eq in E'.
  apply D. now apply low_first_inj.
Qed.

Lemma hex_inj k : forall n m, n < 16 ^ N.of_nat k -> m < 16 ^ N.of_nat k -> hex k n = hex k m -> n = m.
Proof.
  induction k as [|k IH]; intros n m Hn Hm E; [cbn in *; lia|]. cbn [hex] in E. apply app_inj_tail in E as [E1 E2].
  rewrite Nat2N.inj_succ, N.pow_succ_r' in Hn, Hm.
  assert (n / 16 = m / 16) by (apply IH; [apply N.div_lt_upper_bound; lia..|exact E1]).
  assert (n mod 16 = m mod 16).
  { pose proof (N.mod_upper_bound n 16 ltac:(discriminate)) as A. pose proof (N.mod_upper_bound m 16 ltac:(discriminate)) as A'. unfold hex_digit in E2.
    revert E2 A A'. generalize (n mod 16) (m mod 16). intros a b E2 A A'.
    assert (ND : NoDup (B "0123456789abcdef")) by (repeat (constructor; [cbn; intuition discriminate|]); constructor).
    apply N2Nat.inj. apply (proj1 (NoDup_nth _ b_nul) ND); [change (List.length (B "0123456789abcdef")) with 16%nat; lia..|exact E2]. }
  rewrite (N.div_mod n 16), (N.div_mod m 16) by discriminate. congruence.
Qed.
Lemma hex_crc_differs pre x y post : List.length x = List.length y -> (List.length x <= 4)%nat -> x <> y ->
  hex 8 (crc32 (pre ++ x ++ post)) <> hex 8 (crc32 (pre ++ y ++ post)).
Proof. intros L S D E. apply hex_inj in E; [|apply crc32_small..]. revert E. now apply crc32_differs. Qed.
