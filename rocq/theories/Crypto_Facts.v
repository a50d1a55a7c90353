(** * Facts about bytes, slices and the RSA engine *)
From Coq Require Import Lia ZifyBool ZifyNat ZifyN Znumtheory.
From Verif Require Import Base BaseFacts Crypto_Model Crypto_Spec Rsa_Facts.
Open Scope Z_scope.
Ltac Zify.zify_post_hook ::= Z.div_mod_to_equations.

Lemma zb_range b : 0 <= zb b < 256.
Proof. unfold zb. pose proof (Byte.to_N_bounded b). lia. Qed.

Lemma zb_bz z : zb (bz z) = z mod 256.
Proof.
  unfold bz. destruct (Byte.of_N (Z.to_N (z mod 256))) as [b|] eqn:E.
  - apply Byte.to_of_N in E. unfold zb. rewrite E. lia.
  - exfalso. apply Byte.of_N_None_iff in E. lia.
Qed.

Lemma zb_eq a b : zb a = zb b -> a = b.
Proof.
  unfold zb. intros H. assert (Byte.to_N a = Byte.to_N b) by lia.
  assert (Some a = Some b) as HH by (rewrite <- !Byte.of_to_N; congruence). congruence.
Qed.
Lemma bz_zb b : bz (zb b) = b.
Proof. apply zb_eq. rewrite zb_bz. pose proof (zb_range b). lia. Qed.

Lemma beq_nul b : beq b b_nul = (zb b =? 0).
Proof. destruct b; reflexivity. Qed.

(** ** Numbers *)
Lemma set_bytes_from l v : fold_left (fun v b => v * 256 + zb b) l v = v * 256 ^ Z.of_nat (List.length l) + value l.
Proof.
  revert v. induction l as [|b l IH]; intros v; cbn [fold_left value List.length]; [cbn; lia|].
  rewrite IH, Nat2Z.inj_succ, Z.pow_succ_r by lia. ring.
Qed.
Lemma set_bytes_value l : set_bytes l = value l.
Proof. unfold set_bytes. rewrite set_bytes_from. lia. Qed.

Lemma pow256 n : 0 <= n -> 0 < 256 ^ n.
Proof. intros. apply Z.pow_pos_nonneg; lia. Qed.

Lemma value_range l : 0 <= value l < 256 ^ Z.of_nat (List.length l).
Proof.
  induction l as [|b l IH]; cbn [value List.length]; [cbn; lia|].
  rewrite Nat2Z.inj_succ, Z.pow_succ_r by lia. pose proof (zb_range b).
  pose proof (pow256 (Z.of_nat (List.length l)) ltac:(lia)). nia.
Qed.

Lemma value_app a b : value (a ++ b) = value a * 256 ^ Z.of_nat (List.length b) + value b.
Proof.
  induction a as [|x a IH]; cbn [app value]; [lia|].
  rewrite IH, app_length, Nat2Z.inj_add, Z.pow_add_r by lia. ring.
Qed.

Lemma value_inj a b : List.length a = List.length b -> value a = value b -> a = b.
Proof.
  revert b. induction a as [|x a IH]; intros [|y b] L E; try discriminate; [reflexivity|].
  cbn [List.length] in L. injection L as L. cbn [value] in E. rewrite <- L in E.
  pose proof (value_range a). pose proof (value_range b). rewrite <- L in *.
  set (w := 256 ^ Z.of_nat (List.length a)) in *. pose proof (zb_range x). pose proof (zb_range y).
  assert (zb x = zb y) as Z1 by nia. apply zb_eq in Z1 as ->. f_equal. apply IH; [exact L|lia].
Qed.

Lemma value_strip l : value (strip l) = value l.
Proof.
  induction l as [|b l IH]; [reflexivity|]. cbn [strip]. rewrite beq_nul.
  destruct (Z.eqb_spec (zb b) 0) as [E|E]; [|reflexivity]. cbn [value]. rewrite IH, E. lia.
Qed.
Lemma strip_zero l : value l = 0 -> strip l = [].
Proof.
  induction l as [|b l IH]; [reflexivity|]. cbn [strip value]. rewrite beq_nul. intros E.
  pose proof (zb_range b). pose proof (value_range l). pose proof (pow256 (Z.of_nat (List.length l)) ltac:(lia)).
  assert (zb b = 0) by nia. destruct (Z.eqb_spec (zb b) 0); [|lia]. apply IH. nia.
Qed.
(** No leading zero byte *)
Definition trimmed (l : bytes) : Prop := match l with [] => True | b :: _ => b <> b_nul end.
Lemma strip_trimmed l : trimmed (strip l).
Proof.
  induction l as [|b l IH]; [exact I|]. cbn [strip]. destruct (beq b b_nul) eqn:E; [exact IH|].
  cbn. intros ->. now rewrite beq_nul in E.
Qed.
Lemma strip_id l : trimmed l -> strip l = l.
Proof.
  destruct l as [|b l]; [reflexivity|]. cbn. intros N. rewrite beq_nul.
  destruct (Z.eqb_spec (zb b) 0) as [E|E]; [|reflexivity]. exfalso. apply N. now apply zb_eq.
Qed.
Lemma trimmed_size b l : trimmed (b :: l) ->
  256 ^ Z.of_nat (List.length l) <= value (b :: l) < 256 ^ (Z.of_nat (List.length l) + 1).
Proof.
  intros T. pose proof (value_range (b :: l)) as R. cbn [List.length] in R. rewrite Nat2Z.inj_succ in R.
  split; [|exact (proj2 R)]. cbn [value]. pose proof (zb_range b). pose proof (value_range l).
  assert (zb b <> 0). { intros E. apply T. now apply zb_eq. }
  pose proof (pow256 (Z.of_nat (List.length l)) ltac:(lia)). nia.
Qed.
Lemma trimmed_inj a b : trimmed a -> trimmed b -> value a = value b -> a = b.
Proof.
  intros Ta Tb E. apply value_inj; [|exact E].
  destruct a as [|x a], b as [|y b]; [reflexivity| | |].
  - pose proof (trimmed_size y b Tb). pose proof (pow256 (Z.of_nat (List.length b)) ltac:(lia)). cbn [value] in *. lia.
  - pose proof (trimmed_size x a Ta). pose proof (pow256 (Z.of_nat (List.length a)) ltac:(lia)). cbn [value] in *. lia.
  - pose proof (trimmed_size x a Ta) as A. pose proof (trimmed_size y b Tb) as B. rewrite E in A.
    cbn [List.length]. f_equal. set (i := List.length a) in *. set (j := List.length b) in *.
    assert (~ Z.of_nat i + 1 <= Z.of_nat j). { intros H. apply (Z.pow_le_mono_r 256) in H; lia. }
    assert (~ Z.of_nat j + 1 <= Z.of_nat i). { intros H2. apply (Z.pow_le_mono_r 256) in H2; lia. }
    lia.
Qed.

Lemma digits_spec fuel : forall x acc, 0 <= x < 256 ^ Z.of_nat fuel -> (acc = [] \/ True) ->
  exists l, digits fuel x acc = l ++ acc /\ value l = x /\ trimmed l.
Proof.
  induction fuel as [|f IH]; intros x acc Hx _; cbn [digits].
  - cbn in Hx. exists []. cbn. repeat split; lia.
  - destruct (Z.leb_spec x 0) as [Z0|Z0].
    { exists []. cbn. repeat split; lia. }
    rewrite Nat2Z.inj_succ, Z.pow_succ_r in Hx by lia.
    destruct (IH (x / 256) (bz x :: acc)) as (l&E&V&T); [|auto|].
    { split; [lia|]. apply Z.div_lt_upper_bound; lia. }
    exists (l ++ [bz x]). rewrite E, <- app_assoc. split; [reflexivity|]. split.
    { rewrite value_app, V. cbn. rewrite zb_bz. lia. }
    destruct l as [|b l]; [|exact T]. cbn in V |- *. intros N. apply (f_equal zb) in N. rewrite zb_bz in N.
    change (zb b_nul) with 0 in N. lia.
Qed.

Lemma bit_len_size x : 0 < x -> bit_size x (bit_len x).
Proof.
  intros H. unfold bit_len. destruct (Z.leb_spec x 0); [lia|]. pose proof (Z.log2_nonneg x).
  split; [lia|]. replace (Z.log2 x + 1 - 1) with (Z.log2 x) by lia. apply Z.log2_spec. exact H.
Qed.
Lemma bit_size_unique x k : bit_size x k -> bit_len x = k.
Proof.
  intros (K&L&U). assert (0 < x). { pose proof (Z.pow_pos_nonneg 2 (k - 1)). lia. }
  unfold bit_len. destruct (Z.leb_spec x 0); [lia|].
  assert (Z.log2 x = k - 1); [|lia]. apply Z.log2_unique; [lia|]. split; [exact L|].
  now replace (Z.succ (k - 1)) with k by lia.
Qed.

Lemma big_bytes_spec x : 0 <= x -> value (big_bytes x) = x /\ trimmed (big_bytes x).
Proof.
  intros H. unfold big_bytes. destruct (digits_spec (Z.to_nat (bit_len x)) x []) as (l&E&V&T); auto.
  - split; [exact H|]. destruct (Z.eq_dec x 0) as [->|N]; [cbn; lia|].
    destruct (bit_len_size x ltac:(lia)) as (B1&B2&B3). rewrite Z2Nat.id by lia.
    eapply Z.lt_le_trans; [exact B3|]. apply Z.pow_le_mono_l. lia.
  - rewrite E, app_nil_r. auto.
Qed.
Lemma big_bytes_value l : big_bytes (value l) = strip l.
Proof.
  destruct (big_bytes_spec (value l)) as (V&T); [pose proof (value_range l); lia|].
  apply trimmed_inj; [exact T|apply strip_trimmed|]. now rewrite V, value_strip.
Qed.

(** Bytes and bits of the same number *)
Lemma size_bits n bits : bit_size n bits -> byte_size n ((bits + 7) / 8).
Proof.
  intros (K&L&U). split; [lia|]. change 256 with (2 ^ 8). rewrite <- !Z.pow_mul_r by lia. split.
  - eapply Z.le_trans; [|exact L]. apply Z.pow_le_mono_r; lia.
  - eapply Z.lt_le_trans; [exact U|]. apply Z.pow_le_mono_r; lia.
Qed.
Lemma byte_size_unique n j k : byte_size n j -> byte_size n k -> j = k.
Proof.
  intros (J&J1&J2) (K&K1&K2).
  assert (~ j + 1 <= k). { intros H. assert (256 ^ j <= 256 ^ (k - 1)) by (apply Z.pow_le_mono_r; lia). lia. }
  assert (~ k + 1 <= j). { intros H'. assert (256 ^ k <= 256 ^ (j - 1)) by (apply Z.pow_le_mono_r; lia). lia. }
  lia.
Qed.
Lemma block_bytes n k : byte_size n k -> (bit_len n + 7) / 8 = k.
Proof.
  intros B. assert (0 < n). { destruct B as (K&L&_). pose proof (pow256 (k - 1) ltac:(lia)). lia. }
  eapply byte_size_unique; [|exact B]. apply size_bits, bit_len_size. assumption.
Qed.

(** ** Slices *)
Definition at' (l : bytes) (i : Z) : byte := nth (Z.to_nat i) l b_nul.

Lemma len_nat l : Z.to_nat (len l) = List.length l.
Proof. unfold len. lia. Qed.

Lemma get_ok l i : 0 <= i < len l -> get l i = Ok (at' l i).
Proof.
  intros H. unfold get, at', len in *. destruct (Z.ltb_spec i 0); [lia|].
  rewrite (nth_error_nth' l b_nul) by lia. reflexivity.
Qed.
Lemma get_panic l i : ~ (0 <= i < len l) -> get l i = Panic.
Proof.
  intros H. unfold get, len in *. destruct (Z.ltb_spec i 0); [reflexivity|].
  rewrite (proj2 (nth_error_None _ _)) by lia. reflexivity.
Qed.

Lemma put_ok l i v : 0 <= i < len l ->
  exists l', put l i v = Ok l' /\ len l' = len l /\ (forall j, at' l' j = if Z.max j 0 =? i then v else at' l j).
Proof.
  intros H. unfold put. destruct ((0 <=? i) && (i <? len l)) eqn:E; [|lia].
  eexists. split; [reflexivity|]. unfold len, at' in *. split.
  - rewrite app_length. cbn [List.length]. rewrite firstn_length, skipn_length. lia.
  - intros j. destruct (Z.eqb_spec (Z.max j 0) i) as [<-|N].
    + rewrite app_nth2; rewrite firstn_length; [|lia]. replace (Z.to_nat j - _)%nat with O by lia. reflexivity.
    + destruct (Z.ltb_spec (Z.max j 0) i).
      * rewrite app_nth1 by (rewrite firstn_length; lia).
        rewrite <- (firstn_skipn (Z.to_nat i) l) at 2. rewrite app_nth1; [reflexivity|]. rewrite firstn_length. lia.
      * rewrite app_nth2; rewrite firstn_length; [|lia].
        destruct (Z.to_nat j - Nat.min (Z.to_nat i) (List.length l))%nat as [|k] eqn:K; [lia|].
        cbn [nth]. rewrite <- (firstn_skipn (S (Z.to_nat i)) l) at 2.
        rewrite app_nth2; rewrite firstn_length; [|lia]. f_equal. lia.
Qed.
Lemma put_panic l i v : ~ (0 <= i < len l) -> put l i v = Panic.
Proof. intros H. unfold put. destruct ((0 <=? i) && (i <? len l)) eqn:E; [lia|reflexivity]. Qed.

Lemma slice_ok l a b : 0 <= a -> a <= b -> b <= len l ->
  exists s, slice l a b = Ok s /\ len s = b - a /\ (forall j, 0 <= j < b - a -> at' s j = at' l (a + j)) /\
    s = firstn (Z.to_nat (b - a)) (skipn (Z.to_nat a) l).
Proof.
  intros A AB BL. unfold slice. destruct ((0 <=? a) && (a <=? b) && (b <=? len l)) eqn:E; [|lia].
  eexists. split; [reflexivity|]. unfold len, at' in *. split; [|split; [|reflexivity]].
  - rewrite firstn_length, skipn_length. lia.
  - intros j J. rewrite <- (firstn_skipn (Z.to_nat a) l) at 2.
    rewrite (app_nth2 (firstn (Z.to_nat a) l)); rewrite firstn_length; [|lia].
    replace (Z.to_nat (a + j) - Nat.min (Z.to_nat a) (List.length l))%nat with (Z.to_nat j) by lia.
    rewrite <- (firstn_skipn (Z.to_nat (b - a)) (skipn (Z.to_nat a) l)) at 2.
    rewrite app_nth1; [reflexivity|]. rewrite firstn_length, skipn_length. lia.
Qed.
Lemma slice_panic l a b : ~ (0 <= a /\ a <= b /\ b <= len l) -> slice l a b = Panic.
Proof.
  intros H. unfold slice. destruct ((0 <=? a) && (a <=? b) && (b <=? len l)) eqn:E; [lia|reflexivity].
Qed.

Lemma copy_ok src so dst d n : 0 <= so -> 0 <= n -> so + n <= len src -> 0 <= d -> d + n <= len dst ->
  exists l, array_copy src so dst d n = Ok l /\ len l = len dst /\
    (forall j, 0 <= j -> at' l j = if (d <=? j) && (j <? d + n) then at' src (so + (j - d)) else at' dst j).
Proof.
  intros S N SN D DN. unfold array_copy.
  destruct (slice_ok dst d (len dst)) as (x&->&Lx&Ax&_); try lia.
  destruct (slice_ok src so (so + n)) as (y&->&Ly&Ay&_); try lia.
  cbn [obind]. eexists. split; [reflexivity|]. unfold len in *. split.
  - rewrite !app_length, !firstn_length, skipn_length. lia.
  - intros j J. unfold at' in *.
    destruct (Z.ltb_spec j d) as [C|C].
    + destruct (Z.leb_spec d j); [lia|]. cbn [andb]. rewrite app_nth1 by (rewrite firstn_length; lia).
      rewrite <- (firstn_skipn (Z.to_nat d) dst) at 2. rewrite app_nth1; [reflexivity|]. rewrite firstn_length. lia.
    + destruct (Z.leb_spec d j); [|lia]. rewrite app_nth2; rewrite firstn_length; [|lia].
      replace (Z.to_nat j - Nat.min (Z.to_nat d) (List.length dst))%nat with (Z.to_nat (j - d)) by lia.
      rewrite firstn_all2 by lia. destruct (Z.ltb_spec j (d + n)) as [C'|C']; cbn [andb].
      * rewrite app_nth1 by lia. rewrite <- Ay by lia. reflexivity.
      * rewrite app_nth2 by lia. rewrite <- (firstn_skipn (List.length y) x) in Ax.
        destruct (Z.ltb_spec j (Z.of_nat (List.length dst))) as [C2|C2].
        { specialize (Ax (j - d) ltac:(lia)). rewrite app_nth2 in Ax by (rewrite firstn_length; lia).
          rewrite firstn_length in Ax. replace (d + (j - d)) with j in Ax by lia. rewrite <- Ax. f_equal. lia. }
        { rewrite !nth_overflow; rewrite ?skipn_length; try lia. reflexivity. }
Qed.
Lemma copy_panic src so dst d n : ~ (0 <= so /\ 0 <= n /\ so + n <= len src) -> array_copy src so dst d n = Panic.
Proof.
  intros H. unfold array_copy. rewrite (slice_panic src) by lia. unfold slice.
  now destruct ((0 <=? d) && (d <=? len dst) && (len dst <=? len dst)).
Qed.

Lemma at_ext a b : len a = len b -> (forall j, 0 <= j < len a -> at' a j = at' b j) -> a = b.
Proof.
  intros L H. unfold len, at' in *. apply (nth_ext a b b_nul b_nul); [lia|].
  intros n N. specialize (H (Z.of_nat n) ltac:(lia)). now rewrite Nat2Z.id in H.
Qed.

Lemma at_repeat n j : at' (repeat b_nul n) j = b_nul.
Proof. unfold at'. apply nth_repeat. Qed.

(** Copying a whole part into a new slice *)
Lemma copy_part src a n : 0 <= a -> 0 <= n -> a + n <= len src ->
  array_copy src a (repeat b_nul (Z.to_nat n)) 0 n = Ok (firstn (Z.to_nat n) (skipn (Z.to_nat a) src)).
Proof.
  intros A N H. unfold array_copy.
  destruct (slice_ok (repeat b_nul (Z.to_nat n)) 0 (len (repeat b_nul (Z.to_nat n)))) as (x&->&Lx&_&Ex);
    try (unfold len; lia).
  destruct (slice_ok src a (a + n)) as (y&->&Ly&_&Ey); try lia.
  cbn [obind]. f_equal. replace (a + n - a) with n in Ey by lia. unfold len in *. rewrite repeat_length in *.
  rewrite (firstn_all2 y) by lia. rewrite (skipn_all2 x) by lia. cbn. rewrite app_nil_r. exact Ey.
Qed.
