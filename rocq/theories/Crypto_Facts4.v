(** * Signing and recovering with the ISO 9796-1 padding *)
From Coq Require Import Lia ZifyBool ZifyNat ZifyN Znumtheory.
From Verif Require Import Base BaseFacts Crypto_Model Crypto_Spec Rsa_Facts Crypto_Facts Crypto_Facts2 Crypto_Facts3.
Open Scope Z_scope.
Ltac Zify.zify_post_hook ::= Z.div_mod_to_equations.

Lemma part_tail b l : part (b :: l) 1 (len (b :: l) - 1) = l.
Proof.
  unfold part, len. cbn [List.length]. change (Z.to_nat 1) with 1%nat. cbn [skipn].
  replace (Z.to_nat (Z.of_nat (S (List.length l)) - 1)) with (List.length l) by lia. apply firstn_all.
Qed.

Lemma mod_split x w v a : 0 <= v < w -> 0 < a -> 0 <= x -> (x * w + v) mod (a * w) = x mod a * w + v.
Proof.
  intros V A X. symmetry. apply (Z.mod_unique _ _ (x / a)).
  - left. pose proof (Z.mod_pos_bound x a A). nia.
  - pose proof (Z.div_mod x a). nia.
Qed.

Section Sizes.
  Variables (bits : Z) (m : bytes) (pad : Z).
  Let t := iso_bytes bits.
  Let l := (bits + 7) / 8.
  Let o := l - 2 * t.
  Let D (k : Z) := at' (extended m (Z.to_nat t)) k.
  Hypothesis Hbits : 1 <= bits.
  Hypothesis Hsigns : signs bits.
  Hypothesis Hm : 1 <= len m <= t.
  Hypothesis Hpad : 0 <= pad <= 7.

  (** The bytes given to the cipher *)
  Definition given (g : bytes) : Prop :=
    value g = iso_number bits m pad /\ trimmed g /\
    len g = (if bits mod 8 =? 1 then l - 1 else l) /\
    (forall j, 1 <= j < len g -> at' g j = at' (padded bits m pad) (j + (if bits mod 8 =? 1 then 1 else 0))).

  Lemma force_ok block : len block = l -> (o = 1 -> at' block 0 = b_nul) ->
    (forall i, 0 <= i < t -> at' block (o + 2 * i) = shadow_byte (D i) /\ at' block (o + 2 * i + 1) = D i) ->
    exists b off, force bits (len m) (pad + 1) block = Ok (b, off) /\ len b = l /\ 0 <= off /\
      off <= l /\ given (part b off (l - off)).
  Proof.
    intros L Z0 A. pose proof (size_offset bits m Hbits Hsigns Hm) as SO. cbv zeta in SO. fold t l in SO. fold o in SO.
    pose proof (force_padded bits m pad Hbits Hsigns Hm Hpad block L Z0 A) as F. fold l in F.
    unfold force. rewrite L.
    destruct (get block (l - 2 * len m)) as [b0| |]; try discriminate. cbn [obind] in F |- *.
    destruct (put block (l - 2 * len m) _) as [c1| |]; try discriminate. cbn [obind] in F |- *.
    destruct (get c1 (l - 1)) as [b1| |]; try discriminate. cbn [obind] in F |- *.
    rewrite F. cbn [obind]. clear F b0 c1 b1.
    pose proof (padded_len bits m pad Hbits Hsigns Hm) as PL. fold l in PL.
    pose proof (padded_value bits m pad Hpad) as PV. fold t in PV.
    unfold given, iso_number. fold t. rewrite <- PV.
    set (P := padded bits m pad) in *.
    assert (R : Z.rem (bits - 1) 8 = (bits - 1) mod 8) by (apply Z.rem_mod_nonneg; lia). rewrite R.
    destruct P as [|b0 P'] eqn:EP; [unfold len in PL; cbn in PL; lia|].
    assert (LP : Z.of_nat (List.length P') = l - 1) by (unfold len in PL; cbn [List.length] in PL; lia).
    pose proof (value_range P') as VR. rewrite LP in VR.
    destruct (Z.eqb_spec (8 - (bits - 1) mod 8) 8) as [M|M]; cbn [negb].
    - (* the leading byte is dropped *)
      destruct P' as [|b1 P2] eqn:EP'; [cbn in LP; lia|].
      unfold put at 1. replace ((0 <=? 0) && (0 <? len (b0 :: b1 :: P2))) with true by lia.
      cbn [Z.to_nat firstn skipn app obind]. rewrite get_ok by (unfold len; cbn [List.length]; lia). cbn [obind].
      unfold at' at 1. change (Z.to_nat 1) with 1%nat. cbn [nth].
      set (h := bz (Z.lor (zb b1) 128)).
      unfold put. replace ((0 <=? 1) && (1 <? len (b_nul :: b1 :: P2))) with true by (unfold len; cbn [List.length]; lia).
      change (Z.to_nat 1) with 1%nat. cbn [firstn skipn app obind].
      eexists _, 1. split; [reflexivity|]. split; [unfold len in *; cbn [List.length] in *; lia|]. split; [lia|]. split; [lia|].
      replace (l - 1) with (len (b_nul :: h :: P2) - 1) by (unfold len in *; cbn [List.length] in *; lia).
      rewrite part_tail. replace (bits mod 8 =? 1) with true by lia.
      pose proof (top_high b1) as TH. fold h in TH.
      cbn [List.length] in LP. rewrite Nat2Z.inj_succ in LP.
      pose proof (value_range P2) as VR2. pose proof (zb_range b1). pose proof (zb_range b0).
      assert (W : 2 ^ (bits - 2) = 128 * 256 ^ Z.of_nat (List.length P2)).
      { change 128 with (2 ^ 7). change 256 with (2 ^ 8). rewrite <- Z.pow_mul_r, <- Z.pow_add_r by lia. f_equal. lia. }
      split; [|split; [|split]].
      + cbn [value List.length]. rewrite TH, W. rewrite Nat2Z.inj_succ, Z.pow_succ_r by lia.
        set (w := 256 ^ Z.of_nat (List.length P2)) in *.
        replace (zb b0 * (256 * w) + (zb b1 * w + value P2)) with ((zb b0 * 256 + zb b1) * w + value P2) by ring.
        rewrite mod_split by lia. replace ((zb b0 * 256 + zb b1) mod 128) with (zb b1 mod 128) by lia. ring.
      + cbn. intros N. rewrite N in TH. change (zb b_nul) with 0 in TH. lia.
      + unfold len in *. cbn [List.length] in *. lia.
      + intros j J. unfold at'. destruct (Z.to_nat j) as [|j'] eqn:Ej; [lia|].
        replace (Z.to_nat (j + 1)) with (S (S j')) by lia. reflexivity.
    - (* the leading byte stays *)
      set (k := 8 - (bits - 1) mod 8) in *.
      rewrite get_ok by (unfold len in *; lia). cbn [obind]. unfold at' at 1. cbn [Z.to_nat nth].
      set (h := bz (Z.lor (Z.land (zb b0) (Z.shiftr 255 k)) (Z.shiftr 128 k))).
      unfold put. replace ((0 <=? 0) && (0 <? len (b0 :: P'))) with true by lia.
      cbn [Z.to_nat firstn skipn app obind].
      eexists _, 0. split; [reflexivity|]. split; [unfold len in *; cbn [List.length] in *; lia|]. split; [lia|]. split; [lia|].
      replace (l - 0) with (len (h :: P')) by (unfold len in *; cbn [List.length] in *; lia).
      rewrite part_all. replace (bits mod 8 =? 1) with false by lia.
      pose proof (top_low b0 k ltac:(lia)) as TH. fold h in TH. pose proof (zb_range b0).
      assert (W : 2 ^ (bits - 2) = 2 ^ (7 - k) * 256 ^ Z.of_nat (List.length P')).
      { change 256 with (2 ^ 8). rewrite <- Z.pow_mul_r, <- Z.pow_add_r by lia. f_equal. lia. }
      assert (0 < 2 ^ (7 - k)) by (apply Z.pow_pos_nonneg; lia).
      split; [|split; [|split]].
      + cbn [value]. rewrite TH, W. rewrite mod_split by (try rewrite LP; lia). ring.
      + cbn. intros N. rewrite N in TH. change (zb b_nul) with 0 in TH. pose proof (Z.mod_pos_bound (zb b0) (2 ^ (7 - k))). lia.
      + unfold len in *. cbn [List.length] in *. lia.
      + intros j J. unfold at'. destruct (Z.to_nat j) as [|j'] eqn:Ej; [lia|].
        replace (Z.to_nat (j + 0)) with (S j') by lia. reflexivity.
  Qed.

  Lemma iso_number_range n : bit_size n bits -> 0 < iso_number bits m pad < n.
  Proof.
    intros (K&S1&S2). unfold iso_number. pose proof (size_offset bits m Hbits Hsigns Hm) as SO. cbv zeta in SO.
    assert (0 < 2 ^ (bits - 2)) by (apply Z.pow_pos_nonneg; lia).
    assert (2 ^ (bits - 1) = 2 * 2 ^ (bits - 2)) by (rewrite <- Z.pow_succ_r by lia; f_equal; lia).
    set (x := number _). pose proof (Z.mod_pos_bound x (2 ^ (bits - 2))). lia.
  Qed.

  (** Everything up to the cipher *)
  Lemma encode_given i inp off : i_bits i = bits -> i_pad i = pad ->
    part inp off (len m) = m -> 0 <= off -> off + len m <= len inp ->
    exists b o', encode_block i inp off (len m) = Some (engine_process (i_engine i) b o' (len b - o')) /\
      len b = l /\ 0 <= o' <= l /\ given (part b o' (l - o')).
  Proof.
    intros Ib Ip Pm O1 O2. pose proof (size_offset bits m Hbits Hsigns Hm) as SO. cbv zeta in SO. fold t l in SO. fold o in SO.
    unfold encode_block. rewrite Ib, Ip. fold l. change ((bits + 13) / 16) with t.
    set (z := repeat b_nul (Z.to_nat l)). assert (Lz : len z = l) by (unfold len, z; rewrite repeat_length; lia).
    destruct (fill_ok (Z.to_nat t) inp off (len m) t 0 z) as (b1&->&L1&A1&K1); try lia.
    { apply Z.divide_0_r. }
    cbn [obind]. rewrite L1, Lz. rewrite Lz in *.
    assert (Am : forall j, 0 <= j < len m -> at' inp (off + j) = at' m j).
    { intros j J. rewrite <- Pm. destruct (slice_ok inp off (off + len m)) as (s&_&_&As&Es); try lia.
      replace (off + len m - off) with (len m) in Es, As by lia. fold (part inp off (len m)) in Es. rewrite <- Es.
      symmetry. apply As. exact J. }
    replace (l - 2 * t) with (o + 2 * 0) by (unfold o; lia).
    destruct (spread_ok (Z.to_nat t) t o 0 b1 D) as (b2&->&L2&A2&K2); try lia.
    { intros i0 Hi. rewrite L1. replace (l - t + i0) with (l - 1 - (t - 1 - i0)) by lia. rewrite A1 by lia.
      unfold D. replace i0 with (t - 1 - (t - 1 - i0)) at 2 by lia. rewrite at_extended by lia.
      apply Am. pose proof (Z.mod_pos_bound (t - 1 - i0) (len m)). lia. }
    cbn [obind]. destruct (force_ok b2) as (b&o'&E&Lb&Ho&Ho2&G); try lia.
    { intros Oe. rewrite K2 by lia. rewrite K1 by lia. unfold z. apply at_repeat. }
    { exact A2. }
    rewrite E. cbn [obind]. exists b, o'. split; [reflexivity|]. split; [exact Lb|]. split; [lia|exact G].
  Qed.
End Sizes.

(** ** Recovering *)
Lemma boundary_none fuel t i block : 1 <= t -> i = len block - 1 -> boundary_loop fuel t i block None = Ok None.
Proof. intros T ->. destruct fuel; cbn [boundary_loop]; destruct (Z.ltb_spec (len block - 1) (len block - 2 * t)); try lia; reflexivity. Qed.

Lemma gather_ok n : forall j block, 0 <= j -> 2 * (j + Z.of_nat n) <= len block ->
  exists r, gather n j 0 block = Ok r /\ len r = Z.of_nat n /\ (forall i, 0 <= i < Z.of_nat n -> at' r i = at' block (2 * (j + i) + 1)).
Proof.
  induction n as [|n IH]; intros j block J L; cbn [gather].
  - exists []. repeat split; lia.
  - rewrite get_ok by lia. cbn [obind]. destruct (IH (j + 1) block) as (r&->&Lr&A); try lia. cbn [obind].
    eexists. split; [reflexivity|]. split; [unfold len in *; cbn [List.length]; lia|].
    intros i Hi. unfold at' at 1. destruct (Z.to_nat i) as [|i'] eqn:E.
    + cbn [nth]. f_equal. lia.
    + cbn [nth]. specialize (A (Z.of_nat i') ltac:(lia)). unfold at' at 1 in A. rewrite Nat2Z.id in A. rewrite A. f_equal. lia.
Qed.

(** The last byte as the decoder rebuilds it *)
Definition rebuilt (b : bytes) : byte :=
  bz (Z.lor (Z.shiftr (zb (at' b (len b - 1))) 4) (Z.shiftl (unshadow (Z.shiftr (zb (at' b (len b - 2))) 4)) 4)).

Lemma value_last b : 1 <= len b -> zb (at' b (len b - 1)) = value b mod 256.
Proof.
  intros L. destruct (exists_last (l := b)) as (a&x&E); [intros ->; unfold len in L; cbn in L; lia|]. subst b.
  rewrite value_app. cbn [value List.length]. change (256 ^ Z.of_nat 0) with 1. change (256 ^ Z.of_nat 1) with 256.
  pose proof (zb_range x). unfold at', len. rewrite app_length. cbn [List.length].
  rewrite app_nth2 by lia. replace (Z.to_nat (Z.of_nat (List.length a + 1) - 1) - List.length a)%nat with O by lia. cbn [nth].
  lia.
Qed.

(** Decoding, once the cipher has produced [v] *)
Lemma decode_number i inp off k v : 1 <= (i_bits i + 13) / 16 -> 0 < v ->
  engine_process (i_engine i) inp off k = Ok (big_bytes v) ->
  (v mod 16 = 6 -> v < 256 -> decode_block i inp off k = Panic) /\
  (v mod 16 = 6 -> 256 <= v -> exists r, decode_block i inp off k = Ok (r, 0) /\
     let b := big_bytes v in len r = len b / 2 /\
     (forall j, 0 <= j < len r -> at' r j = if 2 * j + 1 =? len b - 1 then rebuilt b else at' b (2 * j + 1))) /\
  (v mod 16 <> 6 -> (i_modulus i - v) mod 16 = 6 -> decode_block i inp off k = Panic) /\
  (v mod 16 <> 6 -> (i_modulus i - v) mod 16 <> 6 -> decode_block i inp off k = Err).
Proof.
  intros T V E. destruct (big_bytes_spec v ltac:(lia)) as (Vb&Tb).
  unfold decode_block. rewrite E. cbn [obind]. rewrite set_bytes_value, Vb.
  assert (Core : v mod 16 = 6 -> decrypt_only v = Ok (big_bytes v)).
  { intros _. unfold decrypt_only. destruct (big_bytes v) as [|b0 b'] eqn:Eb; [cbn in Vb; lia|].
    rewrite get_ok by (unfold len; cbn [List.length]; lia). cbn [obind]. unfold at'. cbn [Z.to_nat nth].
    now rewrite (at_zero_trimmed b0 b' Tb). }
  assert (L1 : 1 <= len (big_bytes v)).
  { destruct (big_bytes v); [cbn in Vb; lia|unfold len; cbn [List.length]; lia]. }
  assert (Last : zb (at' (big_bytes v) (len (big_bytes v) - 1)) = v mod 256) by (rewrite value_last by exact L1; now rewrite Vb).
  assert (Low : v mod 16 = 6 -> Z.land (v mod 256) 15 = 6).
  { intros M. change 15 with (Z.ones 4). rewrite Z.land_ones by lia. change (2 ^ 4) with 16. lia. }
  pose proof (value_range (big_bytes v)) as VR. rewrite Vb in VR. fold (len (big_bytes v)) in VR.
  split; [|split; [|split]].
  - intros M Sm. rewrite (proj2 (Z.eqb_eq _ _) M). cbn [obind]. rewrite Core by exact M. cbn [obind].
    assert (L2 : len (big_bytes v) = 1).
    { destruct (big_bytes v) as [|b0 [|b1 b']] eqn:Eb; [unfold len in L1; cbn in L1; lia|reflexivity|].
      pose proof (trimmed_size b0 (b1 :: b') Tb) as TS. rewrite Vb in TS.
      assert (256 ^ 1 <= 256 ^ Z.of_nat (List.length (b1 :: b'))) by (apply Z.pow_le_mono_r; cbn [List.length]; lia). lia. }
    rewrite get_ok by lia. cbn [obind]. rewrite Last, Low by exact M. cbn [Z.eqb negb Pos.eqb].
    rewrite get_panic by lia. reflexivity.
  - intros M Bg. rewrite (proj2 (Z.eqb_eq _ _) M). cbn [obind]. rewrite Core by exact M. cbn [obind].
    assert (L2 : 2 <= len (big_bytes v)).
    { assert (len (big_bytes v) <> 1); [|lia]. intros Q. rewrite Q in VR. change (256 ^ 1) with 256 in VR. lia. }
    set (b := big_bytes v) in *.
    rewrite get_ok by lia. cbn [obind]. replace (Z.land (zb (at' b (len b - 1))) 15) with 6 by (rewrite Last, Low by exact M; reflexivity). cbn [Z.eqb negb Pos.eqb].
    rewrite get_ok by lia. cbn [obind]. fold (rebuilt b).
    destruct (put_ok b (len b - 1) (rebuilt b)) as (b1&->&Lb1&A1); [lia|]. cbn [obind].
    rewrite get_ok by lia. cbn [obind].
    destruct (put_ok b1 0 (shadow_byte (at' b1 1))) as (b2&->&Lb2&A2); [lia|]. cbn [obind].
    rewrite boundary_none by lia. cbn [obind].
    destruct (put_ok b2 0 b_nul) as (b3&->&Lb3&A3); [lia|]. cbn [obind].
    destruct (gather_ok (Z.to_nat ((len b - 0) / 2)) 0 b3) as (r&->&Lr&Ar); try lia. cbn [obind].
    exists r. split; [reflexivity|]. cbv zeta. split; [lia|]. intros j J. rewrite Ar by lia. rewrite Z.add_0_l, A3, A2.
    destruct (Z.eqb_spec (Z.max (2 * j + 1) 0) 0); [lia|]. rewrite A1. replace (Z.max (2 * j + 1) 0) with (2 * j + 1) by lia. reflexivity.
  - intros M M2. destruct (Z.eqb_spec (v mod 16) 6); [lia|]. rewrite (proj2 (Z.eqb_eq _ _) M2). reflexivity.
  - intros M M2. destruct (Z.eqb_spec (v mod 16) 6); [lia|]. destruct (Z.eqb_spec ((i_modulus i - v) mod 16) 6); [lia|]. reflexivity.
Qed.
