(** * What the ISO 9796-1 padding produces *)
From Coq Require Import Lia ZifyBool ZifyNat ZifyN Znumtheory.
From Verif Require Import Base BaseFacts Crypto_Model Crypto_Spec Rsa_Facts Crypto_Facts Crypto_Facts2.
Open Scope Z_scope.
Ltac Zify.zify_post_hook ::= Z.div_mod_to_equations.

(** ** Bytes *)
Lemma shadow_perm v : zb (shadow_byte v) = perm_byte (zb v).
Proof. destruct v; reflexivity. Qed.
Lemma perm_range v : 0 <= perm_byte (zb v) < 256.
Proof. rewrite <- shadow_perm. apply zb_range. Qed.
Lemma last_forced v : Z.lor (Z.shiftl (zb v) 4 mod 256) 6 = zb v mod 16 * 16 + 6.
Proof. destruct v; reflexivity. Qed.
Lemma last_back v x : Z.shiftr x 4 = Z.shiftr (perm_byte (zb v)) 4 ->
  bz (Z.lor (Z.shiftr (zb v mod 16 * 16 + 6) 4) (Z.shiftl (unshadow (Z.shiftr x 4)) 4)) = v.
Proof. intros ->. destruct v; reflexivity. Qed.
Lemma xor_high x r : 0 <= r < 16 -> Z.shiftr (Z.lxor x r) 4 = Z.shiftr x 4.
Proof.
  intros R. rewrite Z.shiftr_lxor. assert (Z.shiftr r 4 = 0) as ->.
  { rewrite Z.shiftr_div_pow2 by lia. change (2 ^ 4) with 16. lia. }
  apply Z.lxor_0_r.
Qed.
Lemma xor_range x r : 0 <= x < 256 -> 0 <= r < 16 -> 0 <= Z.lxor x r < 256.
Proof.
  intros X R. assert (H : 0 <= Z.shiftr (Z.lxor x r) 4 < 16).
  { rewrite xor_high by exact R. rewrite Z.shiftr_div_pow2 by lia. change (2 ^ 4) with 16. lia. }
  rewrite Z.shiftr_div_pow2 in H by lia. change (2 ^ 4) with 16 in H. lia.
Qed.
Lemma perm_high_differs v : Z.shiftr (perm_byte (zb v)) 4 <> Z.shiftr (zb v) 4.
Proof. destruct v; discriminate. Qed.
Lemma top_low b k : 1 <= k <= 7 ->
  zb (bz (Z.lor (Z.land (zb b) (Z.shiftr 255 k)) (Z.shiftr 128 k))) = 2 ^ (7 - k) + zb b mod 2 ^ (7 - k).
Proof.
  intros K. assert (k = 1 \/ k = 2 \/ k = 3 \/ k = 4 \/ k = 5 \/ k = 6 \/ k = 7) as H by lia.
  destruct H as [->|[->|[->|[->|[->|[->| ->]]]]]]; destruct b; reflexivity.
Qed.
Lemma top_high b : zb (bz (Z.lor (zb b) 128)) = 128 + zb b mod 128.
Proof. destruct b; reflexivity. Qed.

(** ** The extended message *)
Lemma extended_len m t : len (extended m t) = Z.of_nat t.
Proof. unfold len, extended. rewrite rev_length, map_length, seq_length. reflexivity. Qed.
Lemma at_extended m t j : 1 <= len m -> 0 <= j < t ->
  at' (extended m (Z.to_nat t)) (t - 1 - j) = at' m (len m - 1 - j mod len m).
Proof.
  intros Z1 J. unfold at', extended.
  rewrite rev_nth by (rewrite map_length, seq_length; lia). rewrite map_length, seq_length.
  replace (Z.to_nat t - S (Z.to_nat (t - 1 - j)))%nat with (Z.to_nat j) by lia.
  set (f := fun i => nth (i mod List.length m) (rev m) b_nul).
  rewrite (nth_indep _ b_nul (f O)) by (rewrite map_length, seq_length; lia).
  rewrite map_nth. rewrite seq_nth by lia. unfold f. cbn [plus].
  unfold len in *. rewrite rev_nth by (apply Nat.mod_upper_bound; lia). f_equal.
  pose proof (Nat2Z.inj_mod (Z.to_nat j) (List.length m)) as Hm. rewrite Z2Nat.id in Hm by lia.
  pose proof (Nat.mod_upper_bound (Z.to_nat j) (List.length m) ltac:(lia)). lia.
Qed.

(** ** First loop *)
Lemma fill_ok fuel : forall inp off z t i block, 1 <= z -> 0 <= off -> off + z <= len inp -> t <= len block ->
  0 <= i -> (z | i) -> t - i <= Z.of_nat fuel ->
  (forall j, 0 <= j < Z.min i t -> at' block (len block - 1 - j) = at' inp (off + (z - 1 - j mod z))) ->
  exists b, fill fuel inp off z t i block = Some (Ok b) /\ len b = len block /\
    (forall j, 0 <= j < t -> at' b (len block - 1 - j) = at' inp (off + (z - 1 - j mod z))) /\
    (forall k, 0 <= k < len block - t -> at' b k = at' block k).
Proof.
  induction fuel as [|f IH]; intros inp off z t i block Z1 O1 OZ T I1 Dv F Inv; cbn [fill].
  - destruct (Z.ltb_spec i t); [lia|]. exists block. repeat split; auto. intros j J. apply Inv. lia.
  - destruct (Z.ltb_spec i t) as [C|C].
    2:{ exists block. repeat split; auto. intros j J. apply Inv. lia. }
    assert (M : forall j, i <= j < i + z -> j mod z = j - i).
    { intros j J. destruct Dv as (q&->). replace j with ((j - q * z) + q * z) at 1 by lia.
      rewrite Z_mod_plus_full. apply Z.mod_small. lia. }
    assert (Step : exists b, (if t - z <? i
               then array_copy inp (off + z - (t - i)) block (len block - t) (t - i)
               else array_copy inp off block (len block - (i + z)) z) = Ok b /\ len b = len block /\
               (forall j, 0 <= j < Z.min (i + z) t -> at' b (len block - 1 - j) = at' inp (off + (z - 1 - j mod z))) /\
               (forall k, 0 <= k < len block - t -> at' b k = at' block k)).
    { destruct (Z.ltb_spec (t - z) i) as [P|P].
      - destruct (copy_ok inp (off + z - (t - i)) block (len block - t) (t - i)) as (b&E&L&A); try lia.
        exists b. split; [exact E|]. split; [exact L|]. split.
        + intros j J. rewrite A by lia. destruct ((len block - t <=? _) && _) eqn:Q.
          * rewrite M by lia. f_equal. lia.
          * apply Inv. lia.
        + intros k K. rewrite A by lia. now replace ((len block - t <=? k) && (k <? len block - t + (t - i))) with false by lia.
      - destruct (copy_ok inp off block (len block - (i + z)) z) as (b&E&L&A); try lia.
        exists b. split; [exact E|]. split; [exact L|]. split.
        + intros j J. rewrite A by lia. destruct ((len block - (i + z) <=? _) && _) eqn:Q.
          * rewrite M by lia. f_equal. lia.
          * apply Inv. lia.
        + intros k K. rewrite A by lia. now replace ((len block - (i + z) <=? k) && (k <? len block - (i + z) + z)) with false by lia. }
    destruct Step as (b&->&L&A&K).
    destruct (IH inp off z t (i + z) b) as (b'&E&L'&A'&K'); try lia.
    + apply Z.divide_add_r; [exact Dv|apply Z.divide_refl].
    + intros j J. rewrite L. now apply A.
    + exists b'. rewrite E. split; [reflexivity|]. split; [lia|]. rewrite L in *. split; [exact A'|].
      intros k Hk. rewrite K' by exact Hk. now apply K.
Qed.

(** ** Second loop *)
Lemma spread_ok n : forall t o k block (D : Z -> byte), 0 <= o <= 1 -> len block = o + 2 * t -> k + Z.of_nat n = t -> 0 <= k ->
  (forall i, k <= i < t -> at' block (len block - t + i) = D i) ->
  exists b, spread n t (o + 2 * k) block = Ok b /\ len b = len block /\
    (forall i, k <= i < t -> at' b (o + 2 * i) = shadow_byte (D i) /\ at' b (o + 2 * i + 1) = D i) /\
    (forall j, 0 <= j < o + 2 * k -> at' b j = at' block j).
Proof.
  induction n as [|n IH]; intros t o k block D Ho L K K0 A; cbn [spread].
  - exists block. repeat split; auto; lia.
  - replace (len block - t + Z.quot (o + 2 * k) 2) with (len block - t + k).
    2:{ rewrite Z.quot_div_nonneg by lia. lia. }
    rewrite get_ok by lia. cbn [obind]. rewrite A by lia.
    destruct (put_ok block (o + 2 * k) (shadow_byte (D k))) as (b1&->&L1&A1); [lia|]. cbn [obind].
    destruct (put_ok b1 (o + 2 * k + 1) (D k)) as (b2&->&L2&A2); [lia|]. cbn [obind].
    replace (o + 2 * k + 2) with (o + 2 * (k + 1)) by lia.
    destruct (IH t o (k + 1) b2 D) as (b&E&Lb&P&Q); try lia.
    { intros i Hi. rewrite L2, L1, A2, A1.
      destruct (Z.eqb_spec (Z.max (len block - t + i) 0) (o + 2 * k + 1)); [lia|].
      destruct (Z.eqb_spec (Z.max (len block - t + i) 0) (o + 2 * k)); [lia|]. apply A. lia. }
    exists b. split; [exact E|]. split; [lia|]. split.
    + intros i Hi. destruct (Z.eq_dec i k) as [->|Ne]; [|apply P; lia].
      rewrite !Q by lia. rewrite !A2, !A1. split.
      * destruct (Z.eqb_spec (Z.max (o + 2 * k) 0) (o + 2 * k + 1)); [lia|].
        destruct (Z.eqb_spec (Z.max (o + 2 * k) 0) (o + 2 * k)); [reflexivity|lia].
      * destruct (Z.eqb_spec (Z.max (o + 2 * k + 1) 0) (o + 2 * k + 1)); [reflexivity|lia].
    + intros j Hj. rewrite Q by lia. rewrite A2, A1.
      destruct (Z.eqb_spec (Z.max j 0) (o + 2 * k + 1)); [lia|].
      destruct (Z.eqb_spec (Z.max j 0) (o + 2 * k)); [lia|reflexivity].
Qed.

Lemma spread_not_err n : forall t i block, spread n t i block <> Err.
Proof.
  induction n as [|n IH]; intros t i block; cbn [spread]; [discriminate|].
  unfold get. destruct (_ <? 0); [discriminate|]. destruct (nth_error _ _); [|discriminate]. cbn [obind].
  unfold put at 1. destruct (_ && _); [|discriminate]. cbn [obind].
  unfold put at 1. destruct (_ && _); [|discriminate]. cbn [obind]. apply IH.
Qed.

(** ** The message with redundancy as bytes *)
Lemma pairs_nth (f g : nat -> Z) t k : (k < t)%nat ->
  nth (2 * k) (List.concat (map (fun k => [f k; g k]) (seq 0 t))) 0 = f k /\
  nth (2 * k + 1) (List.concat (map (fun k => [f k; g k]) (seq 0 t))) 0 = g k.
Proof.
  intros K. assert (G : forall n a i, (i < n)%nat ->
    nth (2 * i) (List.concat (map (fun k => [f k; g k]) (seq a n))) 0 = f (a + i)%nat /\
    nth (2 * i + 1) (List.concat (map (fun k => [f k; g k]) (seq a n))) 0 = g (a + i)%nat).
  { induction n as [|n IH]; intros a i I; [lia|]. cbn [seq map List.concat app].
    destruct i as [|i]; [rewrite Nat.add_0_r; split; reflexivity|].
    replace (2 * S i)%nat with (S (S (2 * i))) by lia. cbn [nth plus]. rewrite <- plus_n_Sm.
    apply (IH (S a) i). lia. }
  apply (G t O k K).
Qed.
Lemma pairs_length (f g : nat -> Z) l : List.length (List.concat (map (fun k => [f k; g k]) l)) = (2 * List.length l)%nat.
Proof. induction l as [|a l IH]; cbn [map List.concat app List.length]; lia. Qed.
Lemma pairs_all (f g : nat -> Z) (P : Z -> Prop) l : (forall k, In k l -> P (f k) /\ P (g k)) ->
  Forall P (List.concat (map (fun k => [f k; g k]) l)).
Proof.
  induction l as [|a l IH]; intros H; cbn [map List.concat app]; [constructor|].
  destruct (H a (or_introl eq_refl)). constructor; [assumption|]. constructor; [assumption|].
  apply IH. intros k I. apply H. now right.
Qed.

Lemma number_value l : Forall (fun d => 0 <= d < 256) l -> number l = value (map bz l).
Proof.
  intros F. unfold number. enough (G : forall v, fold_left (fun v d => v * 256 + d) l v = v * 256 ^ Z.of_nat (List.length l) + value (map bz l))
    by (rewrite G; lia).
  induction F as [|d l R F IH]; intros v; cbn [fold_left map value List.length]; [cbn; lia|].
  rewrite IH, zb_bz, Z.mod_small, map_length, Nat2Z.inj_succ, Z.pow_succ_r by lia. ring.
Qed.

Definition padded (bits : Z) (m : bytes) (pad : Z) : bytes :=
  let t := Z.to_nat (iso_bytes bits) in
  repeat b_nul (Z.to_nat ((bits + 7) / 8) - 2 * t) ++ map bz (redundant m t pad).

Section Sizes.
  Variables (bits : Z) (m : bytes) (pad : Z).
  Let t := iso_bytes bits.
  Let l := (bits + 7) / 8.
  Let o := l - 2 * t.
  Hypothesis Hbits : 1 <= bits.
  Hypothesis Hsigns : signs bits.
  Hypothesis Hm : 1 <= len m <= t.
  Hypothesis Hpad : 0 <= pad <= 7.
  Let D (k : Z) := at' (extended m (Z.to_nat t)) k.

  Lemma size_offset : 0 <= o <= 1 /\ 1 <= t /\ l = o + 2 * t /\ 9 <= bits /\ 2 <= l.
  Proof. unfold o, l, t, iso_bytes, signs in *. lia. Qed.

  Lemma redundant_length : List.length (redundant m (Z.to_nat t) pad) = (2 * Z.to_nat t)%nat.
  Proof. unfold redundant. cbv zeta. rewrite pairs_length, seq_length. reflexivity. Qed.
  Lemma redundant_range : Forall (fun d => 0 <= d < 256) (redundant m (Z.to_nat t) pad).
  Proof.
    unfold redundant. cbv zeta. apply pairs_all. intros k _. set (b := nth k _ _).
    pose proof (perm_range b). pose proof (zb_range b).
    split; [destruct (_ =? _)%nat; [apply xor_range; lia|lia]|destruct (_ =? _)%nat; lia].
  Qed.
  Lemma redundant_nth k : 0 <= k < t ->
    nth (Z.to_nat (2 * k)) (redundant m (Z.to_nat t) pad) 0 =
      (if k =? t - len m then Z.lxor (perm_byte (zb (D k))) (pad + 1) else perm_byte (zb (D k))) /\
    nth (Z.to_nat (2 * k + 1)) (redundant m (Z.to_nat t) pad) 0 =
      (if k =? t - 1 then zb (D k) mod 16 * 16 + 6 else zb (D k)).
  Proof.
    intros K. unfold redundant. cbv zeta.
    destruct (pairs_nth
      (fun k => if (k =? Z.to_nat t - List.length m)%nat
                then Z.lxor (perm_byte (zb (nth k (extended m (Z.to_nat t)) b_nul))) (pad + 1)
                else perm_byte (zb (nth k (extended m (Z.to_nat t)) b_nul)))
      (fun k => if (k =? Z.to_nat t - 1)%nat
                then zb (nth k (extended m (Z.to_nat t)) b_nul) mod 16 * 16 + 6
                else zb (nth k (extended m (Z.to_nat t)) b_nul)) (Z.to_nat t) (Z.to_nat k) ltac:(lia)) as (A&B).
    replace (Z.to_nat (2 * k)) with (2 * Z.to_nat k)%nat by lia.
    replace (Z.to_nat (2 * k + 1)) with (2 * Z.to_nat k + 1)%nat by lia.
    rewrite A, B. unfold D, at', len in *. split.
    - destruct (Nat.eqb_spec (Z.to_nat k) (Z.to_nat t - List.length m)); destruct (Z.eqb_spec k (t - Z.of_nat (List.length m))); try lia; reflexivity.
    - destruct (Nat.eqb_spec (Z.to_nat k) (Z.to_nat t - 1)); destruct (Z.eqb_spec k (t - 1)); try lia; reflexivity.
  Qed.

  Lemma padded_len : len (padded bits m pad) = l.
  Proof.
    pose proof size_offset. unfold len, padded. fold t. cbv zeta. rewrite app_length, map_length, redundant_length, repeat_length.
    fold l. lia.
  Qed.
  Lemma padded_value : value (padded bits m pad) = number (redundant m (Z.to_nat t) pad).
  Proof. unfold padded. cbv zeta. fold t. rewrite value_zeros. symmetry. apply number_value, redundant_range. Qed.
  Lemma padded_at k : 0 <= k < t ->
    zb (at' (padded bits m pad) (o + 2 * k)) =
      (if k =? t - len m then Z.lxor (perm_byte (zb (D k))) (pad + 1) else perm_byte (zb (D k))) /\
    zb (at' (padded bits m pad) (o + 2 * k + 1)) =
      (if k =? t - 1 then zb (D k) mod 16 * 16 + 6 else zb (D k)).
  Proof.
    intros K. pose proof size_offset as SO. destruct (redundant_nth k K) as (A&B).
    pose proof redundant_range as R. rewrite Forall_forall in R.
    assert (G : forall i, 0 <= i < 2 * t -> zb (at' (padded bits m pad) (o + i)) = nth (Z.to_nat i) (redundant m (Z.to_nat t) pad) 0).
    { intros i Hi. unfold at', padded. fold t. cbv zeta. fold l.
      rewrite app_nth2; rewrite repeat_length; [|lia].
      replace (Z.to_nat (o + i) - (Z.to_nat l - 2 * Z.to_nat t))%nat with (Z.to_nat i) by lia.
      rewrite (nth_indep _ b_nul (bz 0)) by (rewrite map_length, redundant_length; lia).
      rewrite map_nth, zb_bz. apply Z.mod_small. apply R. apply nth_In. rewrite redundant_length. lia. }
    replace (o + 2 * k + 1) with (o + (2 * k + 1)) by lia.
    rewrite !G by lia. split; [exact A|exact B].
  Qed.
  Lemma padded_zero : o = 1 -> at' (padded bits m pad) 0 = b_nul.
  Proof.
    intros O1. unfold at', padded. fold t. cbv zeta. fold l. pose proof size_offset.
    rewrite app_nth1 by (rewrite repeat_length; lia). apply nth_repeat.
  Qed.

  (** Setting the boundary and the last half byte *)
  Lemma force_padded block : len block = l -> (o = 1 -> at' block 0 = b_nul) ->
    (forall i, 0 <= i < t -> at' block (o + 2 * i) = shadow_byte (D i) /\ at' block (o + 2 * i + 1) = D i) ->
    (do b <- get block (l - 2 * len m);
     do block <- put block (l - 2 * len m) (bz (Z.lxor (zb b) ((pad + 1) mod 256)));
     do b <- get block (l - 1);
     put block (l - 1) (bz (Z.lor (Z.shiftl (zb b) 4 mod 256) 6))) = Ok (padded bits m pad).
  Proof.
    intros L Z0 A. pose proof size_offset as SO. set (k0 := t - len m).
    assert (E0 : l - 2 * len m = o + 2 * k0) by lia.
    destruct (A k0) as (S0&_); [lia|].
    rewrite get_ok by lia. cbn [obind]. rewrite E0, S0, shadow_perm.
    rewrite (Z.mod_small (pad + 1)) by lia.
    destruct (put_ok block (o + 2 * k0) (bz (Z.lxor (perm_byte (zb (D k0))) (pad + 1)))) as (b1&->&L1&A1); [lia|]. cbn [obind].
    rewrite get_ok by lia. cbn [obind].
    assert (El : at' b1 (l - 1) = D (t - 1)).
    { rewrite A1. destruct (Z.eqb_spec (Z.max (l - 1) 0) (o + 2 * k0)); [lia|].
      replace (l - 1) with (o + 2 * (t - 1) + 1) by lia. apply A. lia. }
    rewrite El, last_forced.
    destruct (put_ok b1 (l - 1) (bz (zb (D (t - 1)) mod 16 * 16 + 6))) as (b2&->&L2&A2); [lia|]. f_equal.
    pose proof padded_len as PL.
    apply at_ext; [lia|]. intros j J.
    rewrite A2, A1. destruct (Z.ltb_spec j o) as [Jo|Jo].
    { assert (j = 0) as -> by lia. rewrite padded_zero by lia.
      destruct (Z.eqb_spec (Z.max 0 0) (l - 1)); [lia|]. destruct (Z.eqb_spec (Z.max 0 0) (o + 2 * k0)); [lia|]. apply Z0. lia. }
    pose proof (padded_at ((j - o) / 2) ltac:(lia)) as (P&Q). apply zb_eq.
    destruct (Z.eq_dec ((j - o) mod 2) 0) as [Ev|Od].
    - assert (Ej : j = o + 2 * ((j - o) / 2)) by lia. set (k := (j - o) / 2) in *. clearbody k. replace (at' (padded bits m pad) j) with (at' (padded bits m pad) (o + 2 * k)) by (now rewrite <- Ej). rewrite P.
      destruct (Z.eqb_spec (Z.max j 0) (l - 1)); [lia|].
      destruct (Z.eqb_spec (Z.max j 0) (o + 2 * k0)) as [H0|H0].
      + assert (k = k0) as -> by lia. fold k0. rewrite Z.eqb_refl. rewrite zb_bz. apply Z.mod_small. apply xor_range; [apply perm_range|lia].
      + fold k0. destruct (Z.eqb_spec k k0); [lia|]. rewrite Ej. destruct (A k) as (Sk&_); [lia|]. rewrite Sk. apply shadow_perm.
    - assert (Ej : j = o + 2 * ((j - o) / 2) + 1) by lia. set (k := (j - o) / 2) in *. clearbody k. replace (at' (padded bits m pad) j) with (at' (padded bits m pad) (o + 2 * k + 1)) by (now rewrite <- Ej). rewrite Q.
      destruct (Z.eqb_spec (Z.max j 0) (l - 1)) as [Hl|Hl].
      + assert (k = t - 1) as -> by lia. rewrite Z.eqb_refl. rewrite zb_bz. pose proof (zb_range (D (t - 1))). lia.
      + destruct (Z.eqb_spec k (t - 1)); [lia|].
        destruct (Z.eqb_spec (Z.max j 0) (o + 2 * k0)); [lia|]. rewrite Ej. destruct (A k) as (_&Dk); [lia|]. now rewrite Dk.
  Qed.
End Sizes.
