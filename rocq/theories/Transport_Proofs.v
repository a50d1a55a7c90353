(** * Proofs about Base64 and the transports *)
From Coq Require Import Lia ZifyBool ZifyNat ZifyN.
From Verif Require Import Base BaseFacts Codec_Model Codec_Proofs Transport_Model Transport_Spec.
Open Scope Z_scope.
Ltac Zify.zify_post_hook ::= Z.div_mod_to_equations.

Lemma zb_range b : 0 <= zb b < 256.
Proof. pose proof (Byte.to_N_bounded b). unfold zb. lia. Qed.

(** ** The alphabet *)
Lemma Z_sweep (P : Z -> bool) n : forallb (fun k => P (Z.of_nat k)) (seq 0 n) = true ->
  forall v, 0 <= v < Z.of_nat n -> P v = true.
Proof.
  intros H v Hv. rewrite forallb_forall in H. specialize (H (Z.to_nat v)). rewrite Z2Nat.id in H by lia.
  apply H. apply in_seq. lia.
Qed.
Lemma dec6_enc6 v : 0 <= v < 64 -> dec6 (enc6 v) = Some v.
Proof.
  intros H. pose proof (Z_sweep (fun v => match dec6 (enc6 v) with Some w => w =? v | None => false end) 64 ltac:(vm_compute; reflexivity) v H) as K.
  cbv beta in K. destruct (dec6 (enc6 v)); [|discriminate]. f_equal. lia.
Qed.
Lemma dec6_inv c v : dec6 c = Some v -> 0 <= v < 64 /\ enc6 v = c.
Proof.
  intros H. pose proof (byte_sweep (fun c => match dec6 c with Some v => (0 <=? v) && (v <? 64) && beq (enc6 v) c | None => true end) ltac:(vm_compute; reflexivity) c) as K.
  cbv beta in K. rewrite H in K. apply andb_true_iff in K. destruct K as [K1 K2].
  destruct (beq_spec (enc6 v) c); [|discriminate]. split; [lia|assumption].
Qed.
Lemma dec6_alphabet c : In c alphabet <-> dec6 c <> None.
Proof.
  rewrite <- mem_byte_In.
  pose proof (byte_sweep (fun c => Bool.eqb (mem_byte c alphabet) (match dec6 c with Some _ => true | None => false end)) ltac:(vm_compute; reflexivity) c) as K.
  cbv beta in K. apply eqb_prop in K. rewrite K. destruct (dec6 c); split; congruence.
Qed.

(** ** Groups of four *)
Inductive quanta : bytes -> bytes -> Prop :=
| q_nil : quanta [] []
| q_two c1 c2 a b v : dec6 c1 = Some a -> dec6 c2 = Some b -> v = a * 262144 + b * 4096 ->
    quanta [c1; c2; b_eq; b_eq] [byte_of_Z (v / 65536)]
| q_three c1 c2 c3 a b c v : dec6 c1 = Some a -> dec6 c2 = Some b -> dec6 c3 = Some c ->
    v = a * 262144 + b * 4096 + c * 64 ->
    quanta [c1; c2; c3; b_eq] [byte_of_Z (v / 65536); byte_of_Z (v / 256 mod 256)]
| q_four c1 c2 c3 c4 a b c d v t x : dec6 c1 = Some a -> dec6 c2 = Some b -> dec6 c3 = Some c -> dec6 c4 = Some d ->
    v = a * 262144 + b * 4096 + c * 64 + d -> quanta t x ->
    quanta (c1 :: c2 :: c3 :: c4 :: t)
      (byte_of_Z (v / 65536) :: byte_of_Z (v / 256 mod 256) :: byte_of_Z (v mod 256) :: x).

Lemma quanta_decode t x : quanta t x -> b64_decode t = (x, true).
Proof.
  induction 1 as [|c1 c2 a b v H1 H2 ->|c1 c2 c3 a b c v H1 H2 H3 ->|c1 c2 c3 c4 a b c d v t x H1 H2 H3 H4 -> _ IH];
    [reflexivity| | |]; cbn [b64_decode].
  - rewrite H1, H2. change (dec6 b_eq) with (@None Z). rewrite beq_refl. reflexivity.
  - rewrite H1, H2, H3. change (dec6 b_eq) with (@None Z). rewrite beq_refl. reflexivity.
  - rewrite H1, H2, H3, H4, IH. reflexivity.
Qed.
Lemma list4_ind (P : list byte -> Prop) :
  P [] -> (forall a, P [a]) -> (forall a b, P [a; b]) -> (forall a b c, P [a; b; c]) ->
  (forall a b c d r, P r -> P (a :: b :: c :: d :: r)) -> forall l, P l.
Proof.
  intros H0 H1 H2 H3 H4. fix IH 1. intros [|a [|b [|c [|d r]]]]; [exact H0|apply H1|apply H2|apply H3|apply H4, IH].
Qed.
Lemma list3_ind (P : list byte -> Prop) :
  P [] -> (forall a, P [a]) -> (forall a b, P [a; b]) ->
  (forall a b c r, P r -> P (a :: b :: c :: r)) -> forall l, P l.
Proof.
  intros H0 H1 H2 H4. fix IH 1. intros [|a [|b [|c r]]]; [exact H0|apply H1|apply H2|apply H4, IH].
Qed.
Lemma decode_quanta : forall t x, b64_decode t = (x, true) -> quanta t x.
Proof.
  intros t. induction t as [|a|a b|a b c|c1 c2 c3 c4 r IH] using list4_ind; intros x; try discriminate.
  - intros H. injection H as <-. constructor.
  - cbn [b64_decode]. destruct (dec6 c1) as [a|] eqn:E1; [|discriminate]. destruct (dec6 c2) as [b|] eqn:E2; [|discriminate].
    destruct (dec6 c3) as [c|] eqn:E3.
    + destruct (dec6 c4) as [d|] eqn:E4.
      * destruct (b64_decode r) as [y ok] eqn:Er. intros H. assert (ok = true) by congruence. subst ok.
        specialize (IH y eq_refl). inversion H; subst. eapply q_four; eauto.
      * destruct (beq_spec c4 b_eq) as [->|]; [|discriminate]. destruct r; [|discriminate].
        intros H. inversion H; subst. eapply q_three; eauto.
    + destruct (beq_spec c3 b_eq) as [->|]; [|discriminate]. destruct (beq_spec c4 b_eq) as [->|]; [|discriminate].
      cbn [andb]. destruct r; [|discriminate]. intros H. inversion H; subst. eapply q_two; eauto.
Qed.
Lemma encode_quanta : forall s, quanta (b64_encode s) s.
Proof.
  intros s. induction s as [|a|a b|a b c r IH] using list3_ind; [constructor| | |]; cbn [b64_encode]; cbv zeta.
  - pose proof (zb_range a).
    replace [a] with [byte_of_Z ((zb a * 65536 / 262144 * 262144 + zb a * 65536 / 4096 mod 64 * 4096) / 65536)].
    2:{ f_equal. rewrite <- (byte_of_Z_zb a) at 3. f_equal. lia. }
    eapply q_two; [apply dec6_enc6|apply dec6_enc6|reflexivity]; lia.
  - pose proof (zb_range a). pose proof (zb_range b). set (v := zb a * 65536 + zb b * 256).
    replace [a; b] with [byte_of_Z ((v / 262144 * 262144 + v / 4096 mod 64 * 4096 + v / 64 mod 64 * 64) / 65536);
                         byte_of_Z ((v / 262144 * 262144 + v / 4096 mod 64 * 4096 + v / 64 mod 64 * 64) / 256 mod 256)].
    2:{ replace (v / 262144 * 262144 + v / 4096 mod 64 * 4096 + v / 64 mod 64 * 64) with v by lia.
        f_equal; [rewrite <- (byte_of_Z_zb a); f_equal; lia|]. f_equal. rewrite <- (byte_of_Z_zb b). f_equal. lia. }
    eapply q_three; [apply dec6_enc6|apply dec6_enc6|apply dec6_enc6|reflexivity]; lia.
  - pose proof (zb_range a). pose proof (zb_range b). pose proof (zb_range c). set (v := zb a * 65536 + zb b * 256 + zb c).
    assert (Hv : v = v / 262144 * 262144 + v / 4096 mod 64 * 4096 + v / 64 mod 64 * 64 + v mod 64) by lia.
    replace (a :: b :: c :: r) with (byte_of_Z (v / 65536) :: byte_of_Z (v / 256 mod 256) :: byte_of_Z (v mod 256) :: r).
    2:{ f_equal; [rewrite <- (byte_of_Z_zb a); f_equal; lia|]. f_equal; [rewrite <- (byte_of_Z_zb b); f_equal; lia|].
        f_equal. rewrite <- (byte_of_Z_zb c). f_equal. lia. }
    eapply q_four; [apply dec6_enc6|apply dec6_enc6|apply dec6_enc6|apply dec6_enc6|exact Hv|exact IH]; lia.
Qed.
Lemma quanta_length t x : quanta t x -> (List.length t mod 4 = 0)%nat.
Proof. induction 1; cbn [List.length]; lia. Qed.

(** Parts that are multiples of four. *)
Lemma quanta_cut : forall j t x, quanta t x -> (4 * j <= List.length t)%nat ->
  exists y z, quanta (firstn (4 * j) t) y /\ quanta (skipn (4 * j) t) z /\ x = y ++ z.
Proof.
  induction j as [|j IH]; intros t x H L.
  - exists [], x. cbn [firstn skipn Nat.mul]. split; [constructor|]. auto.
  - replace (4 * S j)%nat with (S (S (S (S (4 * j))))) in * by lia.
    inversion H as [E1|c1 c2 a b v H1 H2 Hv E1|c1 c2 c3 a b c v H1 H2 H3 Hv E1|c1 c2 c3 c4 a b c d v t' x' H1 H2 H3 H4 Hv Q E1]; subst t x; cbn [List.length] in L.
    + lia.
    + assert (j = 0)%nat as -> by lia. cbn [Nat.mul firstn skipn]. eexists _, []. split; [exact H|]. split; [constructor|reflexivity].
    + assert (j = 0)%nat as -> by lia. cbn [Nat.mul firstn skipn]. eexists _, []. split; [exact H|]. split; [constructor|reflexivity].
    + destruct (IH t' x' Q) as (y&z&Hy&Hz&->); [lia|]. cbn [firstn skipn].
      eexists (_ :: _ :: _ :: y), z. split; [eapply q_four; eauto|]. auto.
Qed.
Lemma length_lt4 (t : bytes) : (List.length t mod 4 = 0)%nat -> (List.length t < 4)%nat -> t = [].
Proof. destruct t as [|a [|b [|c [|d t]]]]; cbn [List.length]; intros; [reflexivity| | | |]; exfalso; lia. Qed.
Lemma decode_reads_quanta : forall cuts t x, quanta t x -> decode_reads cuts t = (x, true).
Proof.
  induction cuts as [|k cuts IH]; intros t x H; pose proof (quanta_length t x H) as L; cbn [decode_reads].
  - destruct (Nat.ltb_spec (List.length t) 4) as [L4|L4].
    + rewrite (length_lt4 t L L4) in *. inversion H. reflexivity.
    + replace (List.length t / 4 * 4)%nat with (List.length t) by lia. rewrite firstn_all, skipn_all.
      rewrite (quanta_decode t x H). reflexivity.
  - destruct (Nat.ltb_spec (List.length t) 4) as [L4|L4].
    + rewrite (length_lt4 t L L4) in *. inversion H. reflexivity.
    + replace (List.length t / 4 * 4)%nat with (List.length t) by lia.
      assert (E : exists j, Nat.min (4 * S k) (List.length t) = (4 * j)%nat /\ (4 * j <= List.length t)%nat).
      { exists (Nat.min (S k) (List.length t / 4))%nat. lia. }
      destruct E as (j&->&Hj). destruct (quanta_cut j t x H Hj) as (y&z&Hy&Hz&->).
      rewrite (quanta_decode _ _ Hy), (IH _ _ Hz). reflexivity.
Qed.

(** ** Streaming encoder *)
Lemma encode_app : forall a b : bytes, (List.length a mod 3 = 0)%nat -> b64_encode (a ++ b) = b64_encode a ++ b64_encode b.
Proof.
  intros a b. induction a as [|x|x y|x y z r IH] using list3_ind; intros L; cbn [List.length] in L.
  - reflexivity.
  - exfalso; lia.
  - exfalso; lia.
  - cbn [app b64_encode]. cbv zeta. cbn [app]. rewrite IH by lia. reflexivity.
Qed.
Lemma encoder_writes : forall chunks e done,
  en_out e = b64_encode done -> (List.length done mod 3 = 0)%nat ->
  encoder_close (fold_left encoder_write chunks e) = b64_encode (done ++ en_pending e ++ List.concat chunks).
Proof.
  induction chunks as [|c chunks IH]; intros e dn Ho Hd.
  - cbn [fold_left List.concat]. unfold encoder_close. rewrite app_nil_r, Ho. now rewrite encode_app.
  - cbn [fold_left List.concat]. set (all := en_pending e ++ c). set (n := (List.length all / 3 * 3)%nat).
    assert (Hn : (n <= List.length all)%nat) by (unfold n; lia).
    assert (Hf : List.length (firstn n all) = n) by (rewrite firstn_length; lia).
    rewrite (IH _ (dn ++ firstn n all)).
    + unfold encoder_write. cbn [en_pending]. fold all. fold n. f_equal.
      rewrite <- app_assoc. f_equal. rewrite app_assoc, firstn_skipn. unfold all. now rewrite <- app_assoc.
    + unfold encoder_write. cbn [en_out]. fold all. fold n. rewrite Ho. now rewrite <- encode_app.
    + rewrite app_length, Hf. unfold n. lia.
Qed.
Lemma encoder_all chunks : encoder_close (fold_left encoder_write chunks (mkEncoder [] [])) = b64_encode (List.concat chunks).
Proof. now rewrite (encoder_writes chunks (mkEncoder [] []) []). Qed.

(** ** RFC 4648 by bits *)
Lemma number_app a b : number (a ++ b) = number a * 2 ^ Z.of_nat (List.length b) + number b.
Proof.
  unfold number. rewrite fold_left_app. generalize (fold_left (fun n (b : bool) => 2 * n + (if b then 1 else 0)) a 0). intros s.
  assert (K : forall l s t, fold_left (fun n (b : bool) => 2 * n + (if b then 1 else 0)) l (s + t) =
     s * 2 ^ Z.of_nat (List.length l) + fold_left (fun n (b : bool) => 2 * n + (if b then 1 else 0)) l t).
  { clear. induction l as [|x l IH]; intros s t; cbn [fold_left List.length].
    - change (2 ^ Z.of_nat 0) with 1. lia.
    - replace (2 * (s + t) + (if x then 1 else 0)) with (2 * s + (2 * t + (if x then 1 else 0))) by lia. rewrite IH.
      rewrite Nat2Z.inj_succ, Z.pow_succ_r by lia. ring. }
  rewrite <- (Z.add_0_r s) at 1. now rewrite K.
Qed.
Lemma bits8_cut b : exists b7 b6 b5 b4 b3 b2 b1 b0, bits8 b = [b7; b6; b5; b4; b3; b2; b1; b0] /\
  number [b7; b6; b5; b4; b3; b2] = zb b / 4 /\ number [b1; b0] = zb b mod 4 /\
  number [b7; b6; b5; b4] = zb b / 16 /\ number [b3; b2; b1; b0] = zb b mod 16 /\
  number [b7; b6] = zb b / 64 /\ number [b5; b4; b3; b2; b1; b0] = zb b mod 64.
Proof.
  do 8 eexists. split; [reflexivity|].
  pose proof (byte_sweep (fun b => (number (firstn 6 (bits8 b)) =? zb b / 4) && (number (skipn 6 (bits8 b)) =? zb b mod 4) &&
     (number (firstn 4 (bits8 b)) =? zb b / 16) && (number (skipn 4 (bits8 b)) =? zb b mod 16) &&
     (number (firstn 2 (bits8 b)) =? zb b / 64) && (number (skipn 2 (bits8 b)) =? zb b mod 64)) ltac:(vm_compute; reflexivity) b) as K.
  cbv beta in K. apply andb_true_iff in K. destruct K as [K K6]. apply andb_true_iff in K. destruct K as [K K5].
  apply andb_true_iff in K. destruct K as [K K4]. apply andb_true_iff in K. destruct K as [K K3]. apply andb_true_iff in K. destruct K as [K1 K2].
  apply Z.eqb_eq in K1, K2, K3, K4, K5, K6. auto 8.
Qed.
Lemma pad4_four c1 c2 c3 c4 s : pad4 (c1 :: c2 :: c3 :: c4 :: s) = c1 :: c2 :: c3 :: c4 :: pad4 s.
Proof.
  unfold pad4. cbn [app]. do 4 f_equal. f_equal. f_equal.
  replace (List.length (c1 :: c2 :: c3 :: c4 :: s) mod 4)%nat with (List.length s mod 4)%nat; [reflexivity|]. cbn [List.length]. lia.
Qed.
Lemma encode_rfc : forall s, b64_encode s = rfc4648 s.
Proof.
  intros s. unfold rfc4648. induction s as [|a|a b|a b c r IH] using list3_ind; [reflexivity| | |];
    pose proof (zb_range a); destruct (bits8_cut a) as (a7&a6&a5&a4&a3&a2&a1&a0&Ea&A1&A2&A3&A4&A5&A6).
  - unfold bits_of. cbn [flat_map]. rewrite Ea. cbn [app letters List.length Nat.sub repeat].
    unfold letter at 1 2. rewrite A1. change [a1; a0; false; false; false; false] with ([a1; a0] ++ repeat false 4).
    rewrite number_app, A2. cbn [b64_encode]. cbv zeta. unfold pad4. cbn [List.length app]. unfold enc6.
    change (number (repeat false 4)) with 0. change (2 ^ Z.of_nat (List.length (repeat false 4))) with 16.
    change ((4 - 2 mod 4) mod 4)%nat with 2%nat. cbn [repeat].
    replace (zb a * 65536 / 262144) with (zb a / 4) by lia.
    replace (zb a * 65536 / 4096 mod 64) with (zb a mod 4 * 16 + 0) by lia. reflexivity.
  - pose proof (zb_range b). destruct (bits8_cut b) as (b7&b6&b5&b4&b3&b2&b1&b0&Eb&B1&B2&B3&B4&B5&B6).
    unfold bits_of. cbn [flat_map]. rewrite Ea, Eb. cbn [app letters List.length Nat.sub repeat].
    unfold letter at 1 2 3. rewrite A1. change [a1; a0; b7; b6; b5; b4] with ([a1; a0] ++ [b7; b6; b5; b4]).
    change [b3; b2; b1; b0; false; false] with ([b3; b2; b1; b0] ++ [false; false]).
    rewrite !number_app, A2, B3, B4. cbn [b64_encode]. cbv zeta. unfold pad4. cbn [List.length app]. unfold enc6.
    change (number [false; false]) with 0. change (2 ^ Z.of_nat 4) with 16. change (2 ^ Z.of_nat 2) with 4.
    change ((4 - 3 mod 4) mod 4)%nat with 1%nat. cbn [repeat].
    replace ((zb a * 65536 + zb b * 256) / 262144) with (zb a / 4) by lia.
    replace ((zb a * 65536 + zb b * 256) / 4096 mod 64) with (zb a mod 4 * 16 + zb b / 16) by lia.
    replace ((zb a * 65536 + zb b * 256) / 64 mod 64) with (zb b mod 16 * 4 + 0) by lia. reflexivity.
  - pose proof (zb_range b). destruct (bits8_cut b) as (b7&b6&b5&b4&b3&b2&b1&b0&Eb&B1&B2&B3&B4&B5&B6).
    pose proof (zb_range c). destruct (bits8_cut c) as (c7&c6&c5&c4&c3&c2&c1&c0&Ec&C1&C2&C3&C4&C5&C6).
    unfold bits_of in *. cbn [flat_map]. rewrite Ea, Eb, Ec. cbn [app letters]. rewrite pad4_four, <- IH.
    unfold letter. rewrite A1. change [a1; a0; b7; b6; b5; b4] with ([a1; a0] ++ [b7; b6; b5; b4]).
    change [b3; b2; b1; b0; c7; c6] with ([b3; b2; b1; b0] ++ [c7; c6]).
    rewrite !number_app, A2, B3, B4, C5, C6. cbn [b64_encode]. cbv zeta. cbn [List.length]. unfold enc6.
    change (2 ^ Z.of_nat 4) with 16. change (2 ^ Z.of_nat 2) with 4.
    replace ((zb a * 65536 + zb b * 256 + zb c) / 262144) with (zb a / 4) by lia.
    replace ((zb a * 65536 + zb b * 256 + zb c) / 4096 mod 64) with (zb a mod 4 * 16 + zb b / 16) by lia.
    replace ((zb a * 65536 + zb b * 256 + zb c) / 64 mod 64) with (zb b mod 16 * 4 + zb c / 64) by lia.
    replace ((zb a * 65536 + zb b * 256 + zb c) mod 64) with (zb c mod 64) by lia. reflexivity.
Qed.

(** ** Line breaks *)
Lemma quanta_no_newline t x : quanta t x -> Forall (fun c => beq c b_cr || beq c b_lf = false) t.
Proof.
  assert (K : forall c a, dec6 c = Some a -> beq c b_cr || beq c b_lf = false).
  { intros c a H. destruct (beq_spec c b_cr) as [->|]; [discriminate|]. destruct (beq_spec c b_lf) as [->|]; [discriminate|]. reflexivity. }
  induction 1; repeat (constructor; eauto).
Qed.
Lemma broken_strip t w : broken_into_lines t w -> Forall (fun c => beq c b_cr || beq c b_lf = false) t ->
  strip_newlines w = t.
Proof.
  unfold strip_newlines. induction 1 as [|c t w _ IH|t w _ IH|t w _ IH]; intros H; [reflexivity| | |].
  - inversion H as [|? ? Hc Ht]; subst. cbn [filter]. rewrite Hc. cbn [negb]. now rewrite IH.
  - cbn [filter]. change (negb (beq b_cr b_cr || beq b_cr b_lf)) with false. now apply IH.
  - cbn [filter]. change (negb (beq b_lf b_cr || beq b_lf b_lf)) with false. now apply IH.
Qed.
Lemma strip_broken w : broken_into_lines (strip_newlines w) w.
Proof.
  unfold strip_newlines. induction w as [|c w IH]; [constructor|]. cbn [filter].
  destruct (beq_spec c b_cr) as [->|]; [now constructor|]. destruct (beq_spec c b_lf) as [->|]; [now constructor|]. now constructor.
Qed.

(** ** The shape *)
Lemma repeat_eq_quanta n : (n <= 2)%nat -> (n mod 4 = 0)%nat -> n = 0%nat.
Proof. lia. Qed.
Lemma shape_quanta : forall t, base64_shape t -> exists x, quanta t x.
Proof.
  intros t (ls&n&->&Hls&Hn&L). rewrite app_length, repeat_length in L.
  induction ls as [|a|a b|a b c|c1 c2 c3 c4 r IH] using list4_ind; cbn [List.length] in L.
  - assert (n = 0)%nat as -> by lia. exists []. constructor.
  - exfalso; lia.
  - assert (n = 2)%nat as -> by lia. cbn [app repeat].
    assert (A : dec6 a <> None) by (apply dec6_alphabet, Hls; cbn; auto). assert (A2 : dec6 b <> None) by (apply dec6_alphabet, Hls; cbn; auto).
    destruct (dec6 a) eqn:E1; [|congruence]. destruct (dec6 b) eqn:E2; [|congruence]. eexists. eapply q_two; eauto.
  - assert (n = 1)%nat as -> by lia. cbn [app repeat].
    assert (A : dec6 a <> None) by (apply dec6_alphabet, Hls; cbn; auto). assert (A2 : dec6 b <> None) by (apply dec6_alphabet, Hls; cbn; auto).
    assert (A3 : dec6 c <> None) by (apply dec6_alphabet, Hls; cbn; auto).
    destruct (dec6 a) eqn:E1; [|congruence]. destruct (dec6 b) eqn:E2; [|congruence]. destruct (dec6 c) eqn:E3; [|congruence].
    eexists. eapply q_three; eauto.
  - destruct IH as [x Hx]; [intros y Hy; apply Hls; cbn; auto|lia|].
    assert (A : dec6 c1 <> None) by (apply dec6_alphabet, Hls; cbn; auto). assert (A2 : dec6 c2 <> None) by (apply dec6_alphabet, Hls; cbn; auto).
    assert (A3 : dec6 c3 <> None) by (apply dec6_alphabet, Hls; cbn; auto). assert (A4 : dec6 c4 <> None) by (apply dec6_alphabet, Hls; cbn; auto 6).
    destruct (dec6 c1) eqn:E1; [|congruence]. destruct (dec6 c2) eqn:E2; [|congruence]. destruct (dec6 c3) eqn:E3; [|congruence].
    destruct (dec6 c4) eqn:E4; [|congruence]. cbn [app]. eexists. eapply q_four; eauto.
Qed.
Lemma quanta_shape t x : quanta t x -> base64_shape t.
Proof.
  assert (K : forall c a, dec6 c = Some a -> In c alphabet) by (intros c a H; apply dec6_alphabet; congruence).
  intros H. pose proof (quanta_length t x H) as L. revert L. induction H as [|c1 c2 a b v H1 H2 _|c1 c2 c3 a b c v H1 H2 H3 _|c1 c2 c3 c4 a b c d v t x H1 H2 H3 H4 _ Q IH]; intros L.
  - exists [], 0%nat. repeat split; [intros c []|lia].
  - exists [c1; c2], 2%nat. split; [reflexivity|]. split; [intros y [<-|[<-|[]]]; eauto|]. split; [lia|exact L].
  - exists [c1; c2; c3], 1%nat. split; [reflexivity|]. split; [intros y [<-|[<-|[<-|[]]]]; eauto|]. split; [lia|exact L].
  - destruct IH as (ls&n&Et&Hls&Hn&_); [now apply quanta_length in Q|].
    exists (c1 :: c2 :: c3 :: c4 :: ls), n. split; [now rewrite Et|]. split; [|split; [exact Hn|exact L]].
    intros y [<-|[<-|[<-|[<-|Hy]]]]; eauto.
Qed.
