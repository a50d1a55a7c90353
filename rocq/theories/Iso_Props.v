(** * Properties of signatures with ISO 9796-1 padding (C62) *)
From Coq Require Import Lia ZifyBool ZifyNat ZifyN Znumtheory.
From Verif Require Import Base Crypto_Model Crypto_Spec Rsa_Facts Crypto_Facts Crypto_Facts2 Crypto_Facts3 Crypto_Facts4 Crypto_Props.
Open Scope Z_scope.
Ltac Zify.zify_post_hook ::= Z.div_mod_to_equations.

(** Signing with any key: a new encoding, the number of padding bits, the key, the message
    as a part of a slice.  [None]: the call never returns. *)
Definition sign_with (g : engine) (k : key) (pad : Z) (inp : bytes) (off n : Z) : option (outcome bytes) :=
  match set_pad_bits pad (new_encoding g) with
  | Ok i => option_map (omap snd) (iso_process (iso_init true k i) inp off n)
  | _ => Some Panic
  end.
(** Recovering, with any encoding: the message and the number of padding bits afterwards *)
Definition recover_with (i : encoding) (k : key) (s : bytes) : option (outcome (bytes * Z)) :=
  option_map (omap (fun '(j, r) => (r, i_pad j))) (iso_process (iso_init false k i) s 0 (len s)).

Lemma part_of a m b : part (a ++ m ++ b) (len a) (len m) = m.
Proof.
  unfold part. rewrite !len_nat. rewrite skipn_app, skipn_all, Nat.sub_diag. cbn [app skipn].
  now rewrite firstn_app, firstn_all, Nat.sub_diag, app_nil_r.
Qed.

Lemma sign_eq g k pad inp off n : pad <= 7 ->
  sign_with g k pad inp off n = encode_block (mkEncoding (bit_len (modulus_of k)) pad (modulus_of k) (Some (mkCore k true)) true) inp off n.
Proof.
  intros P. unfold sign_with, set_pad_bits. destruct (Z.ltb_spec 7 pad); [lia|].
  unfold iso_process, iso_init, new_encoding, engine_init. cbn [i_enc i_pad i_bits i_modulus i_engine].
  destruct (encode_block _ inp off n) as [[x| |]|]; reflexivity.
Qed.
Lemma recover_eq i k s :
  recover_with i k s = Some (decode_block (mkEncoding (bit_len (modulus_of k)) (i_pad i) (modulus_of k) (Some (mkCore k false)) false) s 0 (len s)).
Proof.
  unfold recover_with, iso_process, iso_init, engine_init. cbn [i_enc i_pad i_bits i_modulus i_engine].
  destruct (decode_block _ s 0 (len s)) as [(x&p)| |]; reflexivity.
Qed.

Lemma fill_some z : 1 <= z -> forall fuel inp off t i block, t - i <= Z.of_nat fuel -> 
  fill fuel inp off z t i block <> None /\ fill fuel inp off z t i block <> Some Err.
Proof.
  intros Z1. induction fuel as [|f IH]; intros inp off t i block F; cbn [fill]; destruct (Z.ltb_spec i t) as [C|C]; try lia;
    try (split; discriminate).
  assert (N : forall s so d dof n, array_copy s so d dof n <> Err).
  { intros. unfold array_copy, slice. destruct (_ && _ && _); [|discriminate]. cbn [obind]. destruct (_ && _ && _); discriminate. }
  destruct (if t - z <? i then _ else _) as [b| |] eqn:E.
  - apply IH. lia.
  - exfalso. destruct (t - z <? i); now apply N in E.
  - split; discriminate.
Qed.

Lemma encode_panics i inp off z : 1 <= z -> 1 <= i_bits i ->
  iso_bytes (i_bits i) < z \/ ~ signs (i_bits i) -> encode_block i inp off z = Some Panic.
Proof.
  intros Z1 B1 H. unfold encode_block.
  set (l := (i_bits i + 7) / 8). set (t := (i_bits i + 13) / 16) in *. change (iso_bytes (i_bits i)) with t in H.
  set (blk := repeat b_nul (Z.to_nat l)). assert (Lb : len blk = l) by (unfold len, blk; rewrite repeat_length; lia).
  destruct (fill_some z Z1 (Z.to_nat t) inp off t 0 blk) as (N1&N2); [lia|].
  assert (LF : forall fuel i b b', fill fuel inp off z t i b = Some (Ok b') -> len b' = len b).
  { clear. clearbody t. clear. induction fuel as [|f IH]; intros i0 b b'; cbn [fill]; destruct (i0 <? t); try discriminate; try congruence.
    assert (LC : forall s so dof n x, array_copy s so b dof n = Ok x -> len x = len b).
    { intros s so dof n x. unfold array_copy, slice.
      destruct ((0 <=? dof) && (dof <=? len b) && (len b <=? len b)) eqn:E; [|discriminate]. cbn [obind].
      destruct ((0 <=? so) && (so <=? so + n) && (so + n <=? len s)) eqn:E'; [|discriminate]. cbn [obind].
      intros X. injection X as <-. unfold len in *. rewrite !app_length, !firstn_length, !skipn_length, !firstn_length, !skipn_length. lia. }
    destruct (if t - z <? i0 then _ else _) as [c| |] eqn:E; [|discriminate|discriminate].
    intros F. apply IH in F. rewrite F. destruct (t - z <? i0); eapply LC; exact E. }
  destruct (fill (Z.to_nat t) inp off z t 0 blk) as [[b| |]|] eqn:F; try contradiction; [|reflexivity].
  f_equal. cbn [obind]. apply LF in F. rewrite F, Lb.
  destruct (Z_lt_le_dec t z) as [Big|Small].
  - destruct (spread (Z.to_nat t) t (l - 2 * t) b) as [b2| |] eqn:S; [|now apply spread_not_err in S|reflexivity].
    cbn [obind]. assert (L2 : len b2 = l).
    { rewrite <- Lb, <- F. clear -S. revert S. generalize (l - 2 * t). generalize (Z.to_nat t). intros n.
      clearbody t. revert b. induction n as [|n IH]; intros b i0 S; cbn [spread] in S; [congruence|].
      destruct (get b _) as [v| |]; try discriminate. cbn [obind] in S.
      assert (LP : forall x k w y, put x k w = Ok y -> len y = len x).
      { intros x k w y E. destruct (Z_lt_le_dec k 0) as [N|N]; [rewrite put_panic in E by lia; discriminate|].
        destruct (Z_lt_le_dec k (len x)) as [N'|N']; [|rewrite put_panic in E by lia; discriminate].
        destruct (put_ok x k w (conj N N')) as (y'&E'&L'&_). congruence. }
      destruct (put b i0 _) as [b1| |] eqn:P1; try discriminate. cbn [obind] in S.
      destruct (put b1 (i0 + 1) v) as [b3| |] eqn:P2; try discriminate. cbn [obind] in S.
      apply IH in S. apply LP in P1. apply LP in P2. congruence. }
    unfold force. rewrite L2. rewrite get_panic by (unfold l, t in *; lia). reflexivity.
  - destruct H as [H|H]; [lia|]. unfold signs in H.
    assert (O : l - 2 * t = -1) by (unfold l, t; lia). assert (T1 : 1 <= t) by (unfold t; lia).
    destruct (Z.to_nat t) as [|n] eqn:En; [lia|]. cbn [spread]. rewrite O.
    change (Z.quot (-1) 2) with 0. rewrite get_ok by (unfold l, t in *; lia). cbn [obind].
    rewrite put_panic by lia. reflexivity.
Qed.

(** ** Signing *)
(** The result of signing a message of [z] bytes with a key whose modulus has [bits] bits:
    the power of the padded number, in as many bytes as the modulus has, if the message is
    not longer than [iso_bytes bits] and the size of the modulus is one the code can pad
    for.  Otherwise the call panics, and for an empty message it never returns. *)
Theorem C62_sign : forall g pr n d bits pad a m b, rsa_modulus n -> 1 <= d -> bit_size n bits -> 0 <= pad <= 7 ->
  let out := sign_with g (Plain pr n d) pad (a ++ m ++ b) (len a) (len m) in
  (m <> [] -> len m <= iso_bytes bits -> signs bits ->
     exists s, out = Some (Ok s) /\ len s = (bits + 7) / 8 /\ value s = iso_number bits m pad ^ d mod n) /\
  (m <> [] -> iso_bytes bits < len m \/ ~ signs bits -> out = Some Panic) /\
  (m = [] -> 3 <= bits -> out = None).
Proof.
  intros g pr n d bits pad a m b (p&q&P&Q&Npq&En) Hd S Hp out. unfold out. rewrite sign_eq by lia.
  cbn [modulus_of]. rewrite (bit_size_unique _ _ S).
  assert (B1 : 1 <= bits) by (destruct S; lia).
  assert (NE : m <> [] -> 1 <= len m). { destruct m; [congruence|intros _; unfold len; cbn [List.length]; lia]. }
  assert (N : 0 < n) by (destruct P, Q; nia).
  set (i := mkEncoding bits pad n (Some (mkCore (Plain pr n d) true)) true).
  split; [|split].
  - intros M L Sg. specialize (NE M).
    destruct (encode_given bits m pad B1 Sg (conj NE L) Hp i (a ++ m ++ b) (len a)) as (blk&o'&E&Lb&Ho&(Vg&_&_&_)); try reflexivity.
    { apply part_of. } { unfold len. lia. } { unfold len. rewrite !app_length. lia. }
    rewrite E. cbn [i_engine i]. pose proof (size_bits _ _ S) as BS. unfold i. cbn [i_engine].
    rewrite (engine_eq pr n d true ((bits + 7) / 8)) by assumption.
    pose proof (iso_number_range bits m pad B1 Sg (conj NE L) n S) as R.
    rewrite Lb, Vg.
    replace (_ && _ && _) with true by lia.
    destruct (convert_output_enc (mkCore (Plain pr n d) true) (iso_number bits m pad ^ d mod n) ((bits + 7) / 8)) as (s&Es&Ls&Vs);
      [reflexivity|exact BS| |].
    { cbn [c_key modulus_of]. pose proof (Z.mod_pos_bound (iso_number bits m pad ^ d) n N).
      assert (iso_number bits m pad ^ d mod n <> 0); [|lia].
      rewrite En. intros Z0. apply (proj1 (rsa_zero p q d _ P Q Npq Hd)) in Z0. rewrite <- En, Z.mod_small in Z0; lia. }
    exists s. rewrite Es. auto.
  - intros M H. specialize (NE M). apply encode_panics; assumption.
  - intros -> B3. unfold encode_block. cbn [i_bits i i_pad i_engine].
    set (t := (bits + 13) / 16). set (blk := repeat b_nul _).
    assert (T : 1 <= t) by (unfold t; lia).
    enough (G : forall fuel c, len c = len blk -> fill fuel (a ++ [] ++ b) (len a) (len []) t 0 c = None).
    { unfold i. cbn [i_bits]. fold t. fold blk. rewrite G by reflexivity. reflexivity. }
    induction fuel as [|f IH]; intros c Lc; cbn [fill]; destruct (Z.ltb_spec 0 t); try lia; [reflexivity|].
    change (len []) with 0. replace (t - 0 <? 0) with false by lia.
    destruct (copy_ok (a ++ [] ++ b) (len a) c (len c - (0 + 0)) 0) as (c'&->&L'&_); try (unfold len; rewrite ?app_length; lia).
    apply IH. lia.
Qed.
Print Assumptions C62_sign.

(** InputBlockSize is the length of the longest message that can be signed, where the size of
    the modulus is one the code can pad for; OutputBlockSize the length of the signature.  The
    other way round: a signature goes in, and at most as many bytes come out as could be signed. *)
Theorem C62_block_sizes : forall k i bits, bit_size (modulus_of k) bits ->
  (exists s, iso_input_block_size (iso_init true k i) = Ok s /\ s <= iso_bytes bits /\ (signs bits <-> s = iso_bytes bits)) /\
  iso_output_block_size (iso_init true k i) = Ok ((bits + 7) / 8) /\
  iso_input_block_size (iso_init false k i) = Ok ((bits + 7) / 8) /\
  iso_output_block_size (iso_init false k i) = iso_input_block_size (iso_init true k i).
Proof.
  intros k i bits S. unfold iso_input_block_size, iso_output_block_size, iso_init, engine_init, input_block_size, output_block_size.
  cbn [i_engine i_enc c_key c_enc]. rewrite (bit_size_unique _ _ S). unfold iso_bytes, signs. assert (1 <= bits) by (destruct S; lia). repeat split.
  - eexists. split; [reflexivity|]. split; [lia|]. split; lia.
Qed.
Print Assumptions C62_block_sizes.
Example C62_block_sizes_example : iso_input_block_size (iso_init true (Plain true (2 ^ 31 + 11) 3) (new_encoding None)) = Ok 2 /\ bit_size (2 ^ 31 + 11) 32 /\ signs 32.
Proof. split; [vm_compute; reflexivity|]. split; [split; lia|]. unfold signs. intros K. vm_compute in K. now destruct K as [K _]. Qed.

(** ** Recovering any signature *)
(** What recovering with a public key does depends on one number, the power of the
    signature.  It succeeds exactly if that number ends in the half byte 6 and has more than
    one byte: no redundancy is looked at.  If the modulus minus the number ends in 6 it panics,
    as it does for a signature that is no number below the modulus.  The number of padding
    bits is always reported as 0. *)
Theorem C62_verify : forall i pr n e bits s, bit_size n bits -> 3 <= bits ->
  let v := value s ^ e mod n in
  let out := recover_with i (Plain pr n e) s in
  let fits := len s <= (bits + 7) / 8 /\ value s < n /\ v <> 0 in
  ((exists r, out = Some (Ok (r, 0))) <-> fits /\ v mod 16 = 6 /\ 256 <= v) /\
  (forall r p, out = Some (Ok (r, p)) -> p = 0) /\
  (out = Some Err <-> fits /\ v mod 16 <> 6 /\ (n - v) mod 16 <> 6) /\
  (out = Some Panic <-> ~ fits \/ (v mod 16 = 6 /\ v < 256) \/ (v mod 16 <> 6 /\ (n - v) mod 16 = 6)).
Proof.
  intros i pr n e bits s S B3 v out fits. unfold out. rewrite recover_eq. cbn [modulus_of]. rewrite (bit_size_unique _ _ S).
  assert (N : 0 < n). { destruct S as (_&S1&_). pose proof (Z.pow_pos_nonneg 2 (bits - 1)). lia. }
  set (j := mkEncoding bits (i_pad i) n (Some (mkCore (Plain pr n e) false)) false).
  pose proof (size_bits _ _ S) as BS.
  assert (EE : engine_process (i_engine j) s 0 (len s) = if (len s <=? (bits + 7) / 8) && (value s <? n)
     then convert_output (mkCore (Plain pr n e) false) v else Panic).
  { exact (process_whole pr n e false None _ s N BS). }
  pose proof (Z.mod_pos_bound (value s ^ e) n N) as VR. fold v in VR.
  destruct ((len s <=? (bits + 7) / 8) && (value s <? n)) eqn:F.
  - destruct (Z.eq_dec v 0) as [Z0|Z0].
    + rewrite Z0 in EE. rewrite convert_output_zero in EE. unfold decode_block. rewrite EE. cbn [obind].
      assert (~ fits) by (unfold fits; lia).
      split; [|split; [|split]].
      * split; [intros (r&X); discriminate|tauto].
      * discriminate.
      * split; [discriminate|tauto].
      * split; auto.
    + rewrite convert_output_dec in EE by (auto; lia).
      assert (Ft : fits) by (unfold fits; lia).
      destruct (decode_number j s 0 (len s) v) as (A&B&C&D); [cbn [i_bits j]; lia|lia|exact EE|].
      cbn [i_modulus j] in C, D.
      destruct (Z.eq_dec (v mod 16) 6) as [M|M].
      * destruct (Z_lt_le_dec v 256) as [Lt|Ge].
        { rewrite A by assumption. split; [|split; [|split]].
          - split; [intros (r&X); discriminate|lia].
          - discriminate.
          - split; [discriminate|tauto].
          - split; auto. }
        { destruct (B M Ge) as (r&E&_). rewrite E. split; [|split; [|split]].
          - split; [intros _; auto|intros _; now exists r].
          - intros r' p X. congruence.
          - split; [discriminate|tauto].
          - split; [discriminate|]. intros [X|[X|X]]; tauto || lia. }
      * destruct (Z.eq_dec ((n - v) mod 16) 6) as [M2|M2].
        { rewrite C by assumption. split; [|split; [|split]].
          - split; [intros (r&X); discriminate|tauto].
          - discriminate.
          - split; [discriminate|tauto].
          - split; auto. }
        { rewrite D by assumption. split; [|split; [|split]].
          - split; [intros (r&X); discriminate|tauto].
          - discriminate.
          - split; auto.
          - split; [discriminate|]. intros [X|[X|X]]; tauto. }
  - unfold decode_block. rewrite EE. cbn [obind]. assert (~ fits) by (unfold fits; lia).
    split; [|split; [|split]].
    + split; [intros (r&X); discriminate|tauto].
    + discriminate.
    + split; [discriminate|tauto].
    + split; auto.
Qed.
Print Assumptions C62_verify.

(** ** Recovering what was signed *)
Lemma extended_same m : extended m (List.length m) = m.
Proof.
  destruct m as [|x m]; [reflexivity|]. set (w := x :: m).
  assert (L1 : 1 <= len w) by (unfold len, w; cbn [List.length]; lia).
  apply at_ext; [apply extended_len|]. rewrite extended_len. intros j J.
  replace (List.length w) with (Z.to_nat (len w)) by apply len_nat.
  replace j with (len w - 1 - (len w - 1 - j)) at 1 by lia.
  fold (len w) in J. rewrite at_extended by lia. rewrite Z.mod_small by lia. f_equal. lia.
Qed.

(** A message of [z] bytes, signed with one exponent of a key pair, recovered with the other
    one.  For the sizes in [recovers] the extended message comes back, that is the message
    itself exactly if it fills all bytes there are; for the other sizes something else comes
    back.  The number of padding bits is lost. *)
Theorem C62_recover : forall g i pr pr' n d e bits pad a m b, rsa_pair n d e -> bit_size n bits -> 19 <= bits ->
  signs bits -> 0 <= pad <= 7 -> m <> [] -> len m <= iso_bytes bits ->
  exists s r, sign_with g (Plain pr n d) pad (a ++ m ++ b) (len a) (len m) = Some (Ok s) /\
    recover_with i (Plain pr' n e) s = Some (Ok (r, 0)) /\
    (recovers bits -> r = extended m (Z.to_nat (iso_bytes bits))) /\
    (r = m <-> recovers bits /\ len m = iso_bytes bits).
Proof.
  intros g i pr pr' n d e bits pad a m b (p&q&P&Q&Npq&En&Hd&He&Dp&Dq) S B19 Sg Hp M L.
  assert (B1 : 1 <= bits) by lia.
  assert (NE : 1 <= len m). { destruct m; [congruence|unfold len; cbn [List.length]; lia]. }
  destruct (C62_sign g pr n d bits pad a m b) as (Sign&_&_); auto.
  { exists p, q. auto. }
  destruct (Sign M L Sg) as (s&Es&Ls&Vs). exists s.
  set (v := iso_number bits m pad) in *.
  pose proof (iso_number_range bits m pad B1 Sg (conj NE L) n S) as R. fold v in R.
  assert (N : 0 < n) by lia. pose proof (size_bits _ _ S) as BS.
  assert (Pw : value s ^ e mod n = v).
  { rewrite Vs, En, (rsa_inverse p q d e) by assumption. rewrite <- En. apply Z.mod_small. lia. }
  rewrite recover_eq. cbn [modulus_of]. rewrite (bit_size_unique _ _ S).
  set (j := mkEncoding bits (i_pad i) n (Some (mkCore (Plain pr' n e) false)) false).
  assert (EE : engine_process (i_engine j) s 0 (len s) = Ok (big_bytes v)).
  { etransitivity; [exact (process_whole pr' n e false None _ s N BS)|]. rewrite Pw.
    pose proof (Z.mod_pos_bound (v ^ d) n N).
    replace ((len s <=? (bits + 7) / 8) && (value s <? n)) with true by lia.
    apply convert_output_dec; [reflexivity|lia]. }
  (* the bytes of the number *)
  destruct (encode_given bits m pad B1 Sg (conj NE L) Hp
              (mkEncoding bits pad n (Some (mkCore (Plain pr n d) true)) true) (a ++ m ++ b) (len a))
    as (blk&o'&_&_&_&(Vg&Tg&Lg&Ag)); try reflexivity.
  { apply part_of. } { unfold len. lia. } { unfold len. rewrite !app_length. lia. }
  set (w := part blk o' ((bits + 7) / 8 - o')) in *. fold v in Vg.
  assert (Ew : big_bytes v = w) by (rewrite <- Vg, big_bytes_value; now apply strip_id).
  set (t := iso_bytes bits) in *. set (l := (bits + 7) / 8) in *. set (o := l - 2 * t).
  assert (Ho : 0 <= o <= 1 /\ 2 <= t /\ 3 <= l /\ l = o + 2 * t) by (unfold o, l, t, iso_bytes, signs in *; lia).
  set (dl := if bits mod 8 =? 1 then 1 else 0) in *.
  assert (Hdl : (bits mod 8 = 1 /\ dl = 1) \/ (bits mod 8 <> 1 /\ dl = 0))
    by (unfold dl; destruct (Z.eqb_spec (bits mod 8) 1); auto).
  assert (Lw0 : len w = l - dl) by (rewrite Lg; unfold dl; destruct (bits mod 8 =? 1); lia).
  clear Lg. clearbody dl.
  assert (M16 : v mod 16 = 6).
  { assert (LW : zb (at' w (len w - 1)) = v mod 256) by (rewrite value_last by lia; now rewrite Vg).
    rewrite Ag in LW by lia.
    replace (len w - 1 + dl) with (o + 2 * (t - 1) + 1) in LW by (unfold o; lia).
    destruct (padded_at bits m pad B1 Sg (conj NE L) Hp (t - 1)) as (_&PA); [fold t; lia|].
    fold t l o in PA. rewrite PA, Z.eqb_refl in LW. lia. }
  assert (V256 : 256 <= v).
  { unfold v, iso_number. assert (256 <= 2 ^ (bits - 2)) by (change 256 with (2 ^ 8); apply Z.pow_le_mono_r; lia).
    set (x := number _). pose proof (Z.mod_pos_bound x (2 ^ (bits - 2))). lia. }
  destruct (decode_number j s 0 (len s) v) as (_&Dec&_&_); [cbn [i_bits j]; unfold t, iso_bytes in Ho; lia|lia|exact EE|].
  destruct (Dec M16 V256) as (r&Er&Lr&Ar). rewrite Ew in Lr, Ar. clear Dec. cbv zeta in Lr, Ar.
  exists r. split; [exact Es|]. split; [now rewrite Er|].
  pose (D := fun k => at' (extended m (Z.to_nat t)) k).
  assert (PA : forall k, 0 <= k < t ->
    zb (at' (padded bits m pad) (o + 2 * k)) =
      (if k =? t - len m then Z.lxor (perm_byte (zb (D k))) (pad + 1) else perm_byte (zb (D k))) /\
    zb (at' (padded bits m pad) (o + 2 * k + 1)) = (if k =? t - 1 then zb (D k) mod 16 * 16 + 6 else zb (D k))).
  { exact (padded_at bits m pad B1 Sg (conj NE L) Hp). }
  assert (Good : recovers bits -> r = extended m (Z.to_nat t)).
  { intros Rc. assert (Od : o - dl = 0) by (unfold o, l, t, iso_bytes, recovers in *; lia).
    assert (Lw : len w = 2 * t) by (unfold o in *; lia).
    apply at_ext; [rewrite extended_len; lia|]. intros k K. rewrite Ar by lia.
    destruct (PA k) as (P1&P2); [lia|].
    destruct (Z.eqb_spec (2 * k + 1) (len w - 1)) as [Last|Nl].
    - assert (Ek : k = t - 1) by lia. unfold rebuilt.
      rewrite (Ag (len w - 1)) by lia. rewrite (Ag (len w - 2)) by lia.
      replace (len w - 1 + dl) with (o + 2 * k + 1) by lia.
      replace (len w - 2 + dl) with (o + 2 * k) by lia.
      rewrite P1, P2. replace (k =? t - 1) with true by lia.
      fold (D k). apply last_back. destruct (k =? t - len m); [apply xor_high; lia|reflexivity].
    - rewrite Ag by lia. replace (2 * k + 1 + dl) with (o + 2 * k + 1) by lia.
      apply zb_eq. rewrite P2. now replace (k =? t - 1) with false by lia. }
  split; [exact Good|]. split.
  - intros Erm. destruct (Z.eq_dec (bits mod 16) 9) as [S9|N9].
    { exfalso. assert (len r = t - 1) by (unfold o, l, t, iso_bytes in *; lia).
      destruct (Z.eq_dec 0 0); [|lia].
      (* the bytes that come back are redundancy *)
      assert (Lt : len m = t - 1) by congruence. specialize (Ar 0 ltac:(lia)).
      replace (2 * 0 + 1 =? len w - 1) with false in Ar by lia.
      rewrite Ag in Ar by lia. destruct (PA 1) as (P1&_); [lia|].
      assert (O0 : o = 0) by (unfold o, l, t, iso_bytes in *; lia).
      replace (2 * 0 + 1 + dl) with (o + 2 * 1) in Ar by lia.
      rewrite <- Ar in P1. rewrite Erm in P1.
      assert (D1 : D 1 = at' m 0).
      { unfold D. replace 1 with (t - 1 - (t - 2)) at 1 by lia. rewrite at_extended by lia. rewrite Z.mod_small by lia. f_equal. lia. }
      rewrite D1 in P1. apply (f_equal (fun x => Z.shiftr x 4)) in P1.
      replace (1 =? t - len m) with true in P1 by lia. rewrite xor_high in P1 by lia. symmetry in P1.
      now apply perm_high_differs in P1. }
    destruct (Z.eq_dec (bits mod 16) 2) as [S2|N2].
    { exfalso. assert (O1 : o = 1) by (unfold o, l, t, iso_bytes in *; lia).
      assert (Lt : len m = t) by (rewrite <- Erm, Lr; unfold o, l, t, iso_bytes in *; lia).
      specialize (Ar 0 ltac:(lia)).
      replace (2 * 0 + 1 =? len w - 1) with false in Ar by lia.
      rewrite Ag in Ar by lia. destruct (PA 0) as (P1&_); [lia|].
      replace (2 * 0 + 1 + dl) with (o + 2 * 0) in Ar by lia.
      rewrite <- Ar in P1. rewrite Erm in P1.
      assert (D1 : D 0 = at' m 0).
      { unfold D. replace 0 with (t - 1 - (t - 1)) at 1 by lia. rewrite at_extended by lia. rewrite Z.mod_small by lia. f_equal. lia. }
      rewrite D1 in P1. apply (f_equal (fun x => Z.shiftr x 4)) in P1.
      replace (0 =? t - len m) with true in P1 by lia. rewrite xor_high in P1 by lia. symmetry in P1.
      now apply perm_high_differs in P1. }
    assert (Rc : recovers bits) by (unfold recovers, signs in *; lia). split; [exact Rc|].
    rewrite <- Erm, (Good Rc), extended_len. lia.
  - intros (Rc&Lm). rewrite (Good Rc). replace (Z.to_nat t) with (List.length m) by (unfold len in Lm; lia). apply extended_same.
Qed.
Print Assumptions C62_recover.

(** ** Signatures nobody made *)
(** Every number below the modulus that has two bytes or more and ends in 6 is recovered
    from some signature. *)
Theorem C62_forgery : forall i pr n d e bits v, rsa_pair n d e -> bit_size n bits -> 3 <= bits ->
  v mod 16 = 6 -> 256 <= v < n ->
  exists s r, value s ^ e mod n = v /\ recover_with i (Plain pr n e) s = Some (Ok (r, 0)).
Proof.
  intros i pr n d e bits v (p&q&P&Q&Npq&En&Hd&He&Dp&Dq) S B3 M V.
  assert (N : 0 < n) by lia. pose proof (Z.mod_pos_bound (v ^ d) n N) as R.
  destruct (big_bytes_spec (v ^ d mod n)) as (Vs&Ts); [lia|].
  set (s := big_bytes (v ^ d mod n)) in *.
  assert (Pw : value s ^ e mod n = v).
  { rewrite Vs, En, (rsa_inverse p q d e) by assumption. rewrite <- En. apply Z.mod_small. lia. }
  assert (Ls : len s <= (bits + 7) / 8).
  { destruct (size_bits _ _ S) as (L1&_&S2). destruct s as [|b0 s'] eqn:Es; [unfold len; cbn; lia|].
    pose proof (trimmed_size b0 s' Ts) as TS. rewrite Vs in TS. unfold len. cbn [List.length].
    assert (~ (bits + 7) / 8 <= Z.of_nat (List.length s')); [|lia].
    intros H. apply (Z.pow_le_mono_r 256) in H; lia. }
  destruct (C62_verify i pr n e bits s S B3) as (A&_). rewrite Pw in A.
  destruct (proj2 A) as (r&Er); [lia|]. exists s, r. auto.
Qed.
Print Assumptions C62_forgery.

(** So a signature whose power is not the padding of any message is not always rejected:
    for no key pair of 11 bits or more. *)
Theorem C62_only_signed_refuted : forall i pr n d e bits, rsa_pair n d e -> bit_size n bits -> 11 <= bits ->
  ~ (forall s r, recover_with i (Plain pr n e) s = Some (Ok (r, 0)) ->
       exists m pad, value s ^ e mod n = iso_number bits m pad).
Proof.
  intros i pr n d e bits R S B H.
  assert (2 ^ 10 <= 2 ^ (bits - 1)) by (apply Z.pow_le_mono_r; lia).
  assert (2 ^ 9 <= 2 ^ (bits - 2)) by (apply Z.pow_le_mono_r; lia).
  change (2 ^ 10) with 1024 in *. change (2 ^ 9) with 512 in *.
  destruct (C62_forgery i pr n d e bits 262 R S) as (s&r&V&E); try lia.
  { destruct S as (_&S1&_). lia. }
  destruct (H s r E) as (m&pad&X). rewrite V in X. unfold iso_number in X.
  set (x := number _) in X. pose proof (Z.mod_pos_bound x (2 ^ (bits - 2))). clear - H0 H1 H2 X. lia.
Qed.
Print Assumptions C62_only_signed_refuted.

Lemma cube_mono a b : 0 <= a <= b -> a * a * a <= b * b * b.
Proof. intros H. assert (a * a <= b * b) by nia. nia. Qed.
(** The first number whose cube is above [n] and leaves a remainder that ends in 6 *)
Definition cube_fits (n x : Z) : bool := (n + 256 <=? x ^ 3) && ((x ^ 3 - n) mod 16 =? 6).
Fixpoint cube_search (fuel : nat) (n x : Z) : Z :=
  match fuel with
  | O => x
  | S f => if cube_fits n x then x else cube_search f n (x + 1)
  end.
Lemma cube_search_spec n y : cube_fits n y = true -> forall fuel x, x <= y <= x + Z.of_nat fuel ->
  cube_fits n (cube_search fuel n x) = true /\ x <= cube_search fuel n x <= y.
Proof.
  intros Y. induction fuel as [|f IH]; intros x H; cbn [cube_search].
  - replace x with y by lia. split; [exact Y|lia].
  - destruct (cube_fits n x) eqn:E; [split; [exact E|lia]|].
    assert (x <> y) by congruence. destruct (IH (x + 1)) as (A&B); [lia|]. split; [exact A|lia].
Qed.
Lemma cube_mod x y : x mod 16 = y mod 16 -> x ^ 3 mod 16 = y ^ 3 mod 16.
Proof. intros H. rewrite (Zpow_facts.Zpower_mod x), (Zpow_facts.Zpower_mod y), H by lia. reflexivity. Qed.
Lemma cube_root_exists n k : 0 <= k -> n <= k ^ 3 -> 0 < n -> exists b, 0 <= b < k /\ b ^ 3 < n <= (b + 1) ^ 3.
Proof.
  intros K. pattern k. apply natlike_ind; [|intros x X IH|exact K].
  - cbn. lia.
  - intros H N. destruct (Z_le_gt_dec n (x ^ 3)) as [L|L].
    + destruct (IH L N) as (b&B&E). exists b. split; [lia|exact E].
    + exists x. unfold Z.succ in *. split; [lia|]. lia.
Qed.
Lemma cube_exists n : Z.odd n = true -> 2 ^ 18 <= n -> exists y, cube_fits n y = true /\ 0 < y < n /\ y ^ 3 < 2 * n.
Proof.
  intros O N. change (2 ^ 18) with 262144 in N.
  assert (P3 : forall z, z ^ 3 = z * z * z) by (intros; ring).
  destruct (cube_root_exists (n + 256) n) as (b&B&L&U); [lia|rewrite P3; nia|lia|].
  rewrite P3 in L, U.
  assert (B63 : 63 <= b) by (destruct (Z_lt_le_dec b 63); [|assumption]; assert ((b + 1) * (b + 1) <= 63 * 63) by nia; nia).
  assert (Odd : (n + 6) mod 2 = 1). { rewrite Z.odd_spec in O. destruct O as (q&->). lia. }
  assert (Root : exists r, 0 <= r < 16 /\ r ^ 3 mod 16 = (n + 6) mod 16).
  { assert (R : let m := (n + 6) mod 16 in m = 1 \/ m = 3 \/ m = 5 \/ m = 7 \/ m = 9 \/ m = 11 \/ m = 13 \/ m = 15) by lia.
    cbv zeta in R. destruct R as [R|[R|[R|[R|[R|[R|[R|R]]]]]]]; rewrite R;
      [exists 1|exists 11|exists 13|exists 7|exists 9|exists 3|exists 5|exists 15]; split; try lia; reflexivity. }
  destruct Root as (r&Rr&Er).
  set (y := b + 1 + (r - (b + 1)) mod 16).
  assert (Y : b + 1 <= y <= b + 16) by (unfold y; lia).
  assert (My : y mod 16 = r mod 16) by (unfold y; lia).
  apply cube_mod in My. rewrite Er in My.
  assert (C1 : (b + 1) * (b + 1) * (b + 1) <= y * y * y). { apply cube_mono. clear - B Y. lia. }
  assert (C2 : y * y * y <= (b + 16) * (b + 16) * (b + 16)). { apply cube_mono. clear - B Y. lia. }
  assert (C3 : (b + 16) * (b + 16) * (b + 16) < 2 * n).
  { assert (E : (b + 16) * (b + 16) * (b + 16) = b * b * b + 48 * (b * b) + 768 * b + 4096) by ring.
    assert (b * b * 63 <= b * b * b) by (clear - B63; nia). assert (63 * b <= b * b) by (clear - B63; nia). clear - E U L H H0 N. lia. }
  exists y. unfold cube_fits. rewrite P3 in *. split; [|split; [|lia]].
  - assert (n + 256 <= y * y * y) by lia. rewrite andb_true_intro; [reflexivity|]. split; [lia|].
    revert My. generalize (y * y * y). intros w Mw. lia.
  - nia.
Qed.

(** For the exponent 3 a signature that is accepted can be computed from the modulus alone. *)
Theorem C62_forged : exists f : Z -> bytes, forall i pr n bits, Z.odd n = true -> bit_size n bits -> 19 <= bits ->
  exists r, recover_with i (Plain pr n 3) (f n) = Some (Ok (r, 0)).
Proof.
  exists (fun n => big_bytes (cube_search (Z.to_nat n) n 0)). intros i pr n bits O S B.
  assert (N : 2 ^ 18 <= n). { destruct S as (_&S1&_). assert (2 ^ 18 <= 2 ^ (bits - 1)) by (apply Z.pow_le_mono_r; lia). lia. }
  destruct (cube_exists n O N) as (y&Fy&Y&Y3).
  destruct (cube_search_spec n y Fy (Z.to_nat n) 0) as (Fx&X); [lia|].
  set (x := cube_search (Z.to_nat n) n 0) in *. clearbody x.
  change (2 ^ 18) with 262144 in N.
  destruct (big_bytes_spec x) as (Vs&Ts); [lia|]. set (s := big_bytes x) in *.
  unfold cube_fits in Fx. assert (X3 : x ^ 3 <= y ^ 3) by (apply Z.pow_le_mono_l; lia).
  assert (Pw : value s ^ 3 mod n = x ^ 3 - n).
  { rewrite Vs. symmetry. apply (Z.mod_unique_pos _ _ 1); lia. }
  assert (Ls : len s <= (bits + 7) / 8).
  { destruct (size_bits _ _ S) as (L1&_&S2). destruct s as [|b0 s'] eqn:Es; [unfold len; cbn; lia|].
    pose proof (trimmed_size b0 s' Ts) as TS. rewrite Vs in TS. unfold len. cbn [List.length].
    assert (~ (bits + 7) / 8 <= Z.of_nat (List.length s')); [|lia].
    intros H. apply (Z.pow_le_mono_r 256) in H; lia. }
  destruct (C62_verify i pr n 3 bits s S) as (A&_); [lia|]. rewrite Pw in A.
  apply (proj2 A). rewrite Vs. lia.
Qed.
Print Assumptions C62_forged.

(** A key pair with the exponent 3 *)
Example C62_forged_pair : rsa_pair 1032247 171703 3 /\ Z.odd 1032247 = true /\ bit_size 1032247 20.
Proof.
  split; [|split].
  - exists 1019, 1013. split; [apply (prime_check_sqrt 100); [lia|reflexivity]|]. split; [apply (prime_check_sqrt 100); [lia|reflexivity]|].
    split; [lia|]. split; [reflexivity|]. split; [lia|]. split; [lia|]. split; [exists 506; reflexivity|exists 509; reflexivity].
  - reflexivity.
  - split; [lia|]. change (2 ^ (20 - 1)) with 524288. change (2 ^ 20) with 1048576. lia.
Qed.

(** A key that knows the factors of its modulus signs nothing. *)
Theorem C62_crt : forall g n e d p q dP dQ qInv pad inp off k s,
  sign_with g (Crt n e d p q dP dQ qInv) pad inp off k <> Some (Ok s).
Proof.
  intros g n e d p q dP dQ qInv pad inp off k s. unfold sign_with, set_pad_bits. destruct (7 <? pad); [discriminate|].
  unfold iso_process, iso_init, new_encoding, engine_init. cbn [i_enc i_pad i_bits i_modulus i_engine modulus_of].
  unfold encode_block. cbn [i_bits i_pad i_engine]. destruct (fill _ _ _ _ _ _ _) as [[b| |]|]; cbn [option_map omap obind]; try discriminate.
  destruct (spread _ _ _ b) as [b2| |]; cbn [obind omap]; try discriminate.
  destruct (force _ _ _ b2) as [(b3&o)| |]; cbn [obind omap]; try discriminate.
  destruct (C61_crt n e d p q dP dQ qInv true None b3 o (len b3 - o)) as (X&_). unfold engine_init in X. rewrite X. discriminate.
Qed.
Print Assumptions C62_crt.

(** ** Instances *)
(** A key pair of 26 bits: two bytes can be signed. *)
Example C62_pair : rsa_pair 66994189 2029631 11 /\ bit_size 66994189 26 /\ signs 26 /\ recovers 26 /\ iso_bytes 26 = 2.
Proof.
  split; [|split; [|split; [|split]]].
  - exists 8191, 8179. split; [apply (prime_check_sqrt 100); [lia|reflexivity]|]. split; [apply (prime_check_sqrt 100); [lia|reflexivity]|].
    split; [lia|]. split; [reflexivity|]. split; [lia|]. split; [lia|]. split; [exists 2726; reflexivity|exists 2730; reflexivity].
  - split; [lia|]. change (2 ^ (26 - 1)) with 33554432. change (2 ^ 26) with 67108864. lia.
  - unfold signs. change (26 mod 16) with 10. lia.
  - unfold recovers. change (26 mod 16) with 10. lia.
  - reflexivity.
Qed.

(** Two bytes come back as they are; a single byte comes back twice. *)
Example C62_witness : forall g i, let priv := Plain true 66994189 2029631 in let pub := Plain false 66994189 11 in
  (exists s, sign_with g priv 0 ["001"; "002"]%byte 0 2 = Some (Ok s) /\ recover_with i pub s = Some (Ok (["001"; "002"]%byte, 0))) /\
  (exists s, sign_with g priv 4 ["007"]%byte 0 1 = Some (Ok s) /\ recover_with i pub s = Some (Ok (["007"; "007"]%byte, 0))).
Proof.
  intros g i. cbv zeta. destruct C62_pair as (R&S&Sg&Rc&T). split.
  - destruct (C62_recover g i true false 66994189 2029631 11 26 0 [] ["001"; "002"]%byte [] R S) as (s&r&E&V&G&_);
      [lia|exact Sg|lia|discriminate|rewrite T; unfold len; cbn [List.length]; lia|].
    exists s. split; [exact E|]. rewrite V, (G Rc). reflexivity.
  - destruct (C62_recover g i true false 66994189 2029631 11 26 4 [] ["007"]%byte [] R S) as (s&r&E&V&G&_);
      [lia|exact Sg|lia|discriminate|rewrite T; unfold len; cbn [List.length]; lia|].
    exists s. split; [exact E|]. rewrite V, (G Rc). reflexivity.
Qed.

(** A message that was signed is not always what is recovered. *)
Theorem C62_same_message_refuted : ~ (forall g i pr pr' n d e bits pad m s, rsa_pair n d e -> bit_size n bits ->
  0 <= pad <= 7 -> sign_with g (Plain pr n d) pad m 0 (len m) = Some (Ok s) ->
  recover_with i (Plain pr' n e) s = Some (Ok (m, pad))).
Proof.
  intros H. destruct C62_pair as (R&S&_). destruct (C62_witness None (new_encoding None)) as (_&(s&E&V)).
  specialize (H None (new_encoding None) true false 66994189 2029631 11 26 4 ["007"]%byte s R S ltac:(lia) E).
  rewrite V in H. clear E V. discriminate H.
Qed.
Print Assumptions C62_same_message_refuted.
