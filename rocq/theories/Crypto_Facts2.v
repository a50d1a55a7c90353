(** * What the RSA engine computes *)
From Coq Require Import Lia ZifyBool ZifyNat ZifyN Znumtheory.
From Verif Require Import Base BaseFacts Crypto_Model Crypto_Spec Rsa_Facts Crypto_Facts.
Open Scope Z_scope.
Ltac Zify.zify_post_hook ::= Z.div_mod_to_equations.

Definition part (l : bytes) (off n : Z) : bytes := firstn (Z.to_nat n) (skipn (Z.to_nat off) l).

Lemma part_len l off n : 0 <= off -> 0 <= n -> off + n <= len l -> len (part l off n) = n.
Proof. unfold len, part. rewrite firstn_length, skipn_length. lia. Qed.
Lemma part_all l : part l 0 (len l) = l.
Proof. unfold part, len. rewrite Nat2Z.id. cbn [Z.to_nat skipn]. apply firstn_all. Qed.

Lemma convert_input_eq c L inp off n : byte_size (modulus_of (c_key c)) L ->
  convert_input c inp off n =
    (if L <? n then Panic
     else if (0 <=? off) && (0 <=? n) && (off + n <=? len inp)
     then if modulus_of (c_key c) <=? value (part inp off n) then Panic else Ok (value (part inp off n))
     else Panic).
Proof.
  intros S. pose proof (block_bytes _ _ S) as E. unfold convert_input, input_block_size. rewrite E.
  destruct (Z.ltb_spec L n) as [Big|Small].
  { destruct (c_enc c); cbn [negb]; repeat match goal with |- context [if ?b then _ else _] => destruct b eqn:?; try lia; try reflexivity end. }
  replace ((if c_enc c then L - 1 else L) + 1 <? n) with false by (destruct (c_enc c); lia).
  replace ((n =? (if c_enc c then L - 1 else L) + 1) && negb (c_enc c)) with false by (destruct (c_enc c); cbn [negb]; lia).
  destruct (negb (off =? 0) || negb (n =? len inp)) eqn:C.
  - destruct (Z.ltb_spec n 0) as [N|N].
    { replace (0 <=? n) with false by lia. rewrite Bool.andb_false_r. reflexivity. }
    destruct ((0 <=? off) && (0 <=? n) && (off + n <=? len inp)) eqn:R.
    + rewrite copy_part by lia. cbn [obind]. rewrite set_bytes_value. fold (part inp off n).
      pose proof (value_range (part inp off n)). rewrite Z.abs_eq by lia. reflexivity.
    + rewrite copy_panic by lia. reflexivity.
  - assert (off = 0) as -> by lia. assert (n = len inp) as -> by lia. rewrite part_all. cbn [obind].
    rewrite set_bytes_value. pose proof (value_range inp). rewrite Z.abs_eq by lia.
    replace ((0 <=? 0) && (0 <=? len inp) && (0 + len inp <=? len inp)) with true by (unfold len; lia). reflexivity.
Qed.

Lemma at_zero_trimmed b l : trimmed (b :: l) -> beq b b_nul = false.
Proof. cbn. intros T. rewrite beq_nul. destruct (Z.eqb_spec (zb b) 0) as [E|E]; [|reflexivity]. exfalso. apply T. now apply zb_eq. Qed.

Lemma convert_output_zero c : convert_output c 0 = Panic.
Proof. reflexivity. Qed.

Lemma convert_output_dec c y : c_enc c = false -> 0 < y -> convert_output c y = Ok (big_bytes y).
Proof.
  intros D Y. unfold convert_output. rewrite D. destruct (big_bytes_spec y ltac:(lia)) as (V&T).
  destruct (big_bytes y) as [|b l] eqn:E; [cbn in V; lia|].
  rewrite get_ok by (unfold len; cbn [List.length]; lia). cbn [obind]. unfold at'. cbn [Z.to_nat nth].
  now rewrite (at_zero_trimmed b l T).
Qed.

Lemma value_zeros k l : value (repeat b_nul k ++ l) = value l.
Proof. induction k as [|k IH]; [reflexivity|]. cbn [repeat app value]. rewrite IH. reflexivity. Qed.

Lemma convert_output_enc c y L : c_enc c = true -> byte_size (modulus_of (c_key c)) L -> 0 < y < modulus_of (c_key c) ->
  exists o, convert_output c y = Ok o /\ len o = L /\ value o = y.
Proof.
  intros D S Y. pose proof (block_bytes _ _ S) as E. unfold convert_output, output_block_size. rewrite D, E.
  destruct (big_bytes_spec y ltac:(lia)) as (V&T).
  destruct (big_bytes y) as [|b l] eqn:Eb; [cbn in V; lia|].
  rewrite get_ok by (unfold len; cbn [List.length]; lia). cbn [obind]. unfold at'. cbn [Z.to_nat nth].
  rewrite (at_zero_trimmed b l T). cbn [andb].
  pose proof (trimmed_size b l T) as Sz. rewrite V in Sz. destruct S as (L1&S1&S2).
  assert (Hl : len (b :: l) <= L).
  { unfold len. cbn [List.length]. assert (~ L <= Z.of_nat (List.length l)); [|lia].
    intros H. apply (Z.pow_le_mono_r 256) in H; lia. }
  destruct (Z.ltb_spec (len (b :: l)) L) as [C|C].
  - unfold array_copy.
    set (z := repeat b_nul (Z.to_nat L)). assert (Lz : len z = L) by (unfold len, z; rewrite repeat_length; lia).
    destruct (slice_ok z (L - len (b :: l)) (len z)) as (x&->&Lx&_&_); try (unfold len in *; lia).
    destruct (slice_ok (b :: l) 0 (0 + len (b :: l))) as (s&->&Ls&_&Es); try (unfold len; lia).
    cbn [obind]. rewrite Z.add_0_l, Z.sub_0_r in Es. cbn [Z.to_nat skipn] in Es. rewrite len_nat, firstn_all in Es. subst s.
    eexists. split; [reflexivity|].
    assert (Hx : List.length x = List.length (b :: l)) by (unfold len in *; lia).
    rewrite Hx, firstn_all, (skipn_all2 x), app_nil_r by lia.
    assert (Hz : firstn (Z.to_nat (L - len (b :: l))) z = repeat b_nul (Z.to_nat (L - len (b :: l)))).
    { unfold z. replace (Z.to_nat L) with (Z.to_nat (L - len (b :: l)) + Z.to_nat (len (b :: l)))%nat by (unfold len in *; lia).
      rewrite repeat_app, firstn_app, repeat_length. rewrite firstn_all2 by (rewrite repeat_length; lia).
      replace (_ - _)%nat with O by lia. cbn [firstn]. apply app_nil_r. }
    rewrite Hz. split; [|rewrite value_zeros; exact V].
    unfold len in *. rewrite app_length, repeat_length. lia.
  - eexists. split; [reflexivity|]. split; [lia|exact V].
Qed.

(** A plain key *)
Lemma engine_eq pr n e enc L inp off k : 0 < n -> byte_size n L ->
  engine_process (Some (mkCore (Plain pr n e) enc)) inp off k =
    (if (k <=? L) && ((0 <=? off) && (0 <=? k) && (off + k <=? len inp)) && (value (part inp off k) <? n)
     then convert_output (mkCore (Plain pr n e) enc) (value (part inp off k) ^ e mod n)
     else Panic).
Proof.
  intros N S. cbn [engine_process]. rewrite (convert_input_eq _ L) by exact S. cbn [c_key modulus_of core_process].
  destruct (Z.ltb_spec L k); destruct (Z.leb_spec k L); try lia; cbn [andb]; [reflexivity|].
  destruct ((0 <=? off) && (0 <=? k) && (off + k <=? len inp)); cbn [andb]; [|reflexivity].
  destruct (Z.leb_spec n (value (part inp off k))); destruct (Z.ltb_spec (value (part inp off k)) n); try lia; reflexivity.
Qed.
