(** * C65: keys and key management *)
From Coq Require Import Lia ZifyBool ZifyNat ZifyN Znumtheory Zpow_facts.
From Verif Require Import Base BaseFacts Lexer_Model Codec_Model Codec_Spec Wire_Model Wire_Spec Message_Model Seg_Model Seg_Spec
  Request_Model Request_Spec Read_Spec Crypto_Model Crypto_Spec Crypto_Facts Rsa_Facts Key_Model Key_Spec Key_Facts Key_Facts2 Key_Witness.
Open Scope Z_scope.
Ltac Zify.zify_post_hook ::= Z.div_mod_to_equations.

(** ** Key names *)

(** After any calls on any keys the name of a key has the bank, user and type it had, and the
    number and version that were set last, through whichever key that shares the name; with
    a key without a name among them the calls panic, and so does asking for its name. *)
Theorem C65_names : forall l s,
  (Forall named l -> exists s', name_run l s = Ok s' /\ forall k a, name_pointer k = Some a ->
     key_name_of s' k = Ok (mkKN (kn_bank (s a)) (kn_user (s a)) (kn_type (s a))
                             (last_number a (kn_number (s a)) (rev l)) (last_version a (kn_version (s a)) (rev l)))) /\
  (Exists (fun c => ~ named c) l -> name_run l s = Panic) /\
  (forall k, name_pointer k = None -> key_name_of s k = Panic).
Proof.
  intros l s. split; [|split].
  - intros F. destruct (name_run_spec l s F) as (s'&R&H). exists s'. split; [exact R|]. intros k a E.
    unfold key_name_of. now rewrite E, H.
  - apply name_run_panics.
  - intros k E. unfold key_name_of. now rewrite E.
Qed.
Print Assumptions C65_names.

(** Whether a name is an initial one: 999 for both; so are new ones, and so is every name after
    SetInitial; those of PIN keys have 0 for both. *)
Theorem C65_initial : forall k, (is_initial k = true <-> kn_number k = 999 /\ kn_version k = 999) /\
  is_initial (set_initial k) = true /\
  (forall country bank user type_, is_initial (initial_key_name country bank user type_) = true) /\
  (forall bank user type_, is_initial (pin_tan_key_name bank user type_) = false /\
     pin_tan_key_name bank user type_ = mkKN bank user type_ 0 0).
Proof. intros k. unfold is_initial. split; [lia|]. repeat split; reflexivity. Qed.
Print Assumptions C65_initial.

(** ** PIN keys *)
(** The signature is the PIN whatever is signed; encrypting and decrypting change nothing. *)
Theorem C65_pin_key : forall pin name random m,
  key_sign (PinKey pin name) m = Ok pin /\ key_encrypt random (PinKey pin name) m = Ok m /\ pin_decrypt m = Ok m /\
  can_sign (PinKey pin name) = true /\ can_encrypt (PinKey pin name) = true.
Proof. intros. repeat split. Qed.
Print Assumptions C65_pin_key.

(** ** RSA keys *)
(** The bank that knows the public half accepts the signature of every message that is at least
    eleven bytes shorter than the modulus, for this message and for no other one; longer messages
    are refused. *)
Theorem C65_signature_accepted : forall p k name m, private_pair p k ->
  (size m + 11 <= k -> exists s, key_sign (RsaKey (generated_key p) name) m = Ok s /\
     forall m', size m' + 11 <= k -> (accepts (pr_modulus p) (pr_public p) k m' s <-> m' = m)) /\
  (k < size m + 11 -> key_sign (RsaKey (generated_key p) name) m = Err).
Proof.
  intros p k name m P. split; intros H.
  - destruct (pkcs1_sign_ok p k m P H) as (s&E&A). exists s. split; [exact E|]. intros m' H'. split.
    + intros A'. eapply accepts_unique; [| |exact A'|exact A]; lia.
    + now intros ->.
  - now apply (pkcs1_sign_long p k).
Qed.
Print Assumptions C65_signature_accepted.

(** Encrypting with a key made from the bytes of modulus and exponent. *)
Lemma encrypt_cases modulus exponent k name random m : byte_size (value modulus) k -> padding_source random ->
  let e := value exponent mod 2 ^ 64 in
  (usable e -> size m + 11 <= k -> random (Z.to_nat (k - size m - 3)) <> Err ->
     exists c padding, key_encrypt random (RsaKey (new_encryption_key modulus exponent) name) m = Ok c /\
       random (Z.to_nat (k - size m - 3)) = Ok padding /\ size c = k /\ value c = value (type_2 padding m) ^ e mod value modulus) /\
  (~ usable e \/ k < size m + 11 \/ random (Z.to_nat (k - size m - 3)) = Err ->
     key_encrypt random (RsaKey (new_encryption_key modulus exponent) name) m = Err).
Proof.
  intros B R e. cbn [key_encrypt public_key_encrypt new_encryption_key pk_encrypt].
  unfold public_key_encrypt. cbn [pk_encrypt]. rewrite !set_bytes_value.
  assert (U : usable e -> to_int64 (value exponent) = e).
  { intros U. unfold to_int64, usable in *. cbn zeta. fold e. now replace (e <? 2 ^ 63) with true by lia. }
  assert (NU : ~ usable e -> (to_int64 (value exponent) <? 2) || (2 ^ 31 - 1 <? to_int64 (value exponent)) = true).
  { intros N. unfold to_int64, usable in *. cbn zeta. fold e. pose proof (Z.mod_pos_bound (value exponent) (2 ^ 64) ltac:(lia)) as Rg. fold e in Rg.
    clearbody e. destruct (Z.ltb_spec e (2 ^ 63)); lia. }
  unfold pkcs1_encrypt. rewrite (sizes_agree _ _ B). cbn zeta.
  replace (k - len m - 3) with (k - size m - 3) by (unfold len, size; lia). split.
  - intros Ue H E. rewrite (U Ue). unfold usable in Ue. clear U NU. replace ((e <? 2) || (2 ^ 31 - 1 <? e)) with false by lia.
    replace (k - 11 <? len m) with false by (unfold len, size in *; lia).
    destruct (R (Z.to_nat (k - size m - 3))) as [R'|(ps&Ep&Lp&Np)]; [contradiction|]. rewrite Ep. cbn [obind].
    eexists. exists ps. split; [reflexivity|]. split; [reflexivity|]. rewrite set_bytes_value.
    change ([b_nul; bz 2] ++ ps ++ [b_nul] ++ m) with (type_2 ps m). destruct B as (K&B1&B2).
    assert (0 < 256 ^ (k - 1)) by (apply Z.pow_pos_nonneg; lia).
    pose proof (Z.mod_pos_bound (value (type_2 ps m) ^ e) (value modulus) ltac:(lia)).
    apply fill_bytes_spec; lia.
  - intros [N|[H|H]].
    + now rewrite (NU N).
    + destruct ((to_int64 (value exponent) <? 2) || (2 ^ 31 - 1 <? to_int64 (value exponent))); [reflexivity|].
      now replace (k - 11 <? len m) with true by (unfold len, size in *; lia).
    + destruct ((to_int64 (value exponent) <? 2) || (2 ^ 31 - 1 <? to_int64 (value exponent))); [reflexivity|].
      destruct (k - 11 <? len m); [reflexivity|]. rewrite H. reflexivity.
Qed.

(** The holder of the private half reads the message that was encrypted and no other one, for every
    padding; messages that are too long, exponents from 2^31 on or below 2, and a failing random
    source are errors. *)
Theorem C65_encryption_recovered : forall modulus exponent k d name random m,
  byte_size (value modulus) k -> padding_source random ->
  let e := value exponent in
  (usable e -> rsa_pair (value modulus) e d -> size m + 11 <= k -> random (Z.to_nat (k - size m - 3)) <> Err ->
     exists c, key_encrypt random (RsaKey (new_encryption_key modulus exponent) name) m = Ok c /\
       forall m', deciphers (value modulus) d k c m' <-> m' = m) /\
  (e < 2 ^ 64 -> ~ usable e \/ k < size m + 11 \/ random (Z.to_nat (k - size m - 3)) = Err ->
     key_encrypt random (RsaKey (new_encryption_key modulus exponent) name) m = Err).
Proof.
  intros modulus exponent k d name random m B R e. pose proof (value_range exponent) as Re. fold e in Re.
  destruct (encrypt_cases modulus exponent k name random m B R) as (C1&C2). fold e in C1, C2. split.
  - intros U P H E. assert (Em : e mod 2 ^ 64 = e) by (unfold usable in U; apply Z.mod_small; lia). rewrite Em in *.
    destruct (C1 U H E) as (c&ps&Ec&Ep&Sc&Vc). exists c. split; [exact Ec|].
    assert (D : deciphers (value modulus) d k c m).
    { destruct (R (Z.to_nat (k - size m - 3))) as [R'|(ps'&Ep'&Lp&Np)]; [contradiction|]. rewrite Ep in Ep'. injection Ep' as <-.
      pose proof (type_2_size k ps m) as S2. assert (Sp : size ps = k - size m - 3) by (unfold size in *; lia).
      destruct (type_2_first ps m) as (t&Et).
      assert (V : 0 <= value (type_2 ps m) < value modulus) by (rewrite Et; apply (zero_first k); [exact B|rewrite <- Et; apply S2; lia]).
      split; [exact Sc|]. exists ps, (type_2 ps m). split; [exact Np|]. split; [lia|]. split; [apply S2; lia|]. split; [reflexivity|].
      rewrite Vc. destruct P as (p&q&P&Q&N&En&He&Hd&Dp&Dq). rewrite En in *.
      rewrite (rsa_inverse p q e d) by assumption. now apply Z.mod_small. }
    intros m'. split; [intros D'; eapply deciphers_unique; eassumption|now intros ->].
  - intros L H. apply C2. rewrite Z.mod_small by lia. exact H.
Qed.
Print Assumptions C65_encryption_recovered.

(** Only the last eight bytes of an exponent count: what stands before them is ignored, and no
    error tells so. *)
Theorem C65_long_exponent_refuted : forall modulus front exponent name random m, size exponent = 8 ->
  key_encrypt random (RsaKey (new_encryption_key modulus (front ++ exponent)) name) m =
  key_encrypt random (RsaKey (new_encryption_key modulus exponent) name) m.
Proof.
  intros modulus front exponent name random m S. unfold new_encryption_key. rewrite !set_bytes_value, value_app.
  unfold size in S. rewrite S. unfold to_int64. change (256 ^ 8) with (2 ^ 64). rewrite Z.add_comm, Z_mod_plus_full. reflexivity.
Qed.
Print Assumptions C65_long_exponent_refuted.

(** What CanSign and CanEncrypt say: exactly the keys of which it is true can be asked to, the
    others panic for every message.  Generated keys sign and do not encrypt, keys made from a
    modulus encrypt and do not sign. *)
Theorem C65_capabilities : forall k random, padding_source random ->
  (can_sign k = true <-> forall m, key_sign k m <> Panic) /\ (can_sign k = false <-> forall m, key_sign k m = Panic) /\
  (can_encrypt k = true <-> forall m, key_encrypt random k m <> Panic) /\ (can_encrypt k = false <-> forall m, key_encrypt random k m = Panic) /\
  (forall p name, can_sign (RsaKey (generated_key p) name) = true /\ can_encrypt (RsaKey (generated_key p) name) = false) /\
  (forall modulus exponent name, can_sign (RsaKey (new_encryption_key modulus exponent) name) = false /\
     can_encrypt (RsaKey (new_encryption_key modulus exponent) name) = true).
Proof.
  intros k random R.
  assert (S : forall p m, pkcs1_sign p m <> Panic).
  { intros p m. unfold pkcs1_sign. cbn zeta. destruct (size_of (pr_modulus p) <? len m + 11); [discriminate|].
    destruct (pr_modulus p <? _); [discriminate|]. destruct (_ =? _); discriminate. }
  assert (E : forall p m, pkcs1_encrypt random p m <> Panic).
  { intros [n e] m. unfold pkcs1_encrypt. destruct (_ || _); [discriminate|]. cbn zeta. destruct (_ <? len m); [discriminate|].
    destruct (R (Z.to_nat (size_of n - len m - 3))) as [->|(ps&->&_)]; discriminate. }
  assert (G : forall b f, (b = true -> forall m : bytes, f m <> @Panic bytes) -> (b = false -> forall m, f m = Panic) ->
              (b = true <-> forall m, f m <> Panic) /\ (b = false <-> forall m, f m = Panic)).
  { intros b f T F. destruct b.
    - split; split; intros H; [now apply T|reflexivity|discriminate|]. destruct (T eq_refl []). apply H.
    - split; split; intros H; [discriminate| |now apply F|reflexivity]. destruct (H []). now apply F. }
  destruct (G (can_sign k) (key_sign k)) as (G1&G2).
  { destruct k as [pin a|pub a]; cbn [can_sign key_sign]; [discriminate|]. unfold public_key_sign. destruct (pk_sign pub); [intros _ m; apply S|discriminate]. }
  { destruct k as [pin a|pub a]; cbn [can_sign key_sign]; [discriminate|]. unfold public_key_sign. destruct (pk_sign pub); [discriminate|reflexivity]. }
  destruct (G (can_encrypt k) (key_encrypt random k)) as (G3&G4).
  { destruct k as [pin a|pub a]; cbn [can_encrypt key_encrypt]; [discriminate|]. unfold public_key_encrypt. destruct (pk_encrypt pub); [intros _ m; apply E|discriminate]. }
  { destruct k as [pin a|pub a]; cbn [can_encrypt key_encrypt]; [discriminate|]. unfold public_key_encrypt. destruct (pk_encrypt pub); [discriminate|reflexivity]. }
  repeat (split; [assumption|]). split; intros; split; reflexivity.
Qed.
Print Assumptions C65_capabilities.

(** ** Key management segments *)
Lemma bytes_eqb_eq a b : bytes_eqb a b = true <-> a = b.
Proof. destruct (bytes_eqb_spec a b); split; congruence. Qed.
(** The request for the bank's keys: exactly this segment, and a bank reads the key's name in it. *)
Theorem C65_key_request : forall n k, bank_code_ok k ->
  marshal_seg (key_request_seg n (key_for k)) = Ok (part_wire n (key_request k)) /\
  finds (part_wire n (key_request k)) [(n, key_request k)].
Proof. intros n k H. split; [now apply key_request_marshal|apply key_request_found]. Qed.
Print Assumptions C65_key_request.

(** A key can be written into a segment exactly if its exponent consists of the five characters
    65537: it is never so for keys that the library makes, whether generated, with the exponent
    65537, or made from a modulus. *)
Theorem C65_key_sent_refuted : forall number name,
  (forall p, pr_public p = generated_exponent -> renewal_seg number name (generated_key p) = Panic) /\
  (forall modulus exponent, renewal_seg number name (new_encryption_key modulus exponent) = Panic) /\
  (forall dialog reference asked p, pr_public p = generated_exponent ->
     key_answer_seg dialog number reference name (generated_key p) asked = Panic) /\
  (forall dialog reference asked modulus exponent,
     key_answer_seg dialog number reference name (new_encryption_key modulus exponent) asked = Panic).
Proof.
  intros number name.
  assert (G : forall p, pr_public p = generated_exponent -> public_key_de (generated_key p) = Panic).
  { intros p E. unfold public_key_de, generated_key. cbn [pk_exponent]. rewrite E. reflexivity. }
  assert (N : forall modulus exponent, public_key_de (new_encryption_key modulus exponent) = Panic) by reflexivity.
  unfold renewal_seg, key_answer_seg. split; [|split; [|split]].
  - intros p E. rewrite (G p E). now destruct (bytes_eqb (kn_type name) (B "B")).
  - intros modulus exponent. rewrite N. now destruct (bytes_eqb (kn_type name) (B "B")).
  - intros dialog reference asked p E. rewrite (G p E). now destruct (reference <=? 0).
  - intros dialog reference asked modulus exponent. rewrite N. now destruct (reference <=? 0).
Qed.
Print Assumptions C65_key_sent_refuted.

(** Renewing a key (HKSAK): String() of the segment, for the keys that can be written; any other
    key, and a name of type B, panics. *)
Theorem C65_renewal : forall number name k,
  (kn_type name <> B "B" -> pk_exponent k = B "65537" -> exists s, renewal_seg number name k = Ok s /\
     seg_string s = segment_string (B "HKSAK") number 2 [] [B "2"; B "112"; name_string name; public_string (pk_type k) (pk_modulus k); []]) /\
  (kn_type name = B "B" \/ pk_exponent k <> B "65537" -> renewal_seg number name k = Panic).
Proof.
  intros number name k. unfold renewal_seg, public_key_de. split.
  - intros T E. destruct (bytes_eqb (kn_type name) (B "B")) eqn:Tb; [apply bytes_eqb_eq in Tb; contradiction|].
    rewrite E. cbn [bytes_eqb obind]. rewrite (proj2 (bytes_eqb_eq (B "65537") (B "65537")) eq_refl). cbn [obind].
    eexists. split; [reflexivity|]. unfold seg_string, segment_string. cbn [sg_id sg_pos sg_version sg_ref sg_elems map].
    rewrite string_header by reflexivity. rewrite string_name. unfold public_string, text_de, with_colons.
    cbn [opt_string de_string map number_de]. rewrite !elem_text, !string_binary. reflexivity.
  - intros H. destruct (bytes_eqb (kn_type name) (B "B")) eqn:Tb; [reflexivity|].
    destruct (bytes_eqb (pk_exponent k) (B "65537")) eqn:Eb; [|reflexivity]. apply bytes_eqb_eq in Eb.
    destruct H as [H|H]; [|contradiction]. apply (proj2 (bytes_eqb_eq _ _)) in H. congruence.
Qed.
Print Assumptions C65_renewal.

(** Sending a key to the user (HIISA). *)
Theorem C65_key_answer : forall dialog number reference name k asked,
  (0 < reference -> pk_exponent k = B "65537" -> exists s, key_answer_seg dialog number reference name k asked = Ok s /\
     seg_string s = segment_string (B "HIISA") number 2 (itoa asked)
       [B "1"; escaped dialog; itoa reference; B "224"; name_string name; public_string (pk_type k) (pk_modulus k); []]) /\
  (reference <= 0 \/ pk_exponent k <> B "65537" -> key_answer_seg dialog number reference name k asked = Panic).
Proof.
  intros dialog number reference name k asked. unfold key_answer_seg, public_key_de. split.
  - intros T E. replace (reference <=? 0) with false by lia.
    rewrite E. cbn [bytes_eqb obind]. rewrite (proj2 (bytes_eqb_eq (B "65537") (B "65537")) eq_refl). cbn [obind].
    eexists. split; [reflexivity|]. unfold seg_string, segment_string. cbn [sg_id sg_pos sg_version sg_ref sg_elems map].
    rewrite string_header by reflexivity. rewrite string_name. unfold public_string, text_de, with_colons.
    cbn [opt_string de_string map number_de]. rewrite !elem_text, !string_binary. reflexivity.
  - intros H. destruct (Z.leb_spec reference 0); [reflexivity|].
    destruct (bytes_eqb (pk_exponent k) (B "65537")) eqn:Eb; [|reflexivity]. apply bytes_eqb_eq in Eb. destruct H; [lia|contradiction].
Qed.
Print Assumptions C65_key_answer.

(** Revoking a key (HKSSP) and the answer to it (HISSP): any text is taken for a reason, although
    only 1, 501 and 999 are defined. *)
Theorem C65_revocation : forall dialog number reference name reason at_ asked, real_moment at_ ->
  (exists s, revocation_seg number name reason at_ = Ok s /\
     seg_string s = segment_string (B "HKSSP") number 2 [] [B "2"; B "130"; name_string name; escaped reason; stamp_string at_; []]) /\
  (0 < reference -> exists s, revocation_answer_seg dialog number reference name reason at_ asked = Ok s /\
     seg_string s = segment_string (B "HISSP") number 2 (itoa asked)
       [B "1"; escaped dialog; itoa reference; B "231"; name_string name; escaped reason; stamp_string at_; []]) /\
  (reference <= 0 -> revocation_answer_seg dialog number reference name reason at_ asked = Panic).
Proof.
  intros dialog number reference name reason at_ asked Hm.
  assert (L : Nat.ltb (List.length revocation_reasons) (search_strings revocation_reasons reason) = false).
  { assert (G : forall l, (search_strings l reason <= List.length l)%nat).
    { induction l as [|y l IH]; cbn [search_strings List.length]; [lia|]. destruct (bytes_ltb y reason); lia. }
    specialize (G revocation_reasons). apply Nat.ltb_ge. exact G. }
  unfold revocation_seg, revocation_answer_seg. rewrite L. split; [|split].
  - eexists. split; [reflexivity|]. unfold seg_string, segment_string. cbn [sg_id sg_pos sg_version sg_ref sg_elems map].
    rewrite string_header by reflexivity. rewrite string_name, string_stamp by exact Hm. unfold text_de. cbn [opt_string de_string number_de]. now rewrite elem_text.
  - intros H. replace (reference <=? 0) with false by lia. eexists. split; [reflexivity|]. unfold seg_string, segment_string.
    cbn [sg_id sg_pos sg_version sg_ref sg_elems map].
    rewrite string_header by reflexivity. rewrite string_name, string_stamp by exact Hm. unfold text_de. cbn [opt_string de_string number_de]. now rewrite !elem_text.
  - intros H. now replace (reference <=? 0) with true by lia.
Qed.
Print Assumptions C65_revocation.

(** ** Examples *)
Definition ex_key : private_key := mkPriv (prime_1 * prime_2) 65537 869821618473749799957750286436666438674968926170445185025.
Example C65_pair : private_pair ex_key 32.
Proof.
  split.
  - exists prime_1, prime_2. split; [exact prime_1_prime|]. split; [exact prime_2_prime|]. unfold ex_key. cbn [pr_modulus pr_public pr_private].
    split; [unfold prime_1, prime_2; lia|]. split; [reflexivity|]. split; [lia|]. split; [lia|]. split.
    + exists 167524106305393291602153. unfold prime_1. lia.
    + exists 167524106305393292292347. unfold prime_2. lia.
  - unfold byte_size, ex_key, prime_1, prime_2. cbn [pr_modulus]. lia.
Qed.
(** Ten bytes are signed, and thirty are not. *)
Example C65_signed : (exists s, key_sign (RsaKey (generated_key ex_key) None) (B "0123456789") = Ok s /\
    accepts (prime_1 * prime_2) 65537 32 (B "0123456789") s) /\
  key_sign (RsaKey (generated_key ex_key) None) (B "012345678901234567890123456789") = Err.
Proof.
  destruct (C65_signature_accepted ex_key 32 None (B "0123456789") C65_pair) as (A&_).
  destruct A as (s&E&A); [unfold size; cbn; lia|]. split.
  - exists s. split; [exact E|]. apply (A (B "0123456789")); [unfold size; cbn; lia|reflexivity].
  - apply (C65_signature_accepted ex_key 32 None _ C65_pair). unfold size. cbn. lia.
Qed.
(** Its public half as a key for encrypting: modulus and exponent in bytes *)
Example C65_encrypted : exists modulus c, value modulus = prime_1 * prime_2 /\
  key_encrypt (fun n => Ok (repeat x07 n)) (RsaKey (new_encryption_key modulus [x01; x00; x01]) None) (B "secret") = Ok c /\
  deciphers (prime_1 * prime_2) (pr_private ex_key) 32 c (B "secret").
Proof.
  exists (big_bytes (prime_1 * prime_2)). destruct (big_bytes_spec (prime_1 * prime_2)) as (V&_); [unfold prime_1, prime_2; lia|].
  destruct (C65_encryption_recovered (big_bytes (prime_1 * prime_2)) [x01; x00; x01] 32 (pr_private ex_key) None (fun n => Ok (repeat x07 n)) (B "secret")) as (A&_).
  - rewrite V. apply C65_pair.
  - intros n. right. exists (repeat x07 n). split; [reflexivity|]. split; [apply repeat_length|]. intros I. apply repeat_spec in I. discriminate.
  - destruct A as (c&E&D).
    + unfold usable. cbn. lia.
    + rewrite V. apply C65_pair.
    + unfold size. cbn. lia.
    + discriminate.
    + exists c. split; [exact V|]. split; [exact E|]. rewrite V in D. now apply D.
Qed.
(** Two keys with one name *)
Example C65_shared : let k1 := PinKey (B "1234") (Some 0%nat) in let k2 := RsaKey (generated_key ex_key) (Some 0%nat) in
  exists s', name_run [CNumber k1 3; CInitial 0; CVersion k2 4] (fun _ => pin_tan_key_name (mkBank 280 (B "1")) (B "u") (B "S")) = Ok s' /\
    key_name_of s' k1 = Ok (mkKN (mkBank 280 (B "1")) (B "u") (B "S") 999 4).
Proof. cbn zeta. eexists. split; reflexivity. Qed.
Example C65_request_bytes : part_wire 3 (key_request (mkBankKey 280 (B "12345678") (B "us:er") (B "V") 999 999)) =
  B "HKISA:3:2+2+124+280:12345678:us?:er:V:999:999'".
Proof. reflexivity. Qed.
Example C65_revocation_string : exists s, revocation_seg 3 (initial_key_name 280 (B "12345678") (B "user") (B "S")) (B "7") (mkDate 2024 3 31, mkTod 10 20 30) = Ok s /\
  seg_string s = B "HKSSP:3:2:+2+130+280:12345678:user:S:999:999+7+1:20240331:102030+'".
Proof. eexists. split; reflexivity. Qed.
