(** * C66: messages signed with RSA keys, and dialogs for card readers *)
From Coq Require Import Lia ZifyBool ZifyNat ZifyN Znumtheory Zpow_facts.
From Verif Require Import Base BaseFacts Lexer_Model Codec_Model Codec_Spec Wire_Model Wire_Spec Message_Model Dialog_Model Client_Model
  Seg_Model Seg_Spec Request_Model Request_Spec Crypto_Model Crypto_Spec Crypto_Facts Rsa_Facts Key_Model Key_Spec Key_Facts Key_Facts2
  Key_Witness Key_Props Crc_Facts.
Open Scope Z_scope.
Ltac Zify.zify_post_hook ::= Z.div_mod_to_equations.

(** ** Signatures *)
Section Signing.
  (** RIPEMD-160 *)
  Variable hash : bytes -> bytes.
  Hypothesis hash_size : forall t, size (hash t) = 20.

  (** A key with a modulus of 31 bytes or more signs every complete message, and no incomplete one. *)
  Theorem C66_signs : forall s st at_ k pr p a system fn reference id m, private_pair pr k -> 31 <= k ->
    p = mkRdh (RsaKey (generated_key pr) (Some a)) system fn reference id ->
    (complete m -> exists m', rdh_sign_message hash s st at_ p m = Ok m') /\
    (~ complete m -> rdh_sign_message hash s st at_ p m = Panic).
  Proof.
    intros s st at_ k pr p a system fn reference id m P K ->. split; intros C.
    - eapply sign_ok; [|reflexivity|exact C]. intros x. unfold rdh_sign. cbn [rp_key].
      destruct (C65_signature_accepted pr k (Some a) (hash x) P) as (A&_). destruct A as (sg&E&_); [rewrite hash_size; lia|]. eauto.
    - eapply sign_incomplete; [reflexivity|exact C].
  Qed.

  (** The signature in a signed message is the one for String() of the signature header and the
      signed segments, and that is never what is sent for them.  So a bank that checks it against
      the bytes it received accepts it exactly if these two different texts have one hash. *)
  Theorem C66_signature_refuted : forall s st at_ k pr p a system fn reference id m m', private_pair pr k -> 31 <= k ->
    p = mkRdh (RsaKey (generated_key pr) (Some a)) system fn reference id ->
    rdh_sign_message hash s st at_ p m = Ok m' ->
    exists signature, signature_in m' signature /\
      (forall t, accepts (pr_modulus pr) (pr_public pr) k (hash t) signature <-> hash t = hash (strings_of m')) /\
      forall w, covered m' w -> w <> strings_of m'.
  Proof.
    intros s st at_ k pr p a system fn reference id m m' P K -> H.
    destruct (sign_shape hash s st at_ _ m m' H) as (name&sb&sg&Hn&Hb&Eb&Hs&Hi&_). exists sg. split; [exact Hi|]. split.
    - intros t. unfold rdh_sign in Hs. cbn [rp_key] in Hs.
      destruct (C65_signature_accepted pr k (Some a) (hash (strings_of m')) P) as (A&_).
      destruct A as (sg'&E&A); [rewrite hash_size; lia|]. rewrite Hs in E. injection E as <-.
      apply A. rewrite hash_size. lia.
    - intros w. apply (covered_differs m' sb); [exact Hb| |]; subst sb; unfold sig_header; destruct (st_version st =? 300); reflexivity.
  Qed.
End Signing.
Print Assumptions C66_signs.
Print Assumptions C66_signature_refuted.

(** ** The signature header *)
(** Its bytes: in version 300 the security profile is PIN although it is an RSA signature; the
    control reference is the one of the key's name when the provider was made, whatever number and
    version the key was given since, while the name in the header is the current one. *)
Theorem C66_header : forall s pub a id p, new_rdh_provider s pub (Some a) id = Ok p ->
  exists reference, hex_word reference /\
  forall hash l s' k system fn st at_ m m', name_run l s = Ok s' -> s' a = key_for k ->
    bank_code_ok k -> clean_text system -> real_moment at_ ->
    rdh_sign_message hash s' st at_ (rdh_set_function (utf8 fn) (rdh_set_system (utf8 system) p)) m = Ok m' ->
    exists sb, m_sigbegin m' = Some sb /\
      marshal_seg sb = Ok (part_wire 2 (rsa_signature_header (st_version st) k system fn reference id at_)).
Proof.
  intros s pub a id p Hp. unfold new_rdh_provider in Hp. cbn [key_name_of name_pointer obind] in Hp. injection Hp as <-.
  exists (key_reference (s a)). split; [apply key_reference_word|].
  intros hash l s' k system fn st at_ m m' _ Ha Hk Hs Ht H. unfold rdh_set_function, rdh_set_system in H. cbn [rp_key rp_reference rp_id rp_system rp_fn] in H.
  destruct (sign_shape hash s' st at_ _ m m' H) as (name&sb&sg&Hn&Hb&Eb&_&_&_). exists sb. split; [exact Hb|].
  cbn [rp_key key_name_of name_pointer] in Hn. injection Hn as <-. rewrite Eb, Ha.
  apply rsa_header_marshal; auto. apply key_reference_word.
Qed.
Print Assumptions C66_header.

(** The control reference does not tell keys apart: where the bank code ends and the user begins
    makes no difference to it. *)
Theorem C66_reference_refuted : forall country a b c type_ number version pub id p p' at_1 at_2,
  let s := store at_1 (mkKN (mkBank country (a ++ b)) c type_ number version)
             (store at_2 (mkKN (mkBank country a) (b ++ c) type_ number version) (fun _ => pin_tan_key_name (mkBank 0 []) [] [])) in
  at_1 <> at_2 -> new_rdh_provider s pub (Some at_1) id = Ok p -> new_rdh_provider s pub (Some at_2) id = Ok p' -> rp_reference p = rp_reference p'.
Proof.
  intros country a b c type_ number version pub id p p' at_1 at_2 s N H H'. unfold new_rdh_provider in *. cbn [key_name_of name_pointer obind] in *.
  injection H as <-. injection H' as <-. cbn [rp_reference]. unfold s, store. rewrite !Nat.eqb_refl.
  replace (Nat.eqb at_2 at_1) with false by (symmetry; apply Nat.eqb_neq; congruence). unfold key_reference. cbn [kn_bank kn_user kn_type kn_number kn_version bank_country bank_code].
  now rewrite <- !app_assoc.
Qed.
Print Assumptions C66_reference_refuted.

(** Names that differ in at most four neighbouring characters of country, bank code, user, type,
    number and version written one after the other get different references. *)
Definition name_text (k : key_name) : bytes :=
  itoa (bank_country (kn_bank k)) ++ bank_code (kn_bank k) ++ kn_user k ++ kn_type k ++ itoa (kn_number k) ++ itoa (kn_version k).
Theorem C66_reference_differs : forall s pub pub' a a' id id' p p' before x y after,
  new_rdh_provider s pub (Some a) id = Ok p -> new_rdh_provider s pub' (Some a') id' = Ok p' ->
  name_text (s a) = before ++ x ++ after -> name_text (s a') = before ++ y ++ after ->
  List.length x = List.length y -> (List.length x <= 4)%nat -> x <> y -> rp_reference p <> rp_reference p'.
Proof.
  intros s pub pub' a a' id id' p p' before x y after H H' E E' L S D. unfold new_rdh_provider in *. cbn [key_name_of name_pointer obind] in *.
  injection H as <-. injection H' as <-. cbn [rp_reference]. unfold key_reference. fold (name_text (s a)). fold (name_text (s a')). rewrite E, E'. now apply hex_crc_differs.
Qed.
Print Assumptions C66_reference_differs.
Example C66_reference_differs_example :
  let k v := mkKN (mkBank 280 (B "12345678")) (B "user") (B "S") 1 v in
  name_text (k 1) = B "28012345678userS1" ++ B "1" ++ [] /\ name_text (k 2) = B "28012345678userS1" ++ B "2" ++ [].
Proof. split; reflexivity. Qed.

(** ** Dialogs for card readers *)
(** NewRDHDialog makes a dialog unless generating its key fails, which panics. *)
Theorem C66_new_dialog : forall generated bank user name s,
  (forall k, generated = Ok k -> exists s' d, new_rdh_dialog generated bank user name s = Ok (s', d) /\
     s' name = mkKN bank user (B "S") 999 999 /\ rd_system d = B "0" /\ rd_dialog d = B "0" /\ rd_count d = 0 /\
     rp_key (rd_provider d) = RsaKey (generated_key k) (Some name) /\ rp_id (rd_provider d) = 12345) /\
  (~ (exists k, generated = Ok k) -> new_rdh_dialog generated bank user name s = Panic).
Proof.
  intros generated bank user name s. split.
  - intros k ->. unfold new_rdh_dialog, new_rdh_provider. cbn [key_name_of name_pointer obind]. do 2 eexists. split; [reflexivity|].
    unfold store. rewrite Nat.eqb_refl. destruct bank. repeat split; reflexivity.
  - intros N. destruct generated as [k| |]; [destruct N; eauto|reflexivity|reflexivity].
Qed.
Print Assumptions C66_new_dialog.

(** Then every call panics, however many there are and whatever they were before, and nothing is
    ever sent. *)
Theorem C66_dialog_refuted : forall hash, (forall t, size (hash t) = 20) ->
  forall k size_ bank user name s s' d, private_pair k size_ -> 31 <= size_ ->
  new_rdh_dialog (Ok k) bank user name s = Ok (s', d) ->
  forall text l, rdh_run (fun d => do _ <- rdh_sign hash (rd_provider d) (text d); Ok tt) l d = (repeat Panic (List.length l), []).
Proof.
  intros hash Hh k sz bank user name s s' d P K H text l. unfold new_rdh_dialog, new_rdh_provider in H. cbn [key_name_of name_pointer obind] in H.
  injection H as _ <-. set (signs := fun d => do _ <- rdh_sign hash (rd_provider d) (text d); Ok tt).
  match goal with |- rdh_run signs l ?d0 = _ => assert (G : rp_key (rd_provider d0) = RsaKey (generated_key k) (Some name)) by reflexivity; revert G; generalize d0 end.
  assert (S : forall d, rp_key (rd_provider d) = RsaKey (generated_key k) (Some name) -> signs d = Ok tt).
  { intros d E. unfold signs, rdh_sign. rewrite E. destruct (C65_signature_accepted k sz (Some name) (hash (text d)) P) as (A&_).
    destruct A as (sg&->&_); [rewrite Hh; lia|]. reflexivity. }
  clearbody signs. induction l as [|c l IH]; intros d E; [reflexivity|]. cbn [rdh_run List.length repeat].
  assert (St : exists d', rdh_step signs c d = (d', Panic, []) /\ rp_key (rd_provider d') = RsaKey (generated_key k) (Some name)).
  { destruct c; cbn [rdh_step]; unfold rdh_init, rdh_sync, sign_and_encrypt, counted_up; try (eexists; split; [reflexivity|exact E]).
    - destruct (bytes_eqb (rd_system d) (B "0")); rewrite S by exact E; eexists; (split; [reflexivity|exact E]).
    - rewrite S by exact E. eexists. split; [reflexivity|exact E].
    - destruct (bytes_eqb (rd_system d) (B "0")); rewrite S by exact E; eexists; (split; [reflexivity|exact E]). }
  destruct St as (d'&->&E'). rewrite (IH d' E'). reflexivity.
Qed.
Print Assumptions C66_dialog_refuted.

(** ** Examples *)
Definition ex_hash : bytes -> bytes := fun t => firstn 20 (t ++ repeat x00 20).
Lemma ex_hash_size t : size (ex_hash t) = 20.
Proof. unfold size, ex_hash. rewrite firstn_length, app_length, repeat_length. lia. Qed.
Definition ex_names : names := fun _ => initial_key_name 280 (B "12345678") (B "user") (B "S").
Definition ex_settings : settings := mkSettings 300 (mkBank 280 (B "12345678")) (B "user") (B "p") (B "1").
Definition ex_moment : date * tod := (mkDate 2024 3 31, mkTod 10 20 30).
Definition ex_message : message :=
  new_message (new_msg_header 0 300 (B "0") 1) (mkME 0 (Some 1)) [Ptr 0] (fun _ => mkSeg (B "HKIDN") 0 2 None [number_de 7; None]).
Definition ex_reference : bytes := B "bb51e4c3".
Example C66_reference : key_reference (ex_names 0%nat) = ex_reference.
Proof. reflexivity. Qed.
Definition ex_provider : rdh_provider := mkRdh (RsaKey (generated_key ex_key) (Some 0%nat)) (B "0") (B "1") ex_reference 12345.
Example C66_provider : exists p, new_rdh_provider ex_names (generated_key ex_key) (Some 0%nat) 12345 = Ok p /\ rdh_set_system (B "0") p = ex_provider.
Proof.
  unfold new_rdh_provider. cbn [key_name_of name_pointer obind]. eexists. split; [reflexivity|]. unfold rdh_set_system, ex_provider.
  cbn [rp_key rp_fn rp_reference rp_id]. now rewrite C66_reference.
Qed.
(** Its signature header, body and signature end *)
Definition ex_head : seg :=
  mkSeg (B "HNSHK") 2 4 None [profile_de (B "1"); text_de (B "1"); text_de ex_reference; text_de (B "1"); text_de (B "1"); security_id_de (B "0"); number_de 12345;
    security_date_de ex_moment; hash_de; sig_algorithm_de; name_de (initial_key_name 280 (B "12345678") (B "user") (B "S")); None].
Definition ex_job (n : Z) : seg := mkSeg (B "HKIDN") n 2 None [number_de 7; None].
Definition ex_end (sg : bytes) : seg := mkSeg (B "HNSHA") 4 2 None [text_de ex_reference; Some (DE (EBinary sg)); None].
Lemma ex_signing : forall hash pub m',
  rdh_sign_message hash ex_names ex_settings ex_moment (mkRdh (RsaKey pub (Some 0%nat)) (B "0") (B "1") ex_reference 12345) ex_message = Ok m' ->
  exists sg, m_sigbegin m' = Some ex_head /\ m_sigend m' = Some (ex_end sg) /\ m_body m' = Some [Ptr 0] /\ m_heap m' 0%nat = ex_job 3.
Proof.
  intros hash pub m' E. unfold rdh_sign_message in E. cbn [key_name_of ex_provider rp_key name_pointer obind] in E. unfold sign in E. cbn [ex_message new_message m_body] in E.
  unfold set_positions in E. cbn [new_message m_body m_header m_end m_sigbegin m_sigend m_heap m_cache position_body obind] in E.
  apply Message_Proofs.obind_ok in E as (m2&E2&E). injection E2 as <-. apply Message_Proofs.obind_ok in E as (sg&_&E). injection E as <-. exists sg. cbn [m_body m_sigbegin m_sigend m_heap option_map].
  split; [reflexivity|]. split; [reflexivity|]. split; reflexivity.
Qed.
Example C66_witness : exists m', rdh_sign_message ex_hash ex_names ex_settings ex_moment ex_provider ex_message = Ok m' /\
  strings_of m' = B "HNSHK:2:4:+PIN:2+1+bb51e4c3+1+1+1::0+12345+1:20240331:102030+1:999:1:+6:10:16+280:12345678:user:S:999:999+'HKIDN:3:2:+7+'" /\
  covered m' (B "HNSHK:2:4+PIN:2+1+bb51e4c3+1+1+1::0+12345+1:20240331:102030+1:999:1+6:10:16+280:12345678:user:S:999:999'HKIDN:3:2+7'").
Proof.
  destruct (C66_signs ex_hash ex_hash_size ex_names ex_settings ex_moment 32 ex_key ex_provider 0%nat (B "0") (B "1") ex_reference 12345 ex_message C65_pair ltac:(lia) eq_refl) as (A&_).
  destruct A as (m'&E).
  { split; [discriminate|]. split; [discriminate|]. exists [Ptr 0]. split; [reflexivity|]. intros [I|[]]. discriminate. }
  exists m'. split; [exact E|]. destruct (ex_signing _ _ m' E) as (sg&H1&H2&H3&H4). split.
  - unfold strings_of. rewrite H1, H3. cbn [map List.concat]. rewrite H4. reflexivity.
  - destruct (sig_end_marshals 4 2 ex_reference sg eq_refl) as (e&S).
    assert (M1 : marshal_seg ex_head = Ok (B "HNSHK:2:4+PIN:2+1+bb51e4c3+1+1+1::0+12345+1:20240331:102030+1:999:1+6:10:16+280:12345678:user:S:999:999'")) by reflexivity.
    assert (M2 : marshal_seg (ex_job 3) = Ok (B "HKIDN:3:2+7'")) by reflexivity.
    unfold covered, marshal_inner. rewrite H1, H2, H3. cbn [marshal_optseg marshal_body]. rewrite H4, M1, M2. cbn [obind].
    unfold ex_end. rewrite S. cbn [obind]. eexists. exists e. split; [reflexivity|]. split; [reflexivity|]. rewrite app_nil_r, app_assoc. reflexivity.
Qed.
Example C66_dialog_witness : exists s' d, new_rdh_dialog (Ok ex_key) (mkBank 280 (B "12345678")) (B "user") 0 ex_names = Ok (s', d) /\
  forall text, rdh_run (fun d => do _ <- rdh_sign ex_hash (rd_provider d) (text d); Ok tt) [RSync; RSetSystem (B "7"); RSend; RAnonymous] d =
    ([Panic; Panic; Panic; Panic], []).
Proof.
  destruct (C66_new_dialog (Ok ex_key) (mkBank 280 (B "12345678")) (B "user") 0 ex_names) as (A&_).
  destruct (A ex_key eq_refl) as (s'&d&E&_). exists s', d. split; [exact E|]. intros text.
  exact (C66_dialog_refuted ex_hash ex_hash_size ex_key 32 _ _ _ _ s' d C65_pair ltac:(lia) E text [RSync; RSetSystem (B "7"); RSend; RAnonymous]).
Qed.
