(** * Theorems: accounts, user and bank parameter data, PIN and TAN parameters *)
From Verif Require Import Base BaseFacts Lexer_Model Lexer_Spec Lexer_Proofs Lexer_Facts
  Codec_Model Codec_Spec Codec_Proofs Codec_Props Wire_Model Wire_Spec Wire_Proofs Wire_Facts Wire_Facts2 Wire_Facts3
  Message_Model Message_Spec Message_Proofs Message_Facts Message_Facts2 Message_Facts3
  Dialog_Model Seg_Model Seg_Spec Seg_Facts Seg_Facts2 Seg_Facts3 Seg_Facts4 Seg_Facts5 Seg_Props.
From Coq Require Import Lia ZifyBool ZifyNat ZifyN.
Open Scope Z_scope.
Ltac Zify.zify_post_hook ::= Z.div_mod_to_equations.

(** ** C53 Accounts of the user parameter data *)
Section Accounts.
  Context {F : Type} (parse_float : bytes -> option F) (neg : F -> F).
  (** What the reader of segment [id] in version [v] makes of [s], as the dialog sees it. *)
  Definition read_as (id : bytes) (v : Z) (s : bytes) : outcome (oseg (account_information F)) :=
    match others parse_float neg id v with Some f => f s | None => Err end.

  (** From version 5 on the currency may be absent. *)
  Theorem C53_account_delivered : forall pos v ref a,
    header_ok pos ref -> 4 <= v <= 7 -> account_ok a -> (v = 4 -> ad_currency a <> []) -> len (account_segment pos v ref a) < 2 ^ 61 ->
    read_as (B "HIUPD") v (account_segment pos v ref a) =
      Ok (OAccount (Ok (account_value (if v <=? 5 then ad_jobs a else firstn 1 (ad_jobs a)) a))).
  Proof.
    intros pos v ref a Hh Hv Ha Hcur Hl. unfold read_as, others.
    change (bytes_eqb (B "HIUPD") (B "HIUPD")) with true.
    change (bytes_eqb (B "HIUPD") (B "HISYN")) with false. change (bytes_eqb (B "HIUPD") (B "HITANS")) with false.
    change (bytes_eqb (B "HIUPD") (B "HIBPA")) with false. change (bytes_eqb (B "HIUPD") (B "HIPINS")) with false.
    change (bytes_eqb (B "HIUPD") (B "HIUPA")) with false. cbv iota.
    destruct ((4 <=? v) && (v <=? 7)) eqn:E; [|lia]. rewrite hiupd_read by assumption. cbn [obind]. do 2 f_equal.
    unfold account_of, hiupd_value, account_value. cbn [hu_version hu_connection hu_user hu_currency hu_name1 hu_name2 hu_product hu_transactions].
    rewrite !or_empty_text. destruct (v =? 4) eqn:E4; cbn [deref obind or_empty].
    - destruct (ad_currency a) as [|c0 cs] eqn:Ec; [destruct (Hcur ltac:(lia)); reflexivity|]. cbn [nonempty option_map deref obind].
      destruct (v <=? 5); [destruct (ad_jobs a); reflexivity|destruct (firstn 1 (ad_jobs a)); reflexivity].
    - destruct (v <=? 5); [destruct (ad_jobs a); reflexivity|destruct (firstn 1 (ad_jobs a)); reflexivity].
  Qed.
  (** An account limit crashes the reader, whatever else the segment contains. *)
  (** In version 4 an account without a currency crashes the dialog when it is looked at. *)
  Theorem C53_no_currency_refuted : forall pos ref a, header_ok pos ref -> account_ok a -> ad_currency a = [] ->
    len (account_segment pos 4 ref a) < 2 ^ 61 -> read_as (B "HIUPD") 4 (account_segment pos 4 ref a) = Ok (OAccount Panic).
  Proof.
    intros pos ref a Hh Ha Hcur Hl. unfold read_as.
    change (others parse_float neg (B "HIUPD") 4) with
      (Some (fun s => do h <- unmarshal_hiupd parse_float 4 s; Ok (OAccount (account_of h)))). cbv beta iota.
    rewrite hiupd_read by (assumption || lia). cbn [obind]. unfold account_of, hiupd_value.
    cbn [hu_version hu_connection hu_user hu_currency]. rewrite Hcur. reflexivity.
  Qed.
  (** Balances and statements of every version the client reads are kept as they came. *)
  Theorem C51_balances_kept : forall value, reads_decimals parse_float value -> forall pos v ref b,
    5 <= v <= 8 -> header_ok pos ref -> balances_ok v b -> len (balances_segment pos v ref b) < 2 ^ 61 ->
    read_as (B "HISAL") v (balances_segment pos v ref b) = Ok (OSeg (balances_segment pos v ref b)).
  Proof.
    intros value Hf pos v ref b Hv Hh Hb Hl. unfold read_as.
    assert (E : v = 5 \/ v = 6 \/ v = 7 \/ v = 8) by lia.
    assert (G : others parse_float neg (B "HISAL") v = Some (fun s => do _ <- unmarshal_hisal parse_float neg v s; Ok (OSeg s)))
      by (destruct E as [->|[->|[->| ->]]]; reflexivity).
    rewrite G, (hisal_read parse_float neg value Hf pos v ref b Hv Hh Hb Hl). reflexivity.
  Qed.
  Theorem C52_booked_kept : forall pos v ref booked pending,
    header_ok pos ref -> 5 <= v <= 7 -> Z.of_nat (List.length booked) <= 2 ^ 48 ->
    opt_ok (fun d => Z.of_nat (List.length d) <= 2 ^ 48) pending ->
    len (transactions_segment pos v ref booked pending) < 2 ^ 61 ->
    read_as (B "HIKAZ") v (transactions_segment pos v ref booked pending) = Ok (OSeg (transactions_segment pos v ref booked pending)).
  Proof.
    intros pos v ref booked pending Hh Hv Hb Hp Hl. unfold read_as.
    assert (E : v = 5 \/ v = 6 \/ v = 7) by lia.
    assert (G : others parse_float neg (B "HIKAZ") v = Some (fun s => do _ <- unmarshal_hikaz s; Ok (OSeg s)))
      by (destruct E as [->|[->| ->]]; reflexivity).
    rewrite G. pose proof (C52_booked_delivered pos v ref booked pending Hh ltac:(lia) Hb Hp Hl) as D. unfold booked_in in D.
    destruct (unmarshal_hikaz _); [reflexivity|discriminate|discriminate].
  Qed.
  Theorem C53_account_limit_refuted : forall pos v ref a kind am jobs,
    header_ok pos ref -> 4 <= v <= 7 -> account_ok a -> Forall item_ok (limit_group kind am) -> Forall (Forall item_ok) jobs ->
    len (limited_account_segment pos v ref a (limit_group kind am) jobs) < 2 ^ 61 ->
    read_as (B "HIUPD") v (limited_account_segment pos v ref a (limit_group kind am) jobs) = Panic.
  Proof.
    intros pos v ref a kind am jobs Hh Hv Ha Hi Hj Hl. unfold read_as, others.
    change (bytes_eqb (B "HIUPD") (B "HIUPD")) with true.
    change (bytes_eqb (B "HIUPD") (B "HISYN")) with false. change (bytes_eqb (B "HIUPD") (B "HITANS")) with false.
    change (bytes_eqb (B "HIUPD") (B "HIBPA")) with false. change (bytes_eqb (B "HIUPD") (B "HIPINS")) with false.
    change (bytes_eqb (B "HIUPD") (B "HIUPA")) with false. cbv iota.
    destruct ((4 <=? v) && (v <=? 7)) eqn:E; [|lia].
    rewrite (hiupd_limit parse_float pos v ref a _ (TMoney (bm_units am) (bm_decimals am))); try assumption; [reflexivity| |exact I].
    right. now left.
  Qed.
  (** A job with a limit amount makes the whole account unreadable, after any jobs without. *)
  Theorem C53_job_limit_refuted : forall pos v ref a before id n kind am jobs,
    header_ok pos ref -> 4 <= v <= 5 -> account_ok a -> Forall job_ok before ->
    group_ok (limited_job id n kind am) -> bm_currency am <> [] -> Forall job_ok jobs ->
    len (limited_account_segment pos v ref a [] (map job_group before ++ limited_job id n kind am :: map job_group jobs)) < 2 ^ 61 ->
    read_as (B "HIUPD") v
      (limited_account_segment pos v ref a [] (map job_group before ++ limited_job id n kind am :: map job_group jobs)) = Err.
  Proof.
    intros pos v ref a before id n kind am jobs Hh Hv Ha Hb Hk Hc Hj Hl. unfold read_as, others.
    change (bytes_eqb (B "HIUPD") (B "HIUPD")) with true.
    change (bytes_eqb (B "HIUPD") (B "HISYN")) with false. change (bytes_eqb (B "HIUPD") (B "HITANS")) with false.
    change (bytes_eqb (B "HIUPD") (B "HIBPA")) with false. change (bytes_eqb (B "HIUPD") (B "HIPINS")) with false.
    change (bytes_eqb (B "HIUPD") (B "HIUPA")) with false. cbv iota.
    destruct ((4 <=? v) && (v <=? 7)) eqn:E; [|lia].
    assert (Hi : Forall (Forall item_ok) (map job_group before ++ limited_job id n kind am :: map job_group jobs)).
    { apply Forall_app. split.
      - apply Forall_forall. intros g Hg. apply in_map_iff in Hg. destruct Hg as (j&<-&Hj'). rewrite Forall_forall in Hb. destruct (Hb j Hj') as [[K _] _]. exact K.
      - constructor; [apply Hk|]. apply Forall_forall. intros g Hg. apply in_map_iff in Hg. destruct Hg as (j&<-&Hj'). rewrite Forall_forall in Hj. destruct (Hj j Hj') as [[K _] _]. exact K. }
    rewrite hiupd_general; try assumption; [|lia|constructor]. destruct (v <=? 5) eqn:E5; [|lia].
    set (js := map job_group before ++ limited_job id n kind am :: map job_group jobs) in *.
    assert (S : forall g, In g js -> len (group_wire g) < 2 ^ 61).
    { intros g Hg. rewrite limited_eq in Hl. apply (element_small g _ _ _ _ _ (in_or_app _ _ _ (or_intror Hg))) in Hl. exact Hl. }
    unfold wire_elements. rewrite field_strip. set (es := header_bytes (B "HIUPD") pos v ref :: map group_wire (limited_fixed v a [] ++ js)).
    assert (Hlim : field (limit_at v) unmarshal_limit es = Ok None).
    { unfold field. assert (N : nth_error es (limit_at v) = Some (group_wire [])).
      { unfold es. rewrite limit_pos. cbn [nth_error]. rewrite map_app, nth_error_app1 by (rewrite map_length, fixed_len; rewrite (limit_pos v); lia).
        apply map_nth_error. apply fixed_last. }
      unfold nonempty_nth. rewrite N. reflexivity. }
    rewrite Hlim. cbn [obind].
    assert (Ne : Forall (fun w => w <> []) (map group_wire js)).
    { unfold js. rewrite map_app. apply Forall_app. split; [now apply jobs_wire_ne|]. cbn [map]. constructor; [|now apply jobs_wire_ne].
      apply (group_wire_ne _ (TNumber n)); [right; now left|exact I]. }
    assert (Np : Forall (fun w => ~ In b_plus w) (map group_wire js)).
    { apply Forall_forall. intros w Hw. apply in_map_iff in Hw. destruct Hw as (g&<-&Hg). apply group_no_plus.
      unfold js in Hg. apply in_app_iff in Hg. cbn [In] in Hg. rewrite !in_map_iff in Hg. rewrite Forall_forall in Hb, Hj.
      destruct Hg as [(j&<-&K)|[<-|(j&<-&K)]]; [apply Hb, K|exact Hk|apply Hj, K]. }
    assert (R : unmarshal_alloweds parse_float (join [b_plus] (map group_wire js)) = Err).
    { unfold unmarshal_alloweds. rewrite split_on_join; [| |exact Np].
      - assert (Sb : forall g, In g js -> len (group_wire g) < 2 ^ 61) by exact S. unfold js in *. clear - Hb Hk Hc Sb Hj.
        induction before as [|j before IH]; cbn [map app] in *.
        + cbn [map all_ok]. rewrite limited_job_read; [reflexivity|assumption..|apply Sb; now left].
        + inversion Hb; subst. cbn [map all_ok]. destruct (reads_job parse_float j) as [_ ->]; [assumption|apply Sb; now left|]. cbn [obind].
          rewrite IH; [reflexivity|assumption|]. intros g Hg. apply Sb. now right.
      - unfold js. destruct before; discriminate. }
    assert (Q : last_field (Datatypes.S (limit_at v)) (unmarshal_alloweds parse_float) (strip es) = Err).
    { unfold last_field. rewrite strip_nonempty_nth. unfold es.
      set (fx := header_bytes (B "HIUPD") pos v ref :: map group_wire (limited_fixed v a [])).
      assert (Le : List.length fx = Datatypes.S (limit_at v)) by (unfold fx; cbn [List.length]; now rewrite map_length, fixed_len).
      assert (Ee : header_bytes (B "HIUPD") pos v ref :: map group_wire (limited_fixed v a [] ++ js) = fx ++ map group_wire js) by (unfold fx; now rewrite map_app).
      rewrite Ee. rewrite <- Le. unfold nonempty_nth. rewrite nth_error_app2, Nat.sub_diag by lia.
      assert (Hs : strip (fx ++ map group_wire js) = fx ++ map group_wire js).
      { apply strip_id. assert (Hne : map group_wire js <> []) by (unfold js; destruct before; discriminate).
        destruct (exists_last Hne) as (q&y&Eq). rewrite Eq in *. rewrite app_assoc, last_last.
        apply Forall_app in Ne. destruct Ne as [_ Ne]. inversion Ne; subst. assumption. }
      rewrite Hs, skipn_app, skipn_all, Nat.sub_diag. cbn [app skipn]. rewrite R.
      destruct (map group_wire js) as [|w r] eqn:Em; [unfold js in Em; destruct before; discriminate|].
      cbn [nth_error]. inversion Ne; subst. destruct w; [congruence|reflexivity]. }
    rewrite Q. reflexivity.
  Qed.
End Accounts.
Print Assumptions C53_account_delivered.
Print Assumptions C53_no_currency_refuted.
Print Assumptions C51_balances_kept.
Print Assumptions C52_booked_kept.
Print Assumptions C53_account_limit_refuted.
Print Assumptions C53_job_limit_refuted.
Definition sample_account : account_data :=
  mkAD (mkNat (B "532013000") [] 280 (B "37040044")) (B "DE89370400440532013000") (B "user?1") (Some 1) (B "EUR")
       (B "Muster + Sohn") [] (B "Giro") [mkJob (B "HKSAL") 1 None; mkJob (B "HKKAZ") 2 (Some (B "Z"))].
Lemma sample_account_ok : account_ok sample_account.
Proof.
  unfold account_ok, sample_account. cbn [ad_account ad_iban ad_user ad_type ad_currency ad_name1 ad_name2 ad_product ad_jobs opt_ok].
  split. { split; [prove_items|]. split; [discriminate|]. split; [prove_no_syntax|]. split; prove_no_syntax. }
  split; [prove_item|]. split; [prove_item|]. split; [discriminate|]. split; [lia|]. split; [prove_item|].
  split; [prove_item|]. split; [discriminate|]. split; [prove_item|]. split; [prove_item|].
  apply Forall_cons; [|apply Forall_cons; [|apply Forall_nil]]; (split; [split; [prove_items|prove_groupable]|]); [exact I|discriminate].
Qed.
(** The same account in version 5 and in version 6: the second job is gone in version 6. *)
Example C53_witness :
  header_ok 7 (Some 4) /\ account_ok sample_account /\
  account_segment 7 5 (Some 4) sample_account =
    B "HIUPD:7:5:4+532013000::280:37040044+user??1+1+EUR+Muster ?+ Sohn++Giro++HKSAL:1+HKKAZ:2:Z'" /\
  read_as sample_float sample_neg (B "HIUPD") 5 (account_segment 7 5 (Some 4) sample_account) =
    Ok (OAccount (Ok (mkAI (mkAC (B "532013000") [] 280 (B "37040044")) (B "user?1") (B "EUR") (B "Muster + Sohn") [] (B "Giro")
      [mkBT (B "HKSAL") 1 None; mkBT (B "HKKAZ") 2 (Some (mkLimit (B "Z") None 0))]))) /\
  read_as sample_float sample_neg (B "HIUPD") 6 (account_segment 7 6 (Some 4) sample_account) =
    Ok (OAccount (Ok (mkAI (mkAC (B "532013000") [] 280 (B "37040044")) (B "user?1") (B "EUR") (B "Muster + Sohn") [] (B "Giro")
      [mkBT (B "HKSAL") 1 None]))).
Proof. split; [unfold header_ok; lia|]. split; [exact sample_account_ok|]. split; [|split]; vm_compute; reflexivity. Qed.
(** An account limit and a job limit with an amount. *)
Example C53_limit_witness :
  group_ok (limited_job (B "HKUEB") 1 (B "E") (mkBankAmount 1000 [] (B "EUR"))) /\
  read_as sample_float sample_neg (B "HIUPD") 5 (B "HIUPD:7:5:4+532013000::280:37040044+u+1+EUR+M++Giro+Z:1000,:EUR'") = Panic /\
  read_as sample_float sample_neg (B "HIUPD") 5 (B "HIUPD:7:5:4+532013000::280:37040044+u+1+EUR+M++Giro++HKSAL:1+HKUEB:1:E:1000,:EUR'") = Err.
Proof. split; [split; [prove_items|prove_groupable]|]. split; vm_compute; reflexivity. Qed.

(** ** C54 Synchronisation, user and bank parameter data *)
Ltac pick_reader := unfold read_as, others;
  repeat match goal with |- context [bytes_eqb (B ?a) (B ?b)] =>
    let r := eval vm_compute in (bytes_eqb (B a) (B b)) in change (bytes_eqb (B a) (B b)) with r end; cbv iota.
Section Data.
  Context {F : Type} (parse_float : bytes -> option F) (neg : F -> F).
  (** The client system ID is what the bank sent; without one the caller crashes. *)
  Theorem C54_system_id_delivered : forall pos v ref sys msg sg,
    header_ok pos ref -> 3 <= v <= 4 -> item_ok (TText sys) -> opt_ok number_ok msg -> opt_ok number_ok sg ->
    len (sync_segment pos v ref sys msg sg) < 2 ^ 61 ->
    read_as parse_float neg (B "HISYN") v (sync_segment pos v ref sys msg sg) =
      Ok (OSync (match sys with [] => Panic | _ => Ok (utf8 sys) end)).
  Proof.
    intros pos v ref sys msg sg Hh Hv H1 H2 H3 Hl. pick_reader.
    destruct ((v =? 3) || (v =? 4)) eqn:E; [|lia]. rewrite hisyn_read by (lia || assumption).
    cbn [obind hy_system]. destruct sys; reflexivity.
  Qed.
  (** User and version arrive in the dialog; the user's name only in version 4. *)
  Theorem C54_user_delivered : forall pos v ref u,
    header_ok pos ref -> 2 <= v <= 4 -> user_ok u -> len (user_segment pos v ref u) < 2 ^ 61 ->
    read_as parse_float neg (B "HIUPA") v (user_segment pos v ref u) =
      Ok (OUpd (Ok (mkUpd (utf8 (ui_user u)) (ui_version u)))) /\
    (do h <- unmarshal_hiupa v (user_segment pos v ref u); user_data_of h) =
      Ok (mkUD (utf8 (ui_user u)) (ui_version u) (ui_usage u)
               (if v =? 4 then utf8 (ui_name u) else []) (if v =? 4 then utf8 (ui_extensions u) else [])).
  Proof.
    intros pos v ref u Hh Hv Hu Hl. pick_reader.
    destruct ((2 <=? v) && (v <=? 4)) eqn:E; [|lia]. rewrite hiupa_read by assumption. cbn [obind].
    unfold user_data_of. cbn [ha_user ha_upd ha_usage ha_version ha_name ha_extensions deref obind].
    destruct (v =? 4) eqn:E4; cbn [omap ud_user ud_version]; (split; [reflexivity|]); [|reflexivity].
    destruct (v =? 2) eqn:E2; [lia|]. now rewrite !or_empty_text.
  Qed.
  Theorem C54_bank_delivered : forall pos v ref b,
    header_ok pos ref -> 2 <= v <= 3 -> bank_ok b -> len (bank_segment pos v ref b) < 2 ^ 61 ->
    read_as parse_float neg (B "HIBPA") v (bank_segment pos v ref b) = Ok (OBpd (Ok (bi_version b))) /\
    (do h <- unmarshal_hibpa v (bank_segment pos v ref b); bank_data_of h) =
      Ok (mkBD (bi_version b) (mkBank (bi_country b) (utf8 (bi_code b))) (utf8 (bi_name b)) (bi_jobs b)
               (match bi_size b with Some n => n | None => 0 end)
               (match bi_min b with Some n => if v =? 2 then 0 else n | None => 0 end)
               (match bi_max b with Some n => if v =? 2 then 0 else n | None => 0 end)).
  Proof.
    intros pos v ref b Hh Hv Hb Hl. pick_reader.
    destruct ((v =? 2) || (v =? 3)) eqn:E; [|lia]. rewrite hibpa_read by assumption. cbn [obind].
    unfold bank_data_of, bank_val. cbn [hb_version hb_bank hb_name hb_count hb_size hb_min hb_max deref obind fst snd].
    destruct (v =? 2), (bi_size b), (bi_min b), (bi_max b); split; reflexivity.
  Qed.
End Data.
Print Assumptions C54_system_id_delivered.
Print Assumptions C54_user_delivered.
Print Assumptions C54_bank_delivered.
Definition sample_user : user_info := mkUI (B "10+01") 12 1 (B "Erika: Muster") [].
Definition sample_bank : bank_info := mkBI 11 280 (B "37040044") (B "Bank 'X'") 3 [1; 2] [220; 300] (Some 500) None (Some 300).
Example C54_witness :
  header_ok 5 (Some 4) /\ user_ok sample_user /\ bank_ok sample_bank /\
  user_segment 5 4 (Some 4) sample_user = B "HIUPA:5:4:4+10?+01+12+1+Erika?: Muster'" /\
  bank_segment 5 3 (Some 4) sample_bank = B "HIBPA:5:3:4+11+280:37040044+Bank ?'X?'+3+1:2+220:300+500++300'" /\
  (do h <- unmarshal_hiupa 4 (user_segment 5 4 (Some 4) sample_user); user_data_of h) =
    Ok (mkUD (B "10+01") 12 1 (B "Erika: Muster") []) /\
  (do h <- unmarshal_hiupa 3 (user_segment 5 3 (Some 4) sample_user); user_data_of h) = Ok (mkUD (B "10+01") 12 1 [] []) /\
  read_as sample_float sample_neg (B "HISYN") 4 (sync_segment 5 4 (Some 3) (B "sys:1") None (Some 3)) = Ok (OSync (Ok (B "sys:1"))).
Proof.
  split; [unfold header_ok; lia|].
  split. { unfold user_ok, sample_user. cbn [ui_user ui_version ui_usage ui_name ui_extensions].
    split; [prove_item|]. split; [discriminate|]. unfold number_ok. split; [lia|]. split; [lia|]. split; prove_item. }
  split. { unfold bank_ok, sample_bank, number_ok. cbn [bi_version bi_country bi_code bi_name bi_jobs bi_languages bi_protocols bi_size bi_min bi_max opt_ok List.length].
    split; [lia|]. split; [lia|]. split; [prove_item|]. split; [discriminate|]. split; [prove_no_syntax|]. split; [prove_item|].
    split; [discriminate|]. split; [lia|]. split; [repeat constructor; lia|]. split; [lia|]. split; [repeat constructor; lia|]. split; [lia|].
    split; [lia|]. split; [exact I|lia]. }
  split; [vm_compute; reflexivity|]. split; [vm_compute; reflexivity|]. split; [vm_compute; reflexivity|].
  split; [vm_compute; reflexivity|]. vm_compute; reflexivity.
Qed.
(** A version 3 message loses the user's name, and a missing mandatory field crashes the caller. *)
Theorem C54_name_refuted : exists u d, user_ok u /\ ui_name u <> [] /\
  (do h <- unmarshal_hiupa 3 (user_segment 5 3 (Some 4) u); user_data_of h) = Ok d /\ ud_name d = [].
Proof.
  exists sample_user. eexists. split; [apply C54_witness|]. split; [discriminate|]. split; [vm_compute; reflexivity|reflexivity].
Qed.
Print Assumptions C54_name_refuted.
Example C54_missing_refuted :
  read_as sample_float sample_neg (B "HIUPA") 4 (B "HIUPA:5:4:4+1001+12'") = Ok (OUpd Panic) /\
  read_as sample_float sample_neg (B "HIBPA") 3 (B "HIBPA:5:3:4+11+280:37040044+Bank'") = Ok (OBpd Panic) /\
  read_as sample_float sample_neg (B "HIBPA") 3 (B "HIBPA:5:3:4+11+280:37040044+Bank+3+4+300'") = Err.
Proof. split; [|split]; vm_compute; reflexivity. Qed.

(** ** C55 Which jobs need a TAN, and the TAN processes *)
Section Tans.
  Context {F : Type} (parse_float : bytes -> option F) (neg : F -> F).
  (** The jobs arrive in order, each with its own flag. *)
  Theorem C55_jobs_delivered : forall pos ref jobs sigs class p,
    header_ok pos ref -> number_ok jobs -> number_ok sigs -> number_ok class -> pin_ok p ->
    len (pin_segment pos ref jobs sigs class p) < 2 ^ 61 ->
    read_as parse_float neg (B "HIPINS") 1 (pin_segment pos ref jobs sigs class p) = Ok (OPins (Ok tt)) /\
    (do h <- unmarshal_hipins (pin_segment pos ref jobs sigs class p); pin_transactions_of h) = Ok (pairs_value (pi_jobs p)).
  Proof.
    intros pos ref jobs sigs class p Hh H1 H2 H3 H4 Hl. pick_reader. change (1 =? 1) with true. cbv beta iota. rewrite hipins_read by assumption. split; reflexivity.
  Qed.
  Theorem C55_old_jobs_delivered : forall pos ref jobs sigs l,
    header_ok pos ref -> number_ok jobs -> number_ok sigs -> l <> [] -> group_ok (flat_map pair_items l) ->
    Forall (fun x => no_syntax (fst x)) l -> len (pin2_segment pos ref jobs sigs l) < 2 ^ 61 ->
    unmarshal_dipins (pin2_segment pos ref jobs sigs l) = Ok (pairs_value l).
  Proof. exact dipins_read. Qed.
  (** Every TAN process arrives, its texts as they are on the wire. *)
  Theorem C55_processes_delivered : forall pos ref jobs sigs class one more hash l,
    header_ok pos ref -> number_ok jobs -> number_ok sigs -> item_ok (TText class) -> tan_ok hash one more l ->
    len (tan_segment pos ref jobs sigs class one more hash l) < 2 ^ 61 ->
    read_as parse_float neg (B "HITANS") 6 (tan_segment pos ref jobs sigs class one more hash l) =
      Ok (OTans (Ok (map (fun t => escaped (ti_function t)) l))) /\
    (do h <- unmarshal_hitans (tan_segment pos ref jobs sigs class one more hash l); deref (ht_params h)) =
      Ok (mkTanP one more (utf8 hash) (map (tan_value escaped) l)).
  Proof.
    intros pos ref jobs sigs class one more hash l Hh H1 H2 H3 H4 Hl. pick_reader. change (6 =? 6) with true. cbv beta iota. rewrite hitans_read by assumption.
    cbn [obind]. unfold tan_functions_of. cbn [ht_params ta_processes deref obind]. split; [|reflexivity].
    rewrite map_map. reflexivity.
  Qed.
  (** The security functions are the bank's when they have no syntax characters, as the
      three digits of the standard. *)
  Theorem C55_functions_delivered : forall pos ref jobs sigs class one more hash l,
    header_ok pos ref -> number_ok jobs -> number_ok sigs -> item_ok (TText class) -> tan_ok hash one more l ->
    Forall (fun t => forallb is_digit (ti_function t) = true) l ->
    len (tan_segment pos ref jobs sigs class one more hash l) < 2 ^ 61 ->
    read_as parse_float neg (B "HITANS") 6 (tan_segment pos ref jobs sigs class one more hash l) =
      Ok (OTans (Ok (map ti_function l))).
  Proof.
    intros pos ref jobs sigs class one more hash l Hh H1 H2 H3 H4 H5 Hl.
    rewrite (proj1 (C55_processes_delivered pos ref jobs sigs class one more hash l Hh H1 H2 H3 H4 Hl)).
    do 3 f_equal. apply map_ext_in. intros t Ht. apply no_syntax_escaped. rewrite Forall_forall in H5. specialize (H5 t Ht).
    rewrite forallb_forall in H5. intros c K Hc. specialize (H5 c Hc).
    cbn in K. repeat (destruct K as [<-|K]; [discriminate|]). exact K.
  Qed.
End Tans.
Print Assumptions C55_jobs_delivered.
Print Assumptions C55_old_jobs_delivered.
Print Assumptions C55_processes_delivered.
Print Assumptions C55_functions_delivered.
Definition sample_pins : pin_info := mkPI 5 20 6 (B "VR-NetKey") [] [(B "HKSAL", false); (B "HKUEB", true)].
Definition sample_tan (f name : bytes) : tan_info :=
  mkTI f (B "2") (B "iTAN") [] [] name 6 (B "1") (B "TAN") 256 true (B "1") false (B "0") (B "0") false true (B "00") (B "0") false 5.
Definition sample_tans : list tan_info := [sample_tan (B "942") (B "mobile TAN"); sample_tan (B "944") (B "Secure: Go")].
Example C55_witness :
  header_ok 9 (Some 4) /\ pin_ok sample_pins /\ tan_ok [] true false sample_tans /\
  Forall (fun t => forallb is_digit (ti_function t) = true) sample_tans /\
  pin_segment 9 (Some 4) 1 1 0 sample_pins = B "HIPINS:9:1:4+1+1+0+5:20:6:VR-NetKey::HKSAL:N:HKUEB:J'" /\
  tan_segment 9 (Some 4) 1 1 (B "1") true false [] sample_tans =
    B "HITANS:9:6:4+1+1+1+J:N::942:2:iTAN:::mobile TAN:6:1:TAN:256:J:1:N:0:0:N:J:00:0:N:5:944:2:iTAN:::Secure?: Go:6:1:TAN:256:J:1:N:0:0:N:J:00:0:N:5'" /\
  read_as sample_float sample_neg (B "HITANS") 6 (tan_segment 9 (Some 4) 1 1 (B "1") true false [] sample_tans) =
    Ok (OTans (Ok [B "942"; B "944"])).
Proof.
  split; [unfold header_ok; lia|].
  split. { split; [split; [prove_items|prove_groupable]|]. split; [discriminate|]. repeat (apply Forall_cons; [prove_no_syntax|]). apply Forall_nil. }
  split. { split; [split; [prove_items|prove_groupable]|]. split; [discriminate|]. prove_no_syntax. }
  split; [repeat constructor|]. split; [vm_compute; reflexivity|]. split; vm_compute; reflexivity.
Qed.
(** The name of a process keeps its release characters. *)
Theorem C55_name_refuted : exists l ps, tan_ok [] true false l /\
  (do h <- unmarshal_hitans (tan_segment 9 (Some 4) 1 1 (B "1") true false [] l); do p <- deref (ht_params h); Ok (ta_processes p)) = Ok ps /\
  map tp_name ps <> map ti_name l.
Proof.
  exists sample_tans. eexists. split; [apply C55_witness|]. split; [vm_compute; reflexivity|]. vm_compute. discriminate.
Qed.
Print Assumptions C55_name_refuted.
(** No jobs are refused; too few elements, and no processes without a hash, crash the reader;
    and an absent last number makes the processes unreadable. *)
Example C55_short_refuted :
  read_as sample_float sample_neg (B "HIPINS") 1 (B "HIPINS:9:1:4+1+1+0+5:20:6:VR-NetKey:x'") = Err /\
  read_as sample_float sample_neg (B "HITANS") 6 (B "HITANS:9:6:4+1+1+1+J:N'") = Panic /\
  read_as sample_float sample_neg (B "HITANS") 6 (B "HITANS:9:6:4+1+1+1+J:N:0'") = Err /\
  read_as sample_float sample_neg (B "HITANS") 6
    (B "HITANS:9:6:4+1+1+1+J:N:0:942:2:iTAN:::mobile TAN:6:1:TAN:256:J:1:N:0:0:N:J:00:0:N'") = Err.
Proof. split; [|split; [|split]]; vm_compute; reflexivity. Qed.
