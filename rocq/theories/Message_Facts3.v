From Verif Require Import Base BaseFacts Lexer_Model Lexer_Spec Lexer_Proofs Lexer_Facts
  Codec_Model Codec_Spec Codec_Proofs Wire_Model Wire_Spec Wire_Proofs Wire_Facts Wire_Facts2 Wire_Facts3 Wire_Props
  Message_Model Message_Spec Message_Proofs Message_Facts Message_Facts2.
From Coq Require Import Lia ZifyBool ZifyNat ZifyN.
Open Scope Z_scope.
Ltac Zify.zify_post_hook ::= Z.div_mod_to_equations.

(** ** Acknowledgement segments *)
Lemma unmarshal_code z : 0 <= z < 10000 -> unmarshal_int (itoa_pad 4 z) = Ok z.
Proof.
  intros H. unfold unmarshal_int. rewrite (to_utf8_ascii _ (itoa_pad_ascii 4 z)). apply atoi_itoa_pad. unfold in_int64, int64_min, int64_max. lia.
Qed.
Lemma ack_wires l : Forall plain_ack l -> exists bs,
  all_ok marshal_opt (map (fun a => Some (ack_group a)) l) = Ok bs /\
  Forall opt_safe (map (fun a => Some (ack_group a)) l) /\
  Forall (fun b => existsb special b = false /\ b <> []) bs /\
  ((forall b, In b bs -> len b < 2 ^ 61) -> forall formsg ref, all_ok (unmarshal_ack formsg ref) bs = Ok (map (delivered formsg ([], 0) ref) l)).
Proof.
  induction 1 as [|a l Ha _ (bs&H1&H2&H3&H4)]; [exists []; repeat split; constructor|].
  destruct (ack_wire a Ha) as (e&t&ps&Ee&Et&Eps&Hm&Hs&Hc&Hx).
  set (b := join [b_colon] (itoa_pad 4 (ba_code a) :: e :: t :: ps)) in *.
  exists (b :: bs). cbn [map all_ok]. change (marshal_opt (Some (ack_group a))) with (marshal_de (ack_group a)). rewrite Hm. cbn [obind].
  rewrite H1. split; [reflexivity|]. split; [constructor; assumption|]. split.
  - constructor; [|assumption]. split; [assumption|]. unfold b. rewrite join_cons. destruct (itoa_pad_last 4 (ba_code a)) as (p&d&->&_).
    destruct p; discriminate.
  - intros Hl formsg ref. cbn [all_ok]. unfold unmarshal_ack at 1.
    assert (Hg : group_extract b = Ok (itoa_pad 4 (ba_code a) :: e :: t :: ps)).
    { exact (group_extract_clean _ Hc ltac:(discriminate) Hx (Hl b ltac:(now left))). }
    rewrite Hg. cbn [obind].
    destruct Ha as (Hcode&_). rewrite (unmarshal_code _ Hcode). cbn [obind].
    rewrite H4 by (intros; apply Hl; now right). cbn [obind]. rewrite Ee, Et, Eps. reflexivity.
Qed.
Lemma strip_full (bs : list bytes) : Forall (fun b => b <> []) bs -> strip bs = bs.
Proof.
  induction 1 as [|b bs Hb _ IH]; [reflexivity|]. rewrite strip_cons by assumption. now rewrite IH.
Qed.
Lemma last_in {A} (l : list A) d : l <> [] -> In (last l d) l.
Proof. intros H. destruct (exists_last H) as [p [x ->]]. rewrite last_last. apply in_app_iff. right. now left. Qed.
Lemma no_special_plus bs : Forall (fun b => existsb special b = false) bs -> ~ ends_with b_plus (last_present bs).
Proof.
  intros H [p Hp]. unfold last_present in Hp. destruct (strip bs) as [|x s] eqn:E; [destruct p; discriminate|].
  assert (Hin : In (last (x :: s) []) bs).
  { destruct (strip_spec bs) as [k ->]. apply in_app_iff. left. rewrite E. apply last_in. discriminate. }
  rewrite Forall_forall in H. specialize (H _ Hin). rewrite Hp, existsb_app in H. cbn in H. now rewrite orb_true_r in H.
Qed.
Lemma header_special id pos ver ref : forallb alnum id = true -> existsb special (header_wire id pos ver ref) = false.
Proof.
  intros H. rewrite header_wire_join, special_join by reflexivity. rewrite existsb_app. cbn [existsb].
  rewrite (alnum_special _ H), !itoa_special. destruct ref; cbn [existsb]; [rewrite itoa_special|]; reflexivity.
Qed.
Definition ack_seg (id : bytes) (pos : Z) (ref : option Z) (l : list bank_ack) : seg :=
  mkSeg id pos 2 ref (map (fun a => Some (ack_group a)) l).
Lemma ack_seg_safe id pos ref l : forallb alnum id = true -> Forall plain_ack l -> safe_seg (ack_seg id pos ref l).
Proof.
  intros Hid Hl. destruct (ack_wires l Hl) as (bs&H1&H2&H3&_). split; [|split].
  - apply header_safe. now apply alnum_safe.
  - exact H2.
  - intros h bs' Hh Hb. cbn [ack_seg sg_elems] in Hb. rewrite H1 in Hb. assert (bs' = bs) by congruence. subst bs'.
    destruct (header_marshals _ _ Hh) as (i&Hi&->). cbn [sg_id ack_seg] in Hi. rewrite (alnum_marshal _ Hid) in Hi. injection Hi as <-.
    apply no_special_plus. constructor; [now apply header_special|]. eapply Forall_impl; [|exact H3]. now intros b [? _].
Qed.
Lemma len_join_in c (l : list bytes) b : In b l -> len b <= len (join [c] l).
Proof.
  induction l as [|x l IH]; [intros []|]. intros [->|H].
  - destruct l; [cbn; lia|]. rewrite join_cons, len_app. pose proof (len_nonneg (c :: join [c] (b0 :: l))). cbn [app] in *. autorewrite with len in *.
    pose proof (len_nonneg (join [c] (b0 :: l))). lia.
  - specialize (IH H). destruct l; [destruct H|]. rewrite join_cons. autorewrite with len. pose proof (len_nonneg x).
    pose proof (len_nonneg [c]). lia.
Qed.
Lemma position_in64 p : position_ok p -> in_int64 p = true.
Proof. unfold position_ok, in_int64, int64_min, int64_max. lia. Qed.
Lemma ref_in64 ref : ref_ok ref -> match ref with Some r => in_int64 r = true | None => True end.
Proof. destruct ref; [apply position_in64|trivial]. Qed.
Lemma ack_seg_read id pos ref l w : forallb alnum id = true -> Forall plain_ack l -> position_ok pos -> ref_ok ref ->
  marshal_seg (ack_seg id pos ref l) = Ok w -> len w < 2 ^ 61 ->
  sent w /\ extract_header w = Ok (mkSH id pos 2 ref) /\
  forall formsg, unmarshal_acks formsg w = Ok (map (delivered formsg ([], 0)
    (match ref with Some r => r | None => if formsg then 0 else -1 end)) l).
Proof.
  intros Hid Hl Hp Hr Hw Hlen. pose proof (ack_seg_safe id pos ref l Hid Hl) as Hs. split; [eapply safe_sent; eauto|].
  destruct (ack_wires l Hl) as (bs'&H1&_&H3&H4).
  destruct (seg_form _ w Hs Hw) as (i&bs&Hi&Hbs&Ew&Hx). cbn [ack_seg sg_id sg_pos sg_version sg_ref sg_elems] in *.
  rewrite H1 in Hbs. assert (bs' = bs) by congruence. subst bs'. rewrite (alnum_marshal _ Hid) in Hi. injection Hi as <-.
  rewrite (strip_full bs) in * by (eapply Forall_impl; [|exact H3]; now intros b [_ ?]). specialize (Hx ltac:(lia)).
  assert (Lw : forall b, In b (header_wire id pos 2 ref :: bs) -> len b < 2 ^ 61).
  { intros b Hb. pose proof (len_join_in b_plus _ _ Hb). rewrite Ew in Hlen. rewrite len_app in Hlen. pose proof (len_nonneg [b_quote]). lia. }
  assert (Hh : unmarshal_header (header_wire id pos 2 ref) = Ok (mkSH id pos 2 ref)).
  { apply unmarshal_header_wire.
    - now apply alnum_marshal.
    - now apply alnum_safe.
    - now apply alnum_special.
    - now apply position_in64.
    - reflexivity.
    - now apply ref_in64.
    - apply Lw. now left. }
  split; [unfold extract_header; rewrite Hx; exact Hh|]. intros formsg. unfold unmarshal_acks. rewrite Hx. cbn [obind]. rewrite Hh. cbn [obind].
  rewrite H4 by (intros b Hb; apply Lw; now right). f_equal. f_equal. f_equal. unfold referencing_segment. cbn [sh_ref].
  destruct ref as [r|]; [|destruct formsg; reflexivity]. cbn in Hr. unfold position_ok in Hr.
  replace (r =? -1) with false by lia. now rewrite andb_false_r.
Qed.

(** ** What a response delivers *)
Section R.
  Context {P : Type} (others : bytes -> Z -> option (bytes -> outcome P)).
  Lemma all_ok_Forall2 {A C} (f : A -> outcome C) l cs : all_ok f l = Ok cs <-> Forall2 (fun x c => f x = Ok c) l cs.
  Proof.
    revert cs. induction l as [|x l IH]; intros cs; cbn [all_ok].
    - split; [intros H; injection H as <-; constructor|]. inversion 1; reflexivity.
    - rewrite obind_ok. split.
      + intros (c&Hc&H). apply obind_ok in H. destruct H as (cs'&H1&H2). injection H2 as <-. constructor; [assumption|now apply IH].
      + inversion 1 as [|? c ? cs' Hc Hcs]; subst. exists c. split; [assumption|]. apply IH in Hcs. rewrite Hcs. reflexivity.
  Qed.
  Lemma one_header s o : unmarshal_one others s = Ok o -> exists h, extract_header s = Ok h.
  Proof. unfold unmarshal_one. rewrite obind_ok. intros (h&H&_). eauto. Qed.
  Lemma one_case s o : unmarshal_one others s = Ok o ->
    (is_seg (B "HIRMG") 2 s = true /\ is_seg (B "HIRMS") 2 s = false /\ exists l, unmarshal_acks true s = Ok l /\ o = Some (B "HIRMG", PMsgAcks l)) \/
    (is_seg (B "HIRMG") 2 s = false /\ is_seg (B "HIRMS") 2 s = true /\ exists l, unmarshal_acks false s = Ok l /\ o = Some (B "HIRMS", PSegAcks l)) \/
    (is_seg (B "HIRMG") 2 s = false /\ is_seg (B "HIRMS") 2 s = false /\
      forall i p, o = Some (i, p) -> i <> B "HIRMG" /\ i <> B "HIRMS").
  Proof.
    unfold unmarshal_one, is_seg. destruct (extract_header s) as [h| |]; [|discriminate|discriminate]. cbn [obind]. unfold known.
    destruct (bytes_eqb_spec (sh_id h) (B "HIRMG")) as [E|E].
    - rewrite E. replace (bytes_eqb (B "HIRMG") (B "HIRMS")) with false by reflexivity. cbn [andb].
      destruct (sh_version h =? 2).
      + destruct (unmarshal_acks true s) as [l| |]; cbn; try discriminate. intros H. injection H as <-. left. eauto.
      + intros H. injection H as <-. right; right. repeat split; discriminate.
    - destruct (bytes_eqb_spec (sh_id h) (B "HIRMS")) as [F|F]; cbn [andb].
      + rewrite F. destruct (sh_version h =? 2).
        * destruct (unmarshal_acks false s) as [l| |]; cbn; try discriminate. intros H. injection H as <-. right; left. eauto.
        * intros H. injection H as <-. right; right. repeat split; discriminate.
      + intros H. right; right. split; [reflexivity|]. split; [reflexivity|]. intros i p Eo. subst o.
        destruct (others (sh_id h) (sh_version h)) as [f|]; [|discriminate]. destruct (f s); cbn in H; try discriminate.
        injection H as <- _. auto.
  Qed.
  Lemma bytes_eqb_neq a b : a <> b -> bytes_eqb a b = false.
  Proof. intros H. destruct (bytes_eqb_spec a b); [contradiction|reflexivity]. Qed.
  Lemma by_id segs os : Forall2 (fun s o => unmarshal_one others s = Ok o) segs os ->
    segments_by_id (B "HIRMG") (somes os) = map (fun s => PMsgAcks (acks_in true s)) (filter (is_seg (B "HIRMG") 2) segs) /\
    segments_by_id (B "HIRMS") (somes os) = map (fun s => PSegAcks (acks_in false s)) (filter (is_seg (B "HIRMS") 2) segs) /\
    Forall (fun s => exists l, unmarshal_acks true s = Ok l) (filter (is_seg (B "HIRMG") 2) segs) /\
    Forall (fun s => exists l, unmarshal_acks false s = Ok l) (filter (is_seg (B "HIRMS") 2) segs).
  Proof.
    induction 1 as [|s o segs os Ho _ (I1&I2&I3&I4)]; [repeat split; constructor|].
    unfold segments_by_id, somes in *. cbn [flat_map filter]. rewrite !filter_app, !map_app, I1, I2.
    destruct (one_case s o Ho) as [(E1&E2&l&El&->)|[(E1&E2&l&El&->)|(E1&E2&Hn)]]; rewrite E1, E2.
    - cbn [filter fst map app]. rewrite bytes_eqb_refl. replace (bytes_eqb (B "HIRMG") (B "HIRMS")) with false by reflexivity.
      cbn [map app snd]. assert (A : acks_in true s = l) by (unfold acks_in; now rewrite El). rewrite A. repeat split; try constructor; eauto.
    - cbn [filter fst map app]. rewrite bytes_eqb_refl. replace (bytes_eqb (B "HIRMS") (B "HIRMG")) with false by reflexivity.
      cbn [map app snd]. assert (A : acks_in false s = l) by (unfold acks_in; now rewrite El). rewrite A. repeat split; try constructor; eauto.
    - destruct o as [[i p]|]; [|repeat split; assumption]. destruct (Hn i p eq_refl) as [N1 N2]. cbn [filter fst].
      rewrite (bytes_eqb_neq _ _ N1), (bytes_eqb_neq _ _ N2). cbn [map app]. repeat split; assumption.
  Qed.
  Lemma all_seg_acks (l : list bytes) : all_ok (@seg_acks P) (map (fun s => PSegAcks (acks_in false s)) l) = Ok (map (acks_in false) l).
  Proof. induction l as [|s l IH]; [reflexivity|]. cbn [map all_ok seg_acks obind]. now rewrite IH. Qed.
  Lemma new_decrypted_iff h raw m : new_decrypted others h raw = Ok m <->
    exists segs os, message_extract raw = Ok segs /\ Forall2 (fun s o => unmarshal_one others s = Ok o) segs os /\
    (mh_hbci h = Some 220 \/ mh_hbci h = Some 300) /\
    m = mkBM h (match filter (is_seg (B "HIRMG") 2) segs with
                | [] => []
                | s :: _ => map (set_ref_msg (referencing_message h)) (acks_in true s)
                end ++ flat_map (acks_in false) (filter (is_seg (B "HIRMS") 2) segs)) (somes os) segs.
  Proof.
    unfold new_decrypted, unmarshal_all. split.
    - intros H. apply obind_ok in H. destruct H as ([segs ps]&H1&H2). apply obind_ok in H1. destruct H1 as (segs'&Hx&H1).
      apply obind_ok in H1. destruct H1 as (os&Hos&E). injection E as -> <-. apply all_ok_Forall2 in Hos.
      destruct (by_id segs os Hos) as (I1&I2&_). rewrite I1, I2, all_seg_acks in H2. cbn [obind] in H2.
      destruct (mh_hbci h) as [v|] eqn:Ev; [|discriminate]. destruct ((v =? 220) || (v =? 300)) eqn:E2; [|discriminate].
      exists segs, os. split; [assumption|]. split; [assumption|].
      split; [apply orb_true_iff in E2; destruct E2 as [E2|E2]; apply Z.eqb_eq in E2; subst; auto|].
      injection H2 as <-. f_equal. rewrite flat_map_concat_map. destruct (filter (is_seg (B "HIRMG") 2) segs); reflexivity.
    - intros (segs&os&Hx&Hos&Hv&->). rewrite Hx. cbn [obind]. apply all_ok_Forall2 in Hos as Ha. rewrite Ha. cbn [obind].
      destruct (by_id segs os Hos) as (I1&I2&_). rewrite I1, I2, all_seg_acks. cbn [obind].
      destruct Hv as [-> | ->]; cbn [Z.eqb Pos.eqb orb]; f_equal; f_equal; rewrite flat_map_concat_map; destruct (filter (is_seg (B "HIRMG") 2) segs); reflexivity.
  Qed.

  Definition good_seg (s : bank_seg) : Prop :=
    match s with
    | BMsgAcks pos ref l | BSegAcks pos ref l => position_ok pos /\ ref_ok ref /\ Forall plain_ack l
    | BOther w => sent w /\ is_seg (B "HIRMG") 2 w = false /\ is_seg (B "HIRMS") 2 w = false /\
                  exists o, unmarshal_one others w = Ok o
    end.
  Lemma bank_seg_read s w : good_seg s -> bank_wire s w -> len w < 2 ^ 61 -> sent w /\ exists o, unmarshal_one others w = Ok o.
  Proof.
    destruct s as [pos ref l|pos ref l|x]; cbn [good_seg bank_wire].
    - intros (Hp&Hr&Hl) Hw Hlen. destruct (ack_seg_read (B "HIRMG") pos ref l w eq_refl Hl Hp Hr Hw Hlen) as (Hs&Hx&Hu).
      split; [assumption|]. unfold unmarshal_one. rewrite Hx. cbn [obind sh_id sh_version]. unfold known. rewrite bytes_eqb_refl. cbn [Z.eqb Pos.eqb].
      rewrite (Hu true). cbn. eauto.
    - intros (Hp&Hr&Hl) Hw Hlen. destruct (ack_seg_read (B "HIRMS") pos ref l w eq_refl Hl Hp Hr Hw Hlen) as (Hs&Hx&Hu).
      split; [assumption|]. unfold unmarshal_one. rewrite Hx. cbn [obind sh_id sh_version]. unfold known.
      replace (bytes_eqb (B "HIRMS") (B "HIRMG")) with false by reflexivity. rewrite bytes_eqb_refl. cbn [Z.eqb Pos.eqb].
      rewrite (Hu false). cbn. eauto.
    - intros (Hs&_&_&Ho) -> _. auto.
  Qed.
  Lemma set_ref_delivered refmsg r l : map (set_ref_msg refmsg) (map (delivered true ([], 0) r) l) = map (delivered true refmsg r) l.
  Proof. rewrite map_map. reflexivity. Qed.
  Lemma bank_acks refmsg ss ws : Forall2 bank_wire ss ws -> Forall good_seg ss -> Forall (fun w => len w < 2 ^ 61) ws ->
    match filter (is_seg (B "HIRMG") 2) ws with
    | [] => []
    | s :: _ => map (set_ref_msg refmsg) (acks_in true s)
    end = message_acks refmsg ss /\ flat_map (acks_in false) (filter (is_seg (B "HIRMS") 2) ws) = segment_acks ss.
  Proof.
    induction 1 as [|s w ss ws Hw _ IH]; intros Hg Hl; [now split|]. inversion Hg as [|? ? G Gs]; subst. inversion Hl as [|? ? L Ls]; subst.
    destruct (IH Gs Ls) as [I1 I2]. cbn [filter message_acks segment_acks]. destruct s as [pos ref l|pos ref l|x]; cbn [good_seg bank_wire] in *.
    - destruct G as (Hp&Hr&Hpl). destruct (ack_seg_read (B "HIRMG") pos ref l w eq_refl Hpl Hp Hr Hw L) as (Hs&Hx&Hu).
      assert (E1 : is_seg (B "HIRMG") 2 w = true) by (unfold is_seg; rewrite Hx; reflexivity).
      assert (E2 : is_seg (B "HIRMS") 2 w = false) by (unfold is_seg; rewrite Hx; reflexivity).
      rewrite E1, E2. split; [|exact I2].
      unfold acks_in. rewrite (Hu true). apply set_ref_delivered.
    - destruct G as (Hp&Hr&Hpl). destruct (ack_seg_read (B "HIRMS") pos ref l w eq_refl Hpl Hp Hr Hw L) as (Hs&Hx&Hu).
      assert (E1 : is_seg (B "HIRMG") 2 w = false) by (unfold is_seg; rewrite Hx; reflexivity).
      assert (E2 : is_seg (B "HIRMS") 2 w = true) by (unfold is_seg; rewrite Hx; reflexivity).
      rewrite E1, E2. cbn [flat_map]. split; [exact I1|].
      rewrite I2. unfold acks_in at 1. now rewrite (Hu false).
    - subst x. destruct G as (_&E1&E2&_). rewrite E1, E2. auto.
  Qed.
End R.
