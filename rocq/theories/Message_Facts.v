From Verif Require Import Base BaseFacts Lexer_Model Lexer_Spec Lexer_Proofs Lexer_Facts
  Codec_Model Codec_Spec Codec_Proofs Wire_Model Wire_Spec Wire_Proofs Wire_Facts Wire_Facts2 Wire_Facts3 Wire_Props
  Message_Model Message_Spec Message_Proofs.
From Coq Require Import Lia ZifyBool ZifyNat ZifyN.
Open Scope Z_scope.
Ltac Zify.zify_post_hook ::= Z.div_mod_to_equations.

(** ** Segment headers *)
Lemma special_join c (ls : list bytes) : special c = false -> existsb special (join [c] ls) = existsb (existsb special) ls.
Proof.
  intros Hc. induction ls as [|x [|y ls] IH]; [reflexivity|cbn; now rewrite orb_false_r|].
  rewrite join_cons, !existsb_app, IH. cbn [existsb]. now rewrite Hc, !orb_false_l.
Qed.
Lemma digits_special ds : forallb is_digit ds = true -> existsb special ds = false.
Proof.
  induction ds as [|d ds IH]; [reflexivity|]. cbn [forallb existsb]. rewrite andb_true_iff. intros [Hd H].
  rewrite IH by assumption. destruct (digit_facts d Hd) as [E _]. unfold special. unfold is_delimiter in E.
  destruct (beq d b_plus), (beq d b_quote), (beq d b_colon); cbn in *; congruence.
Qed.
Lemma itoa_special z : existsb special (itoa z) = false.
Proof.
  unfold itoa. destruct (z <? 0).
  - cbn [existsb]. rewrite digits_special; [reflexivity|]. now destruct (itoa_N_spec (Z.to_N (- z))) as (_&H&_).
  - apply digits_special. now destruct (itoa_N_spec (Z.to_N z)) as (_&H&_).
Qed.
Lemma itoa_echunk z : echunk (itoa z).
Proof. exists (ENumber z). split; [|exact I]. cbn. unfold marshal_number. now rewrite (to_latin1_ascii _ (itoa_ascii z)). Qed.
Lemma header_wire_join i pos ver ref : header_wire i pos ver ref =
  join [b_colon] ([i; itoa pos; itoa ver] ++ match ref with Some r => [itoa r] | None => [] end).
Proof. unfold header_wire. destruct ref; cbn [app]; rewrite !join_cons; cbn [join app]; [reflexivity|now rewrite app_nil_r]. Qed.
Lemma unmarshal_itoa z : in_int64 z = true -> unmarshal_int (itoa z) = Ok z.
Proof. intros H. unfold unmarshal_int. rewrite (to_utf8_ascii _ (itoa_ascii z)). now apply atoi_itoa. Qed.
Lemma unmarshal_header_wire id i pos ver ref : marshal_text id = Ok i -> elem_safe (EText id) -> existsb special i = false ->
  in_int64 pos = true -> in_int64 ver = true -> match ref with Some r => in_int64 r = true | None => True end ->
  len (header_wire i pos ver ref) < 2 ^ 61 ->
  unmarshal_header (header_wire i pos ver ref) = Ok (mkSH id pos ver ref).
Proof.
  intros Hi Hs Hsp Hp Hv Hr Hlen. unfold unmarshal_header. rewrite header_wire_join in *.
  assert (Hc : Forall echunk ([i; itoa pos; itoa ver] ++ match ref with Some r => [itoa r] | None => [] end)).
  { apply Forall_app. split; [|destruct ref; repeat constructor; apply itoa_echunk].
    constructor; [exists (EText id); split; [exact Hi|exact Hs]|]. repeat constructor; apply itoa_echunk. }
  assert (Hx : existsb special (join [b_colon] ([i; itoa pos; itoa ver] ++ match ref with Some r => [itoa r] | None => [] end)) = false).
  { rewrite special_join by reflexivity. rewrite existsb_app. cbn [existsb]. rewrite Hsp, !itoa_special.
    destruct ref as [r|]; cbn [existsb]; [rewrite itoa_special|]; reflexivity. }
  rewrite (group_extract_clean _ Hc ltac:(discriminate) Hx Hlen). cbn [obind app].
  rewrite (unmarshal_itoa pos Hp), (unmarshal_itoa ver Hv). cbn [obind].
  assert (Hid : unmarshal_text i = id). { apply marshal_text_iff in Hi. destruct Hi as (l&->&->). apply unmarshal_text_escape. }
  rewrite Hid. destruct ref as [r|]; [|reflexivity].
  destruct (itoa_last r) as (p&d&E&_). rewrite (unmarshal_itoa r Hr). destruct (itoa r) as [|x y]; [destruct p; discriminate|]. reflexivity.
Qed.

(** ** Plain texts *)
Lemma alnum_not_syntax c : alnum c = true -> is_syntax c = false /\ beq c b_nul = false /\ beq c b_comma = false /\ (zb c <? 128) = true.
Proof.
  pose (P := fun c => implb (alnum c) (negb (is_syntax c) && negb (beq c b_nul) && negb (beq c b_comma) && (zb c <? 128))).
  assert (H : P c = true) by (apply byte_sweep; vm_compute; reflexivity).
  unfold P in H. intros Ha. rewrite Ha in H. cbn [implb] in H. rewrite !andb_true_iff, !negb_true_iff in H. tauto.
Qed.
Lemma alnum_escape v : forallb alnum v = true -> escape v = v.
Proof.
  induction v as [|c v IH]; [reflexivity|]. cbn [forallb]. rewrite andb_true_iff. intros [Hc Hv]. unfold escape. cbn [flat_map]. fold (escape v).
  destruct (alnum_not_syntax c Hc) as (->&_). rewrite IH by assumption. reflexivity.
Qed.
Lemma alnum_ascii v : forallb alnum v = true -> ascii v = true.
Proof.
  intros H. unfold ascii. rewrite forallb_forall in *. intros c Hc. now destruct (alnum_not_syntax c (H c Hc)) as (_&_&_&->).
Qed.
Lemma alnum_marshal v : forallb alnum v = true -> marshal_text v = Ok v.
Proof. intros H. unfold marshal_text. rewrite alnum_escape by assumption. apply to_latin1_ascii. now apply alnum_ascii. Qed.
Lemma drop_digits_in v c r : drop_digits v = c :: r -> In c v.
Proof.
  induction v as [|x v IH]; [discriminate|]. cbn [drop_digits]. destruct (is_digit x); [intros H; right; auto|].
  intros H. injection H as -> _. now left.
Qed.
Lemma alnum_safe v : forallb alnum v = true -> elem_safe (EText v).
Proof.
  intros H. rewrite forallb_forall in H. split.
  - intros Hn. destruct (alnum_not_syntax _ (H _ Hn)) as (_&E&_). discriminate.
  - unfold malformed_float. destruct v as [|c v]; [reflexivity|]. destruct (drop_digits (c :: v)) as [|d r] eqn:E; [apply andb_false_r|].
    destruct (alnum_not_syntax _ (H _ (drop_digits_in _ _ _ E))) as (_&_&->&_). apply andb_false_r.
Qed.
Lemma not_syntax_special c : is_syntax c = false -> special c = false.
Proof. intros H. destruct (not_syntax_facts c H) as (H1&H2&_). unfold special. now rewrite H1, H2. Qed.
Lemma alnum_special v : forallb alnum v = true -> existsb special v = false.
Proof.
  intros H. rewrite forallb_forall in H. apply not_true_is_false. intros G. apply existsb_exists in G. destruct G as (c&Hc&G).
  destruct (alnum_not_syntax _ (H _ Hc)) as (E&_). apply not_syntax_special in E. congruence.
Qed.
Lemma no_syntax_escape v : forallb (fun c => negb (is_syntax c) && negb (beq c b_nul)) v = true -> escape v = v.
Proof.
  induction v as [|c v IH]; [reflexivity|]. cbn [forallb]. rewrite !andb_true_iff, negb_true_iff. intros [[Hc _] Hv].
  unfold escape. cbn [flat_map]. fold (escape v). rewrite Hc, IH by assumption. reflexivity.
Qed.

(** ** Segments on the wire *)
Lemma all_ok_wire es bs : all_ok marshal_opt es = Ok bs -> Forall2 wire_of_de es bs.
Proof.
  revert bs. induction es as [|o es IH]; intros bs; cbn [all_ok].
  - intros H. injection H as <-. constructor.
  - intros H. apply obind_ok in H. destruct H as (b&Hb&H). apply obind_ok in H. destruct H as (bs'&Hbs&E). injection E as <-.
    constructor; [|auto]. destruct o; cbn in *; congruence.
Qed.
Lemma marshal_seg_inv s w : marshal_seg s = Ok w -> exists h bs,
  marshal_de (segment_header (sg_id s) (sg_pos s) (sg_version s) (sg_ref s)) = Ok h /\ all_ok marshal_opt (sg_elems s) = Ok bs /\
  w = trim_right b_plus (join [b_plus] (h :: bs)) ++ [b_quote].
Proof.
  unfold marshal_seg, marshal_segment. intros H. apply obind_ok in H. destruct H as (h&Hh&H). apply obind_ok in H. destruct H as (bs&Hbs&H).
  exists h, bs. repeat split; [assumption|assumption|congruence].
Qed.
Lemma safe_sent s w : safe_seg s -> marshal_seg s = Ok w -> sent w.
Proof.
  intros (H1&H2&H3) Hw. destruct (marshal_seg_inv s w Hw) as (h&bs&Hh&Hbs&_).
  exists (segment_header (sg_id s) (sg_pos s) (sg_version s) (sg_ref s)), (sg_elems s), h, bs.
  split; [exact Hw|]. split; [assumption|]. split; [now apply all_ok_wire|]. split; [assumption|]. split; [assumption|].
  unfold trailing_plus. now apply H3.
Qed.
Lemma strip_cons x bs : x <> [] -> strip (x :: bs) = x :: strip bs.
Proof. intros H. cbn [strip]. destruct x; [congruence|]. reflexivity. Qed.
Lemma header_marshals s h : marshal_de (segment_header (sg_id s) (sg_pos s) (sg_version s) (sg_ref s)) = Ok h ->
  exists i, marshal_text (sg_id s) = Ok i /\ h = header_wire i (sg_pos s) (sg_version s) (sg_ref s).
Proof.
  intros H. destruct (marshal_text (sg_id s)) as [i| |] eqn:E.
  - exists i. split; [reflexivity|]. rewrite (marshal_header_eq _ i _ _ _ E) in H. congruence.
  - unfold segment_header in H. rewrite marshal_de_group in H. cbn [all_ok marshal_opt marshal_de] in H.
    change (marshal_elem (EText (sg_id s))) with (marshal_text (sg_id s)) in H. rewrite E in H. discriminate.
  - unfold segment_header in H. rewrite marshal_de_group in H. cbn [all_ok marshal_opt marshal_de] in H.
    change (marshal_elem (EText (sg_id s))) with (marshal_text (sg_id s)) in H. rewrite E in H. discriminate.
Qed.
Lemma header_wire_ne i pos ver ref : header_wire i pos ver ref <> [].
Proof. destruct (header_wire_last i pos ver ref) as (p&d&->&_). destruct p; discriminate. Qed.
Lemma seg_form s w : safe_seg s -> marshal_seg s = Ok w -> exists i bs,
  marshal_text (sg_id s) = Ok i /\ all_ok marshal_opt (sg_elems s) = Ok bs /\
  w = join [b_plus] (header_wire i (sg_pos s) (sg_version s) (sg_ref s) :: strip bs) ++ [b_quote] /\
  (len w < 2 ^ 62 -> segment_extract w = Ok (header_wire i (sg_pos s) (sg_version s) (sg_ref s) :: strip bs)).
Proof.
  intros (H1&H2&H3) Hw. destruct (marshal_seg_inv s w Hw) as (h&bs&Hh&Hbs&Ew). specialize (H3 h bs Hh Hbs).
  rewrite (trim_join_clean b_plus _ H3) in Ew. destruct (header_marshals s h Hh) as (i&Hi&Eh).
  assert (Hc : Forall chunked (strip (h :: bs))).
  { apply strip_Forall. constructor; [eapply safe_chunked; eauto|]. eapply elements_chunked; [|eassumption]. now apply all_ok_wire. }
  exists i, bs. rewrite <- Eh. assert (Hne : h <> []) by (rewrite Eh; apply header_wire_ne).
  pose proof (strip_cons h bs Hne) as Est. unfold bytes in *. rewrite <- Est. split; [assumption|]. split; [assumption|]. split; [assumption|]. intros Hl. rewrite Ew in *.
  apply segment_extract_fields; [assumption| |assumption]. apply strip_last. rewrite strip_cons by assumption. discriminate.
Qed.
Lemma header_safe id pos ver ref : elem_safe (EText id) -> wire_safe (segment_header id pos ver ref).
Proof.
  intros Hid. apply wire_safe_group. split.
  - constructor; [exact Hid|]. repeat constructor. destruct ref; exact I.
  - intros bs Hbs. assert (Hm : exists i, marshal_text id = Ok i).
    { cbn [all_ok] in Hbs. apply obind_ok in Hbs. destruct Hbs as (i&Hi&_). exists i. exact Hi. }
    destruct Hm as [i Hi].
    assert (Hl : exists p d, last_present bs = p ++ [d] /\ is_digit d = true).
    { assert (N : forall z, marshal_elem (ENumber z) = Ok (itoa z)).
      { intros z. cbn. unfold marshal_number. now rewrite (to_latin1_ascii _ (itoa_ascii z)). }
      cbn [all_ok marshal_opt marshal_de] in Hbs. change (marshal_elem (EText id)) with (marshal_text id) in Hbs.
      rewrite Hi in Hbs. cbn [obind] in Hbs. rewrite !N in Hbs. cbn [obind] in Hbs.
      assert (NE : forall z, itoa z <> []) by (intros z E; destruct (itoa_last z) as (p&d&F&_); rewrite E in F; destruct p; discriminate).
      unfold last_present. destruct ref as [r|]; cbn [option_map marshal_opt marshal_de] in Hbs; [rewrite N in Hbs|]; cbn [obind] in Hbs;
        injection Hbs as <-.
      - destruct (itoa_last r) as (p&d&E&Hd). exists p, d. split; [|assumption]. rewrite <- E.
        assert (G : strip [i; itoa pos; itoa ver; itoa r] = [i; itoa pos; itoa ver; itoa r]).
        { pose proof (NE r) as N0. pose proof (NE ver) as N1. pose proof (NE pos) as N2. destruct (itoa r) as [|? ?]; [congruence|].
          destruct (itoa ver) as [|? ?]; [congruence|]. destruct (itoa pos); [congruence|]. cbn [strip]. destruct i; reflexivity. }
        rewrite G. reflexivity.
      - destruct (itoa_last ver) as (p&d&E&Hd). exists p, d. split; [|assumption]. rewrite <- E.
        assert (G : strip [i; itoa pos; itoa ver; []] = [i; itoa pos; itoa ver]).
        { pose proof (NE ver) as N1. pose proof (NE pos) as N2. destruct (itoa ver) as [|? ?]; [congruence|]. destruct (itoa pos); [congruence|].
          cbn [strip]. destruct i; reflexivity. }
        exact (f_equal (fun l => last l []) G). }
    destruct Hl as (p&d&Hl&Hd). rewrite Hl. intros [q Hq]. apply app_inj_tail in Hq. destruct Hq as [_ ->]. discriminate.
Qed.
Lemma sent_segform w : sent w -> segform w.
Proof.
  intros (header&elements&h&bs&Hw&Hh&Hb&Hsh&Hsb&Hn).
  assert (Hc : Forall chunked (h :: bs)).
  { constructor; [now apply (safe_chunked header)|now apply (elements_chunked elements)]. }
  apply strip_Forall in Hc.
  unfold marshal_segment in Hw. rewrite Hh in Hw. cbn [obind] in Hw. rewrite (elements_ok _ _ Hb) in Hw. cbn [obind] in Hw.
  assert (Ew : w = trim_right b_plus (join [b_plus] (h :: bs)) ++ [b_quote]) by congruence. rewrite Ew.
  rewrite (trim_join_clean b_plus _ Hn).
  destruct (strip (h :: bs)) as [|x s] eqn:E.
  - exists [], []. split; [reflexivity|]. split; [|constructor]. constructor; [|constructor]. split; [now left|reflexivity].
  - apply segform_fields; [assumption|discriminate].
Qed.
Lemma seg_starts s w : safe_seg s -> marshal_seg s = Ok w -> forallb alnum (sg_id s) = true -> starts_with (sg_id s ++ [b_colon]) w.
Proof.
  intros Hs Hw Ha. destruct (seg_form s w Hs Hw) as (i&bs&Hi&_&->&_). rewrite (alnum_marshal _ Ha) in Hi. injection Hi as <-.
  unfold header_wire, starts_with. destruct (strip bs) as [|x y].
  - cbn [join]. eexists. rewrite <- !app_assoc. cbn [app]. reflexivity.
  - rewrite join_cons. eexists. rewrite <- !app_assoc. cbn [app]. reflexivity.
Qed.
