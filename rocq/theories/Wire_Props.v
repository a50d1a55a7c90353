(** * C13-C17: groups, segments and messages on the wire *)
From Verif Require Import Base BaseFacts Lexer_Model Lexer_Spec Lexer_Proofs Lexer_Facts
  Codec_Model Codec_Spec Codec_Proofs Wire_Model Wire_Spec Wire_Proofs Wire_Facts Wire_Facts2 Wire_Facts3.
From Coq Require Import Lia ZifyBool ZifyNat ZifyN.
Open Scope Z_scope.
Ltac Zify.zify_post_hook ::= Z.div_mod_to_equations.

(** ** C13 *)
(** [wire_of o b]: b is the wire form of the basic element o (empty if absent). *)
Definition wire_of (o : option elem) (b : bytes) : Prop :=
  match o with Some e => marshal_elem e = Ok b | None => b = [] end.
Definition safe_component (o : option elem) : Prop := match o with Some e => elem_safe e | None => True end.

Lemma components_ok cs bs : Forall2 wire_of cs bs -> all_ok marshal_opt (map (option_map DE) cs) = Ok bs.
Proof.
  induction 1 as [|o b cs bs H _ IH]; [reflexivity|]. cbn [map all_ok].
  destruct o as [e|]; cbn in H |- *; [rewrite H|subst b]; cbn [obind]; rewrite IH; reflexivity.
Qed.
Lemma components_echunk cs bs : Forall2 wire_of cs bs -> Forall safe_component cs -> Forall echunk bs.
Proof.
  induction 1 as [|o b cs bs H _ IH]; intros Hs; [constructor|]. inversion Hs; subst. constructor; [|auto].
  destruct o as [e|]; cbn in *; [exists e; auto|subst; apply echunk_nil].
Qed.
Lemma strip_join_len c bs : len (join [c] (strip bs)) <= len (join [c] bs).
Proof.
  destruct (strip_spec bs) as [k Hk]. destruct (strip bs) as [|x s] eqn:E.
  - cbn. apply len_nonneg.
  - rewrite Hk at 1. rewrite join_app_repeat by discriminate. rewrite len_app. pose proof (len_nonneg (repeat c k)). lia.
Qed.

(** Marshaling a group of basic components always succeeds if they do; taking it
    apart again gives the wire forms of the components, without trailing empty
    ones, exactly if no '+' or apostrophe occurs on the wire and the last present
    component does not end in ':'; otherwise the group is rejected. *)
Theorem C13_group_roundtrip : forall cs bs,
  Forall2 wire_of cs bs -> Forall safe_component cs -> len (join [b_colon] bs) < 2 ^ 61 ->
  exists w, marshal_de (DEG (map (option_map DE) cs)) = Ok w /\
    (~ In b_plus w -> ~ In b_quote w -> ~ ends_with b_colon (last_present bs) ->
       group_extract w = Ok (match strip bs with [] => [[]] | s => s end)) /\
    (In b_plus w \/ In b_quote w \/ ends_with b_colon (last_present bs) -> group_extract w = Err).
Proof.
  intros cs bs H Hs Hsm. exists (trim_right b_colon (join [b_colon] bs)).
  pose proof (components_echunk _ _ H Hs) as Hc. apply strip_Forall in Hc.
  pose proof (strip_join_len b_colon bs) as Hl. pose proof (trim_join_clean b_colon bs) as Htc.
  split; [|split].
  - rewrite marshal_de_group, (components_ok _ _ H). reflexivity.
  - intros H1 H2 H3. rewrite (Htc H3) in *. destruct (strip bs) as [|x s] eqn:E; [reflexivity|].
    rewrite <- E in *. apply group_extract_clean; [assumption|rewrite E; discriminate| |lia].
    apply not_true_is_false. intros G. apply existsb_exists in G. destruct G as [y [Gy G]]. unfold special in G.
    destruct (beq_spec y b_plus) as [->|]; [contradiction|]. destruct (beq_spec y b_quote) as [->|]; [contradiction|discriminate].
  - intros G. pose proof (strip_last bs) as Hlast. rewrite trim_join in *. unfold last_present in *.
    destruct (strip bs) as [|x s] eqn:E.
    { destruct G as [[]|[[]|[[|] G]]]; discriminate. }
    rewrite <- E in *. assert (Hne : strip bs <> []) by (rewrite E; discriminate). specialize (Hlast Hne).
    destruct (exists_last Hne) as [q [y Hy]]. rewrite Hy in *. rewrite last_last in *.
    assert (D : ends_with b_colon y \/ ~ ends_with b_colon y).
    { destruct (exists_last Hlast) as [u [v ->]]. destruct (beq_spec v b_colon) as [->|Hv]; [left; now exists u|].
      right. intros [u' Hu]. apply app_inj_tail in Hu. tauto. }
    destruct D as [D|D]; [apply group_extract_colon; [assumption|assumption|lia]|].
    rewrite (Htc D) in *. apply group_extract_special; [assumption|assumption| |lia].
    apply existsb_exists. destruct G as [G|[G|G]]; [| |contradiction].
    + exists b_plus. auto.
    + exists b_quote. auto.
Qed.
Print Assumptions C13_group_roundtrip.

(** A group with text full of '?', '@' and ':', an absent component, binary data
    and trailing absent components. *)
Example C13_witness :
  let cs := [Some (EText (B "a:b?@c")); None; Some (ENumber (-5)); Some (EBinary (B "x:y")); None; None] in
  let bs := [B "a?:b???@c"; []; B "-5"; B "@3@x:y"; []; []] in
  Forall2 wire_of cs bs /\ Forall safe_component cs /\
  marshal_de (DEG (map (option_map DE) cs)) = Ok (B "a?:b???@c::-5:@3@x:y") /\
  group_extract (B "a?:b???@c::-5:@3@x:y") = Ok [B "a?:b???@c"; []; B "-5"; B "@3@x:y"].
Proof.
  cbv zeta. split; [repeat constructor|]. split; [|split; vm_compute; reflexivity].
  repeat constructor; cbn; intuition discriminate.
Qed.
(** Both provisos are needed: *)
Example C13_plus_refuted :
  marshal_de (DEG [Some (DE (EText (B "a+b"))); Some (DE (EText (B "c")))]) = Ok (B "a?+b:c") /\
  group_extract (B "a?+b:c") = Err.
Proof. split; vm_compute; reflexivity. Qed.
Example C13_colon_refuted :
  marshal_de (DEG [Some (DE (EText (B "a"))); Some (DE (EText (B "c:")))]) = Ok (B "a:c?") /\
  group_extract (B "a:c?") = Err.
Proof. split; vm_compute; reflexivity. Qed.
(** A group inside a group loses its trailing empty components, so that what
    follows it moves to another position: two different groups, same wire form. *)
Theorem C13_nested_groups_ambiguous_refuted : exists g1 g2, g1 <> g2 /\ wire_safe g1 /\ wire_safe g2 /\
  (exists w, marshal_de g1 = Ok w /\ marshal_de g2 = Ok w).
Proof.
  exists (DEG [Some (DEG [Some (DE (EText (B "a"))); None; None]); Some (DE (EText (B "z")))]),
         (DEG [Some (DEG [Some (DE (EText (B "a"))); Some (DE (EText (B "z"))); None])]).
  split; [discriminate|].
  assert (G : forall l bs x, all_ok marshal_opt l = Ok bs -> all_ok marshal_opt l = Ok x -> ~ ends_with b_colon (last_present x) ->
    ~ ends_with b_colon (last_present bs)) by (intros l bs x H1 H2; rewrite H1 in H2; now injection H2 as ->).
  assert (E : forall (a : byte), a <> b_colon -> ~ ends_with b_colon [a]).
  { intros a Ha [[|b [|]] Hp]; try discriminate. injection Hp as ->. congruence. }
  assert (S : forall a, is_digit a = false -> a <> b_nul -> elem_safe (EText [a])).
  { intros a H1 H2. split; [intros [H|[]]; congruence|]. unfold malformed_float. cbn. destruct a; try discriminate; reflexivity. }
  split; [|split].
  - apply wire_safe_group. split.
    + constructor; [|constructor; [|constructor]]; cbn [opt_safe].
      * apply wire_safe_group. split.
        -- constructor; [apply S; [reflexivity|discriminate]|repeat constructor].
        -- intros bs Hb. eapply G; [exact Hb|vm_compute; reflexivity|]. apply E. discriminate.
      * apply S; [reflexivity|discriminate].
    + intros bs Hb. eapply G; [exact Hb|vm_compute; reflexivity|]. apply E. discriminate.
  - apply wire_safe_group. split.
    + constructor; [|constructor]; cbn [opt_safe].
      apply wire_safe_group. split.
      * constructor; [apply S; [reflexivity|discriminate]|constructor; [apply S; [reflexivity|discriminate]|repeat constructor]].
      * intros bs Hb. eapply G; [exact Hb|vm_compute; reflexivity|]. apply E. discriminate.
    + intros bs Hb. eapply G; [exact Hb|vm_compute; reflexivity|].
      intros [p Hp]. destruct p as [|p1 [|p2 [|p3 p]]]; try discriminate. destruct p; discriminate.
  - eexists. split; vm_compute; reflexivity.
Qed.
Print Assumptions C13_nested_groups_ambiguous_refuted.

(** ** C14 *)
Definition wire_of_de (o : option delem) (b : bytes) : Prop :=
  match o with Some d => marshal_de d = Ok b | None => b = [] end.
Lemma elements_ok es bs : Forall2 wire_of_de es bs -> all_ok marshal_opt es = Ok bs.
Proof.
  induction 1 as [|o b es bs H _ IH]; [reflexivity|]. cbn [all_ok].
  destruct o as [e|]; cbn in H |- *; [rewrite H|subst b]; cbn [obind]; rewrite IH; reflexivity.
Qed.
Lemma elements_chunked es bs : Forall2 wire_of_de es bs -> Forall opt_safe es -> Forall chunked bs.
Proof.
  induction 1 as [|o b es bs H _ IH]; intros Hs; [constructor|]. inversion Hs; subst. constructor; [|auto].
  apply (opt_chunked o); [|assumption]. destruct o; cbn in *; [assumption|now subst].
Qed.
Definition trailing_plus (ls : list bytes) : Prop := ends_with b_plus (last_present ls).

Theorem C14_segment_roundtrip : forall header elements h bs,
  marshal_de header = Ok h -> Forall2 wire_of_de elements bs ->
  wire_safe header -> Forall opt_safe elements -> len (join [b_plus] (h :: bs)) < 2 ^ 61 ->
  exists w, marshal_segment header elements = Ok w /\
    (~ trailing_plus (h :: bs) -> segment_extract w = Ok (strip (h :: bs))) /\
    (trailing_plus (h :: bs) -> segment_extract w = Err).
Proof.
  intros header elements h bs Hh Hb Hsh Hsb Hsm.
  exists (trim_right b_plus (join [b_plus] (h :: bs)) ++ [b_quote]).
  assert (Hc : Forall chunked (h :: bs)).
  { constructor; [now apply (safe_chunked header)|now apply (elements_chunked elements)]. }
  unfold trailing_plus, last_present. set (l := h :: bs) in *. apply strip_Forall in Hc.
  pose proof (strip_join_len b_plus l) as Hl. pose proof (trim_join_clean b_plus l) as Htc.
  unfold last_present in Htc. pose proof (strip_last l) as Hlast.
  split; [|split].
  - unfold marshal_segment. rewrite Hh. cbn [obind]. rewrite (elements_ok _ _ Hb). reflexivity.
  - intros Hn. rewrite (Htc Hn). destruct (strip l) as [|x s] eqn:E; [reflexivity|]. rewrite <- E in *.
    apply segment_extract_fields; [assumption|apply Hlast; rewrite E; discriminate|].
    autorewrite with len. lia.
  - intros He. rewrite trim_join. destruct (strip l) as [|x s] eqn:E.
    { destruct He as [[|] He]; discriminate. }
    rewrite <- E in *. assert (Hne : strip l <> []) by (rewrite E; discriminate).
    destruct (exists_last Hne) as [q [y Hy]]. rewrite Hy in *. rewrite last_last in *.
    apply segment_err; [assumption|assumption|lia].
Qed.
Print Assumptions C14_segment_roundtrip.

Definition ex_header := segment_header (B "HKCCS") 3 1 None.
Definition ex_elements : list (option delem) :=
  [Some (DEG [Some (DE (EText (B "it's 1+1"))); None; Some (DE (EBinary (B "'+'")))]); None;
   Some (DE (EText (B "x:"))); None].
Lemma ex_safe : wire_safe ex_header /\ Forall opt_safe ex_elements.
Proof.
  assert (G : forall l x, all_ok marshal_opt l = Ok x -> ~ ends_with b_colon (last_present x) ->
    forall bs, all_ok marshal_opt l = Ok bs -> ~ ends_with b_colon (last_present bs))
    by (intros l x H2 H bs H1; rewrite H1 in H2; now injection H2 as ->).
  split.
  - apply wire_safe_group. split.
    + repeat constructor; cbn; intuition discriminate.
    + eapply G; [vm_compute; reflexivity|]. intros [p Hp]. apply (f_equal (@rev byte)) in Hp. rewrite rev_app_distr in Hp. discriminate.
  - constructor; [|constructor; [exact I|constructor; [|constructor; [exact I|constructor]]]]; cbn [opt_safe].
    + apply wire_safe_group. split.
      * repeat constructor; cbn; intuition discriminate.
      * eapply G; [vm_compute; reflexivity|]. intros [p Hp]. apply (f_equal (@rev byte)) in Hp. rewrite rev_app_distr in Hp. discriminate.
    + cbn. intuition discriminate.
Qed.
Example C14_witness :
  marshal_segment ex_header ex_elements = Ok (B "HKCCS:3:1+it?'s 1?+1::@3@'+'++x?:'") /\
  segment_extract (B "HKCCS:3:1+it?'s 1?+1::@3@'+'++x?:'") =
    Ok [B "HKCCS:3:1"; B "it?'s 1?+1::@3@'+'"; []; B "x?:"].
Proof. split; vm_compute; reflexivity. Qed.

(** ** C15 *)
(** The token sequence of a marshaled segment is the same whatever follows it,
    covers exactly its bytes, and has its only segment end at its end. *)
Theorem C15_segment_is_self_delimiting : forall header elements h bs,
  marshal_de header = Ok h -> Forall2 wire_of_de elements bs ->
  wire_safe header -> Forall opt_safe elements -> len (join [b_plus] (h :: bs)) < 2 ^ 61 ->
  ~ trailing_plus (h :: bs) ->
  exists w ts t, marshal_segment header elements = Ok w /\
    covered (ts ++ [t]) = w /\ tok_type t = T_SEGEND /\ tok_val t = [b_quote] /\
    Forall (fun u => tok_type u <> T_SEGEND /\ tok_type u <> T_EOF /\ tok_type u <> T_ERROR) ts /\
    forall rest, small_input (w ++ rest) ->
      exists more e, read_all (w ++ rest) = (ts ++ t :: more, e).
Proof.
  intros header elements h bs Hh Hb Hsh Hsb Hsm Hn.
  assert (Hc : Forall chunked (h :: bs)).
  { constructor; [now apply (safe_chunked header)|now apply (elements_chunked elements)]. }
  exists (trim_right b_plus (join [b_plus] (h :: bs)) ++ [b_quote]).
  set (l := h :: bs) in *. apply strip_Forall in Hc. pose proof (strip_join_len b_plus l) as Hl.
  assert (Hw : marshal_segment header elements = Ok (trim_right b_plus (join [b_plus] l) ++ [b_quote])).
  { unfold marshal_segment. rewrite Hh. cbn [obind]. rewrite (elements_ok _ _ Hb). reflexivity. }
  rewrite Hw. rewrite (trim_join_clean b_plus l Hn) in *.
  assert (Hf : segform (join [b_plus] (strip l) ++ [b_quote])).
  { destruct (strip l) as [|x s] eqn:E.
    - exists [], []. split; [reflexivity|]. split; [|constructor]. constructor; [|constructor]. split; [now left|reflexivity].
    - apply segform_fields; [assumption|discriminate]. }
  destruct Hf as (lc&c&Ew&Hok&Hq). rewrite Ew.
  assert (Hlw : len (flatp (lc ++ [(c, b_quote)])) < 2 ^ 62) by (rewrite <- Ew; autorewrite with len; lia).
  destruct (scans_pieces (lc ++ [(c, b_quote)]) 0 [] [mkTok T_EOF [] (0 + len (flatp (lc ++ [(c, b_quote)])))] EndDone Hok ltac:(lia) ltac:(lia))
    as [ts [H1 H2]].
  { apply (sc_eof _ _ 0). reflexivity. }
  rewrite app_nil_r in H2.
  destruct (ptoks_app_inv _ _ _ H1) as (ta&tb&->&Ha&Hb').
  assert (Hb2 : exists td t, tb = td ++ [t] /\ tok_type t = T_SEGEND /\ tok_val t = [b_quote] /\
            Forall (fun u => tok_type u <> T_SEGEND /\ tok_type u <> T_EOF /\ tok_type u <> T_ERROR) td).
  { inversion Hb' as [|d' t lc' ts' G1 G2 G3|c' d' u t lc' ts' G1 G2 G3 G4 G5]; subst.
    - inversion G3; subst. exists [], t. repeat split; auto.
    - inversion G5; subst. exists [u], t. repeat split; auto. constructor; [|constructor].
      destruct (tok_type u); try discriminate G1; repeat split; discriminate. }
  destruct Hb2 as (td&t&->&Ht1&Ht2&Ht3). exists (ta ++ td), t.
  split; [reflexivity|]. split; [|split; [assumption|split; [assumption|split]]].
  - destruct (scans_cover _ _ _ _ H2) as [_ [rest [Hr Hend]]].
    specialize (Hend eq_refl (ta ++ td ++ [t]) _ eq_refl eq_refl). destruct Hend as [[_ ->]|He]; [|discriminate].
    rewrite app_nil_r in Hr. rewrite Hr. unfold covered. rewrite !map_app, !concat_app. cbn. rewrite !app_nil_r. now rewrite <- app_assoc.
  - apply Forall_app. split; [|assumption]. clear -Ha Hq. induction Ha as [|d u lc ts G1 G2 G3 IH|c d u v lc ts G1 G2 G3 G4 G5 IH]; [constructor| |];
      inversion Hq as [|? ? [Hd1 Hd2] Hq']; subst; cbn [snd] in *.
    + constructor; [|auto]. rewrite G1. unfold dtype. destruct (beq d b_plus); [repeat split; discriminate|].
      destruct (beq_spec d b_quote); [congruence|repeat split; discriminate].
    + constructor; [destruct (tok_type u); try discriminate G1; repeat split; discriminate|]. constructor; [|auto].
      rewrite G3. unfold dtype. destruct (beq d b_plus); [repeat split; discriminate|].
      destruct (beq_spec d b_quote); [congruence|repeat split; discriminate].
  - intros rest Hr. rewrite read_all_scan by assumption.
    pose proof (scan_all_scans (S (List.length rest)) (0 + len (flatp (lc ++ [(c, b_quote)]))) rest ltac:(lia)) as Gm.
    pose proof (scans_app _ _ _ _ _ _ _ H2 Gm) as G. eexists. eexists. rewrite (scans_scan _ _ _ G).
    rewrite <- !app_assoc. cbn [app]. reflexivity.
Qed.
Print Assumptions C15_segment_is_self_delimiting.
Example C15_witness : snd (read_all (B "HKCCS:3:1+it?'s 1?+1::@3@'+'++x?:'" ++ B "HNHBS:4:1+1'")) = EndDone /\
  ~ trailing_plus [B "HKCCS:3:1"; B "it?'s 1?+1::@3@'+'"; []; B "x?:"; []].
Proof.
  split; [vm_compute; reflexivity|]. intros [p Hp]. apply (f_equal (@rev byte)) in Hp. rewrite rev_app_distr in Hp. discriminate.
Qed.

(** If the last present element ends in '+', e.g. a PIN, the terminator is
    swallowed: the segment and the following one become one. *)
Theorem C15_trailing_plus_refuted : exists header elements next w w2,
  wire_safe header /\ Forall opt_safe elements /\
  marshal_segment header elements = Ok w /\ marshal_segment next [Some (DE (ENumber 1))] = Ok w2 /\
  segment_extract w = Err /\ message_extract (w ++ w2) = Ok [w ++ w2].
Proof.
  exists (segment_header (B "HNSHA") 3 1 None), [Some (DE (EText (B "42"))); None; Some (DEG [Some (DE (EText (B "secret+")))])],
    (segment_header (B "HNHBS") 4 1 None), (B "HNSHA:3:1+42++secret?'"), (B "HNHBS:4:1+1'").
  assert (G : forall l x, all_ok marshal_opt l = Ok x -> ~ ends_with b_colon (last_present x) ->
    forall bs, all_ok marshal_opt l = Ok bs -> ~ ends_with b_colon (last_present bs))
    by (intros l x H2 H bs H1; rewrite H1 in H2; now injection H2 as ->).
  split; [|split].
  - apply wire_safe_group. split; [repeat constructor; cbn; intuition discriminate|].
    eapply G; [vm_compute; reflexivity|]. intros [p Hp]. apply (f_equal (@rev byte)) in Hp. rewrite rev_app_distr in Hp. discriminate.
  - constructor; [|constructor; [exact I|constructor; [|constructor]]]; cbn [opt_safe].
    + cbn. intuition discriminate.
    + apply wire_safe_group. split; [repeat constructor; cbn; intuition discriminate|].
      eapply G; [vm_compute; reflexivity|]. intros [p Hp]. apply (f_equal (@rev byte)) in Hp. rewrite rev_app_distr in Hp. discriminate.
  - repeat split; vm_compute; reflexivity.
Qed.
Print Assumptions C15_trailing_plus_refuted.

(** ** C16 *)
(** One segment to be sent, with its wire form. *)
Definition sent (w : bytes) : Prop := exists header elements h bs,
  marshal_segment header elements = Ok w /\ marshal_de header = Ok h /\ Forall2 wire_of_de elements bs /\
  wire_safe header /\ Forall opt_safe elements /\ ~ trailing_plus (h :: bs).
Theorem C16_message_roundtrip : forall ws, Forall sent ws -> len (List.concat ws) < 2 ^ 62 ->
  message_extract (List.concat ws) = Ok ws.
Proof.
  intros ws H Hsm. apply message_extract_concat; [|assumption]. eapply Forall_impl; [|exact H].
  intros w (header&elements&h&bs&Hw&Hh&Hb&Hsh&Hsb&Hn).
  assert (Hc : Forall chunked (h :: bs)).
  { constructor; [now apply (safe_chunked header)|now apply (elements_chunked elements)]. }
  apply strip_Forall in Hc.
  unfold marshal_segment in Hw. rewrite Hh in Hw. cbn [obind] in Hw. rewrite (elements_ok _ _ Hb) in Hw. cbn [obind] in Hw.
  assert (Ew : w = trim_right b_plus (join [b_plus] (h :: bs)) ++ [b_quote]) by congruence. rewrite Ew.
  rewrite (trim_join_clean b_plus _ Hn).
  destruct (strip (h :: bs)) as [|x s] eqn:E.
  - exists [], []. split; [reflexivity|]. split; [|constructor]. constructor; [|constructor]. split; [now left|reflexivity].
  - apply segform_fields; [assumption|discriminate].
Qed.
Print Assumptions C16_message_roundtrip.
Theorem C16_extraction_returns_a_prefix : forall raw segs, small_input raw -> message_extract raw = Ok segs ->
  Forall (ends_with b_quote) segs /\ exists rest, raw = List.concat segs ++ rest.
Proof. exact message_extract_any. Qed.
Print Assumptions C16_extraction_returns_a_prefix.
Example C16_witness : sent (B "HKCCS:3:1+it?'s 1?+1::@3@'+'++x?:'") /\
  message_extract (B "HKCCS:3:1+it?'s 1?+1::@3@'+'++x?:'HNHBS:4:1+1'") =
    Ok [B "HKCCS:3:1+it?'s 1?+1::@3@'+'++x?:'"; B "HNHBS:4:1+1'"].
Proof.
  split; [|vm_compute; reflexivity].
  exists ex_header, ex_elements, (B "HKCCS:3:1"), [B "it?'s 1?+1::@3@'+'"; []; B "x?:"; []].
  split; [vm_compute; reflexivity|]. split; [vm_compute; reflexivity|].
  split; [repeat constructor; vm_compute; reflexivity|]. destruct ex_safe. split; [assumption|]. split; [assumption|].
  intros [p Hp]. apply (f_equal (@rev byte)) in Hp. rewrite rev_app_distr in Hp. discriminate.
Qed.
(** Calling Extract again appends everything a second time. *)
Theorem C16_extract_again_duplicates : forall raw segs,
  message_extract raw = Ok segs ->
  snd (se_extract (fst (se_extract (new_segment_extractor raw)))) = Ok (segs ++ segs).
Proof.
  intros raw segs. unfold message_extract, se_extract, new_segment_extractor. cbn [se_raw se_segments].
  destruct (read_all raw) as [ts []] eqn:E; cbn [fst snd se_raw se_segments app]; try discriminate.
  destruct (existsb is_error ts) eqn:F; [discriminate|]. intros H. injection H as <-.
  rewrite E. cbn [snd se_segments app]. now rewrite F.
Qed.
Print Assumptions C16_extract_again_duplicates.

(** ** C17 *)
(** [p] is any test for "has ID id". *)
Theorem C17_find_segments : forall x id (p : bytes -> bool), (forall s, p s = true <-> has_id id s) ->
  find_segments x id = filter p (se_segments x).
Proof. exact find_segments_filter. Qed.
Print Assumptions C17_find_segments.
Theorem C17_find_segment_by_prefix : forall x id s, find_segment x id = Some s <->
  exists pre post, se_segments x = pre ++ s :: post /\ starts_with id s /\ Forall (fun t => ~ starts_with id t) pre.
Proof. exact find_segment_spec. Qed.
Print Assumptions C17_find_segment_by_prefix.
(** If no segment has an ID that properly extends id, it is the first with that ID. *)
Theorem C17_find_segment_exact : forall x id (p : bytes -> bool), (forall s, p s = true <-> has_id id s) ->
  (forall s, In s (se_segments x) -> starts_with id s -> has_id id s) ->
  find_segment x id = hd_error (find_segments x id).
Proof.
  intros x id p Hp Hex. rewrite (find_segments_filter x id p Hp). unfold find_segment.
  induction (se_segments x) as [|s l IH]; [reflexivity|]. cbn [find filter].
  destruct (has_prefix id s) eqn:E.
  - replace (p s) with true; [reflexivity|]. symmetry. apply Hp, Hex; [now left|]. now apply has_prefix_spec.
  - destruct (p s) eqn:F.
    + exfalso. apply Hp in F. destruct F as [_ [->|[r ->]]].
      * assert (G : has_prefix id id = true) by (apply has_prefix_spec; exists []; now rewrite app_nil_r). congruence.
      * assert (G : has_prefix id (id ++ b_colon :: r) = true) by (apply has_prefix_spec; eauto). congruence.
    + apply IH. intros t Ht. apply Hex. now right.
Qed.
Print Assumptions C17_find_segment_exact.
(** The test exists: *)
Theorem C17_test_exists : forall id, exists p : bytes -> bool, forall s, p s = true <-> has_id id s.
Proof.
  intros id. exists (fun s => bytes_eqb (before_colon s) id). intros s. destruct (bytes_eqb_spec (before_colon s) id) as [E|E].
  - split; [|reflexivity]. intros _. rewrite <- E. apply before_colon_id.
  - split; [discriminate|]. intros H. exfalso. apply E. exact (has_id_unique s _ _ (before_colon_id s) H).
Qed.
(** A lookup of HIKAZ in a message that carries the parameter segment HIKAZS first. *)
Theorem C17_prefix_collision_refuted : exists raw segs s,
  let x := fst (se_extract (new_segment_extractor raw)) in
  message_extract raw = Ok segs /\ find_segment x (B "HIKAZ") = Some s /\ ~ has_id (B "HIKAZ") s /\
  find_segments x (B "HIKAZ") <> [].
Proof.
  exists (B "HIKAZS:5:6:3+1+1'HIKAZ:6:6+x'"), [B "HIKAZS:5:6:3+1+1'"; B "HIKAZ:6:6+x'"], (B "HIKAZS:5:6:3+1+1'").
  cbv zeta. split; [vm_compute; reflexivity|]. split; [vm_compute; reflexivity|]. split; [|vm_compute; discriminate].
  intros [_ [H|[r H]]]; discriminate.
Qed.
Print Assumptions C17_prefix_collision_refuted.
