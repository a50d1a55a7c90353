(** * C79: the lookups of a reader of messages *)
From Coq Require Import Lia.
From Verif Require Import Base BaseFacts Lexer_Model Codec_Model Wire_Model Wire_Spec Wire_Facts3 Message_Model Lookup_Model Lookup_Spec.
Open Scope Z_scope.

Section Lookup.
  Context {P : Type} (others : bytes -> Z -> option (bytes -> outcome P)).
  Notation found := (found others).
  Notation unmarshal := (unmarshal others).
  Notation unmarshal_segment := (unmarshal_segment others).
  Notation um_run := (um_run others).

  Lemma found_det segs l1 : found segs l1 -> forall l2, found segs l2 -> l1 = l2.
  Proof.
    induction 1 as [|s h segs l H1 H2 H3 IH|s h read p segs l H1 H2 H3 H4 IH]; intros l2 F; inversion F; subst; try congruence.
    - apply IH. assumption.
    - assert (h0 = h) as -> by congruence. assert (read0 = read) as -> by congruence. assert (p0 = p) as -> by congruence.
      f_equal. apply IH. assumption.
  Qed.
  Lemma found_app a b l : found (a ++ b) l <-> exists la lb, l = la ++ lb /\ found a la /\ found b lb.
  Proof.
    revert l. induction a as [|s a IH]; intros l; cbn [app].
    - split; [intros H; exists [], l; repeat split; [constructor|exact H]|]. intros (la&lb&->&Ha&Hb). inversion Ha. exact Hb.
    - split.
      + intros H. inversion H; subst.
        * apply IH in H5. destruct H5 as (la&lb&->&Ha&Hb). exists la, lb. repeat split; [|exact Hb]. econstructor; eassumption.
        * apply IH in H6. destruct H6 as (la&lb&->&Ha&Hb). exists ((sh_id h, p) :: la), lb. repeat split; [|exact Hb]. econstructor; eassumption.
      + intros (la&lb&->&Ha&Hb). inversion Ha; subst.
        * econstructor; [eassumption|eassumption|]. apply IH. eauto.
        * cbn [app]. econstructor; [eassumption|eassumption|eassumption|]. apply IH. eauto.
  Qed.
  Lemma found_copies n segs l : found segs l -> found (copies n segs) (copies n l).
  Proof. intros H. induction n; cbn; [constructor|]. apply found_app. eauto. Qed.
  Lemma copies_app {A} (l : list A) a b : copies (a + b) l = copies a l ++ copies b l.
  Proof. induction a as [|a IH]; cbn; [reflexivity|]. now rewrite IH, app_assoc. Qed.

  Lemma read_found segs : forall acc l, found segs l -> read_loop others segs acc = (acc ++ l, Ok tt).
  Proof.
    induction segs as [|s segs IH]; intros acc l H; inversion H; subst; cbn [read_loop].
    - now rewrite app_nil_r.
    - unfold unmarshal_one. rewrite H2. cbn [obind]. rewrite H3. now apply IH.
    - unfold unmarshal_one. rewrite H2. cbn [obind]. rewrite H3, H4. cbn [obind]. rewrite (IH _ l0) by assumption. now rewrite <- app_assoc.
  Qed.
  Lemma read_ok segs : forall acc acc', read_loop others segs acc = (acc', Ok tt) -> exists l, acc' = acc ++ l /\ found segs l.
  Proof.
    induction segs as [|s segs IH]; intros acc acc' H; cbn [read_loop] in H.
    - injection H as <-. exists []. rewrite app_nil_r. split; [reflexivity|constructor].
    - unfold unmarshal_one in H. destruct (extract_header s) as [h| |] eqn:Eh; cbn [obind] in H; try discriminate.
      destruct (known others (sh_id h) (sh_version h)) as [f|] eqn:Ek.
      + destruct (f s) as [p| |] eqn:Ep; cbn [obind] in H; try discriminate. apply IH in H. destruct H as (l&->&Hl).
        exists ((sh_id h, p) :: l). rewrite <- app_assoc. split; [reflexivity|]. econstructor; eassumption.
      + apply IH in H. destruct H as (l&->&Hl). exists l. split; [reflexivity|]. econstructor; eassumption.
  Qed.
  Lemma read_broken pre s post : forall acc l o, found pre l -> broken others s o -> read_loop others (pre ++ s :: post) acc = (acc ++ l, o).
  Proof.
    induction pre as [|t pre IH]; intros acc l o H Hb; inversion H; subst; cbn [app read_loop].
    - rewrite app_nil_r. unfold unmarshal_one. destruct Hb as [(E&N)|(h&f&Eh&Ek&E&N)].
      + destruct (extract_header s); cbn in *; subst; [now destruct N|reflexivity|reflexivity].
      + rewrite Eh. cbn [obind]. rewrite Ek. destruct (f s); cbn in *; subst; [now destruct N|reflexivity|reflexivity].
    - unfold unmarshal_one. rewrite H2. cbn [obind]. rewrite H3. now apply IH.
    - unfold unmarshal_one. rewrite H2. cbn [obind]. rewrite H3, H4. cbn [obind]. rewrite (IH _ l0 o) by assumption. now rewrite <- app_assoc.
  Qed.
  Lemma read_any segs acc : (exists l, found segs l) \/ exists pre s post l o, segs = pre ++ s :: post /\ found pre l /\ broken others s o /\ read_loop others segs acc = (acc ++ l, o).
  Proof.
    assert (G : (exists l, found segs l) \/ exists pre s post l o, segs = pre ++ s :: post /\ found pre l /\ broken others s o).
    { induction segs as [|s segs IH]; [left; exists []; constructor|].
      destruct (extract_header s) as [h| |] eqn:Eh.
      2, 3: right; eexists [], s, segs, [], _; split; [reflexivity|]; split; [constructor|]; left; rewrite Eh; cbn; split; [reflexivity|discriminate].
      destruct (known others (sh_id h) (sh_version h)) as [f|] eqn:Ek; [destruct (f s) as [p| |] eqn:Ep|].
      2, 3: right; eexists [], s, segs, [], _; split; [reflexivity|]; split; [constructor|]; right; exists h, f; rewrite Ep; cbn; repeat split; [exact Eh|exact Ek|discriminate].
      - destruct IH as [(l&Hl)|(pre&t&post&l&o&->&Hl&Hb)].
        + left. exists ((sh_id h, p) :: l). econstructor; eassumption.
        + right. exists (s :: pre), t, post, ((sh_id h, p) :: l), o. split; [reflexivity|]. split; [econstructor; eassumption|exact Hb].
      - destruct IH as [(l&Hl)|(pre&t&post&l&o&->&Hl&Hb)].
        + left. exists l. econstructor; eassumption.
        + right. exists (s :: pre), t, post, l, o. split; [reflexivity|]. split; [econstructor; eassumption|exact Hb]. }
    destruct G as [G|(pre&s&post&l&o&->&Hl&Hb)]; [now left|right]. exists pre, s, post, l, o. split; [reflexivity|]. split; [exact Hl|]. split; [exact Hb|].
    now apply read_broken.
  Qed.

  (** How the extractor of a message that can be divided behaves. *)
  Lemma extract_ok raw segs : message_extract raw = Ok segs -> forall l, se_extract (mkSE raw l) = (mkSE raw (l ++ segs), Ok (l ++ segs)).
  Proof.
    unfold message_extract, se_extract, new_segment_extractor. cbn [se_raw se_segments]. intros H l.
    destruct (read_all raw) as [ts []]; cbn [snd app] in *; try discriminate. destruct (existsb is_error ts); [discriminate|]. now injection H as <-.
  Qed.

  (** One Unmarshal of a new reader: it succeeds exactly if the message can be divided and
      all its segments are readable, and then everything is found once. *)
  Theorem C79_unmarshal : forall raw u,
    unmarshal (new_unmarshaler raw) = (u, Ok tt) <->
    exists segs l, message_extract raw = Ok segs /\ found segs l /\ um_marshaled u = segs /\ um_segments u = l /\ se_raw (um_extractor u) = raw.
  Proof.
    intros raw u. unfold Lookup_Model.unmarshal, new_unmarshaler, new_segment_extractor. cbn [um_extractor um_segments]. split.
    - intros H. destruct (se_extract (mkSE raw [])) as [x [segs| |]] eqn:E; try discriminate.
      assert (Em : message_extract raw = Ok segs) by (unfold message_extract, new_segment_extractor; now rewrite E).
      rewrite (extract_ok raw segs Em []) in E. injection E as <-.
      destruct (read_loop others segs []) as [acc r] eqn:Er. injection H as <- ->. apply read_ok in Er. destruct Er as (l&->&Hl).
      exists segs, l. repeat split; assumption.
    - intros (segs&l&Em&Hl&E1&E2&E3). rewrite (extract_ok raw segs Em []). cbn [app]. rewrite (read_found segs [] l Hl). f_equal.
      destruct u as [[r s] t]. cbn in *. now subst.
  Qed.
  (** If a segment is not readable the outcome is that of the first of them; what was before
      it is found, and all segments are found as bytes. *)
  Theorem C79_unreadable : forall raw pre s post l o, message_extract raw = Ok (pre ++ s :: post) -> found pre l -> broken others s o ->
    exists u, unmarshal (new_unmarshaler raw) = (u, o) /\ um_segments u = l /\ um_marshaled u = pre ++ s :: post.
  Proof.
    intros raw pre s post l o Em Hl Hb. unfold Lookup_Model.unmarshal, new_unmarshaler, new_segment_extractor. cbn [um_extractor um_segments].
    rewrite (extract_ok raw _ Em []). cbn [app]. rewrite (read_broken pre s post [] l o Hl Hb). eexists. split; [reflexivity|]. split; reflexivity.
  Qed.
  (** There are no other cases for a message that can be divided. *)
  Theorem C79_cases : forall segs, (exists l, found segs l) \/ exists pre s post l o, segs = pre ++ s :: post /\ found pre l /\ broken others s o.
  Proof. intros segs. destruct (read_any segs []) as [H|(pre&s&post&l&o&E&H&B&_)]; [now left|right; eauto 9]. Qed.

  (** Any number of calls, one after the other: every call appends the segments once more,
      and Unmarshal reads all copies there are. *)
  Lemma run_copies raw segs l h : message_extract raw = Ok segs -> found segs l -> forall e acc,
    um_run h (mkUm (mkSE raw (copies e segs)) acc) = mkUm (mkSE raw (copies (divisions others h + e) segs)) (acc ++ copies (readings others e h) l).
  Proof.
    intros Em Hl. unfold Lookup_Model.um_run. induction h as [|o h IH]; intros e acc; cbn [fold_left divisions readings].
    - cbn. now rewrite app_nil_r.
    - assert (Hc : copies e segs ++ segs = copies (S e) segs).
      { cbn [copies]. clear. induction e as [|e IH]; cbn; [now rewrite app_nil_r|]. now rewrite <- app_assoc, IH. }
      destruct o as [|id v]; cbn [um_step divides].
      + unfold Lookup_Model.unmarshal. cbn [um_extractor um_segments]. rewrite (extract_ok raw segs Em), Hc.
        rewrite (read_found _ acc _ (found_copies (S e) segs l Hl)). cbn [fst]. rewrite IH, (copies_app l (S e)), app_assoc. f_equal. f_equal. f_equal. lia.
      + unfold Lookup_Model.unmarshal_segment. destruct (known others id v).
        * cbn [um_extractor um_segments]. rewrite (extract_ok raw segs Em), Hc. cbn [fst]. rewrite IH. f_equal. f_equal. f_equal. lia.
        * cbn [fst]. now rewrite IH.
  Qed.
  Theorem C79_history : forall raw segs l h, message_extract raw = Ok segs -> found segs l ->
    let u := um_run h (new_unmarshaler raw) in
    um_marshaled u = copies (divisions others h) segs /\ um_segments u = copies (readings others 0 h) l.
  Proof.
    intros raw segs l h Em Hl u. subst u. unfold new_unmarshaler, new_segment_extractor.
    pose proof (run_copies raw segs l h Em Hl 0 []) as R. cbn [copies] in R. rewrite R. unfold um_marshaled. cbn [um_extractor um_segments se_segments app]. now rewrite Nat.add_0_r.
  Qed.

  (** The lookups: by ID all of them in order, and the first. *)
  Theorem C79_by_id : forall id (u : @unmarshaler P),
    (forall p, In p (um_segments_by_id id u) <-> In (id, p) (um_segments u)) /\
    um_segment_by_id id u = hd_error (um_segments_by_id id u) /\
    (forall l1 l2 : list (bytes * parsed P), segments_by_id id (l1 ++ l2) = segments_by_id id l1 ++ segments_by_id id l2).
  Proof.
    intros id u. split; [|split].
    - intros p. unfold um_segments_by_id, segments_by_id. rewrite in_map_iff. split.
      + intros ((k&q)&E&H). cbn in E. subst q. apply filter_In in H. destruct H as (H&E). cbn [fst] in E. destruct (bytes_eqb_spec k id) as [->|]; [exact H|discriminate].
      + intros H. exists (id, p). split; [reflexivity|]. apply filter_In. split; [exact H|]. cbn [fst]. destruct (bytes_eqb_spec id id); congruence.
    - unfold um_segment_by_id. destruct (um_segments_by_id id u); reflexivity.
    - intros l1 l2. unfold segments_by_id. now rewrite filter_app, map_app.
  Qed.
  Theorem C79_marshaled_by_id : forall id (u : @unmarshaler P) (p : bytes -> bool), (forall s, p s = true <-> has_id id s) ->
    um_marshaled_by_id id u = filter p (um_marshaled u).
  Proof. intros id u p Hp. apply find_segments_filter. exact Hp. Qed.

  (** UnmarshalSegment reads the first segment that begins with the ID with the reader of
      the version asked for, whatever version the segment has. *)
  Theorem C79_segment : forall raw segs id v, message_extract raw = Ok segs ->
    let r := snd (unmarshal_segment id v (new_unmarshaler raw)) in
    match known others id v with
    | None => r = Err
    | Some read =>
        (forall pre s post, segs = pre ++ s :: post -> starts_with id s -> Forall (fun t => ~ starts_with id t) pre -> r = read s) /\
        (Forall (fun t => ~ starts_with id t) segs -> r = Err)
    end.
  Proof.
    intros raw segs id v Em r. subst r. unfold Lookup_Model.unmarshal_segment. destruct (known others id v) as [f|]; [|reflexivity].
    unfold new_unmarshaler, new_segment_extractor. cbn [um_extractor um_segments]. rewrite (extract_ok raw segs Em []). cbn [app snd obind]. split.
    - intros pre s post E Hs Hp. assert (F : find_segment (mkSE raw segs) id = Some s) by (apply find_segment_spec; exists pre, post; auto). now rewrite F.
    - intros H. destruct (find_segment (mkSE raw segs) id) as [s|] eqn:E; [|reflexivity]. exfalso.
      apply find_segment_spec in E. destruct E as (pre&post&E&Hs&_). cbn [se_segments] in E. rewrite E in H. apply Forall_app in H. destruct H as (_&H). inversion H. contradiction.
  Qed.

  (** SegmentPosition of a message that was read: the position that the first segment that
      begins with the ID states, and -1 if there is none.  It never crashes. *)
  Theorem C79_position : forall raw u id, unmarshal (new_unmarshaler raw) = (u, Ok tt) ->
    (forall pre s post, um_marshaled u = pre ++ s :: post -> starts_with id s -> Forall (fun t => ~ starts_with id t) pre ->
       exists n, states_position s n /\ segment_position id u = Ok n) /\
    (Forall (fun t => ~ starts_with id t) (um_marshaled u) -> segment_position id u = Ok (-1)).
  Proof.
    intros raw u id H. apply C79_unmarshal in H. destruct H as (segs&l&Em&Hl&E1&E2&E3). unfold segment_position, um_marshaled_one. split.
    - intros pre s post E Hs Hp.
      assert (F : find_segment (um_extractor u) id = Some s) by (apply find_segment_spec; exists pre, post; auto). rewrite F.
      rewrite <- E1, E in Hl. apply found_app in Hl. destruct Hl as (la&lb&->&_&Hl).
      assert (Hh : exists h, extract_header s = Ok h) by (inversion Hl; eauto). destruct Hh as (h&Hh). exists (sh_pos h). split; [exists h; auto|].
      unfold extract_header in Hh. destruct s as [|c s]; [discriminate Hh|].
      destruct (segment_extract (c :: s)) as [[|e es]| |]; cbn [obind] in Hh; try discriminate. rewrite Hh. reflexivity.
    - intros Hn. destruct (find_segment (um_extractor u) id) as [s|] eqn:E; [|reflexivity]. exfalso.
      apply find_segment_spec in E. destruct E as (pre&post&E&Hs&_). unfold um_marshaled in Hn. rewrite E in Hn. apply Forall_app in Hn. destruct Hn as (_&Hn). inversion Hn. contradiction.
  Qed.

  (** A message that cannot be divided: both calls fail the same way, whatever was asked
      for, and nothing has been read. *)
  Theorem C79_undividable : forall raw o, message_extract raw = o -> (forall segs, o <> Ok segs) ->
    omap (fun _ => tt) o = snd (unmarshal (new_unmarshaler raw)) /\ um_segments (fst (unmarshal (new_unmarshaler raw))) = [] /\
    forall id v, known others id v <> None -> omap (fun _ => tt) (snd (unmarshal_segment id v (new_unmarshaler raw))) = omap (fun _ => tt) o.
  Proof.
    intros raw o Em Ho. unfold message_extract in Em. unfold Lookup_Model.unmarshal, Lookup_Model.unmarshal_segment, new_unmarshaler. cbn [um_extractor um_segments].
    destruct (se_extract (new_segment_extractor raw)) as [x r]. cbn [snd] in Em. subst r. destruct o as [segs| |]; [now destruct (Ho segs)| |].
    - repeat split. intros id v Hk. destruct (known others id v); [reflexivity|now destruct Hk].
    - repeat split. intros id v Hk. destruct (known others id v); [reflexivity|now destruct Hk].
  Qed.
  (** SegmentPosition if the header of that segment cannot be read: -1. *)
  Theorem C79_position_unreadable : forall (u : @unmarshaler P) id pre s post, um_marshaled u = pre ++ s :: post -> starts_with id s -> Forall (fun t => ~ starts_with id t) pre ->
    extract_header s = Err -> segment_position id u = Ok (-1).
  Proof.
    intros u id pre s post E Hs Hp Hh. unfold segment_position, um_marshaled_one.
    assert (F : find_segment (um_extractor u) id = Some s) by (apply find_segment_spec; exists pre, post; auto). rewrite F.
    destruct s as [|c s]; [reflexivity|]. unfold extract_header in Hh. destruct (segment_extract (c :: s)) as [[|e es]| |]; cbn [obind] in Hh; try discriminate; [now rewrite Hh|reflexivity].
  Qed.
End Lookup.
Print Assumptions C79_undividable.
Print Assumptions C79_position_unreadable.
Print Assumptions C79_unmarshal.
Print Assumptions C79_unreadable.
Print Assumptions C79_cases.
Print Assumptions C79_history.
Print Assumptions C79_by_id.
Print Assumptions C79_marshaled_by_id.
Print Assumptions C79_segment.
Print Assumptions C79_position.

(** A message with two balances, one of them of an unknown version, and parameters before
    them; every segment but HISAL:7 is known, and read as its bytes. *)
Definition ex_readers (id : bytes) (v : Z) : option (bytes -> outcome bytes) :=
  if bytes_eqb id (B "HISAL") && (v =? 7) then None else if bytes_eqb id (B "HIERR") then Some (fun _ => Err) else Some (fun s => Ok s).
Definition ex_message : bytes := B "HISALS:3:5:4+1'HISAL:4:7:3+x'HISAL:5:5:3+y'".
Example C79_found_meets : exists segs l, message_extract ex_message = Ok segs /\ found ex_readers segs l /\
  map fst l = [B "HISALS"; B "HISAL"] /\
  segments_by_id (B "HISAL") l = [POther (B "HISAL:5:5:3+y'")].
Proof.
  exists [B "HISALS:3:5:4+1'"; B "HISAL:4:7:3+x'"; B "HISAL:5:5:3+y'"], [(B "HISALS", POther (B "HISALS:3:5:4+1'")); (B "HISAL", POther (B "HISAL:5:5:3+y'"))].
  split; [vm_compute; reflexivity|]. split; [|split; [reflexivity|vm_compute; reflexivity]].
  - apply (found_known ex_readers _ (mkSH (B "HISALS") 3 5 (Some 4)) (fun s => omap POther (Ok s)) (POther (B "HISALS:3:5:4+1'"))); [vm_compute; reflexivity|reflexivity|reflexivity|].
    eapply found_unknown; [vm_compute; reflexivity|vm_compute; reflexivity|].
    apply (found_known ex_readers _ (mkSH (B "HISAL") 5 5 (Some 3)) (fun s => omap POther (Ok s)) (POther (B "HISAL:5:5:3+y'"))); [vm_compute; reflexivity|reflexivity|reflexivity|constructor].
Qed.
(** Calls one after the other: the second Unmarshal finds everything three times. *)
Example C79_twice : divisions ex_readers [Unmarshal; Unmarshal] = 2%nat /\ readings ex_readers 0 [Unmarshal; Unmarshal] = 3%nat /\
  readings ex_readers 0 [Unmarshal; UnmarshalSegment (B "HISAL") 5; Unmarshal] = 4%nat.
Proof. repeat split. Qed.
(** The segment HISALS is read as HISAL of version 5, and SegmentPosition is that of HISALS. *)
Theorem C79_prefix_refuted : exists u,
  unmarshal ex_readers (new_unmarshaler ex_message) = (u, Ok tt) /\
  snd (unmarshal_segment ex_readers (B "HISAL") 5 (new_unmarshaler ex_message)) = Ok (POther (B "HISALS:3:5:4+1'")) /\
  segment_position (B "HISAL") u = Ok 3 /\ um_marshaled_by_id (B "HISAL") u = [B "HISAL:4:7:3+x'"; B "HISAL:5:5:3+y'"].
Proof. eexists. split; [vm_compute; reflexivity|]. split; [vm_compute; reflexivity|]. split; vm_compute; reflexivity. Qed.
Print Assumptions C79_prefix_refuted.
Example C79_unreadable_meets : exists pre s post l, message_extract (B "HISAL:4:5:3+x'HIERR:5:1'HISAL:6:5:3+y'") = Ok (pre ++ s :: post) /\
  found ex_readers pre l /\ broken ex_readers s Err /\ map fst l = [B "HISAL"].
Proof.
  exists [B "HISAL:4:5:3+x'"], (B "HIERR:5:1'"), [B "HISAL:6:5:3+y'"], [(B "HISAL", POther (B "HISAL:4:5:3+x'"))]. split; [vm_compute; reflexivity|]. split; [|split].
  - apply (found_known ex_readers _ (mkSH (B "HISAL") 4 5 (Some 3)) (fun s => omap POther (Ok s)) (POther (B "HISAL:4:5:3+x'"))); [vm_compute; reflexivity|reflexivity|reflexivity|constructor].
  - right. eexists _, _. split; [vm_compute; reflexivity|]. split; [vm_compute; reflexivity|]. split; [reflexivity|discriminate].
  - reflexivity.
Qed.

(** A message that ends inside a segment, and one whose only segment has no version. *)
Example C79_undividable_meets : message_extract (B "HISAL:4:5:3+x") = Err /\ known ex_readers (B "HISAL") 5 <> None.
Proof. split; [vm_compute; reflexivity|discriminate]. Qed.
Example C79_position_unreadable_meets :
  let u := fst (unmarshal ex_readers (new_unmarshaler (B "HISAL:x+1'"))) in
  um_marshaled u = [] ++ B "HISAL:x+1'" :: [] /\ starts_with (B "HISAL") (B "HISAL:x+1'") /\ extract_header (B "HISAL:x+1'") = Err /\ segment_position (B "HISAL") u = Ok (-1).
Proof. cbv zeta. split; [vm_compute; reflexivity|]. split; [now exists (B ":x+1'")|]. split; vm_compute; reflexivity. Qed.
