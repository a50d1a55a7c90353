(** * C80: the bank parameters of a dialog are those the bank sent *)
From Coq Require Import Lia.
From Verif Require Import Base BaseFacts Codec_Model Wire_Model Message_Model Dialog_Model Seg_Model Lookup_Model Lookup_Spec Params_Model Params_Spec.
Open Scope Z_scope.

(** ** Jobs that need a TAN *)
Lemma find_first (l : list (bytes * bool)) id : match find (fun e => bytes_eqb (fst e) id) l with
  | Some e => fst e = id /\ first_flag l id (snd e)
  | None => ~ In id (map fst l)
  end.
Proof.
  induction l as [|[k b] l IH]; cbn [find map fst]; [intros []|]. destruct (bytes_eqb_spec k id) as [->|Hk].
  - split; [reflexivity|]. exists [], l. split; [reflexivity|intros []].
  - destruct (find (fun e => bytes_eqb (fst e) id) l) as [e|].
    + destruct IH as (E&pre&post&->&Hn). split; [exact E|]. exists ((k, b) :: pre), post. split; [reflexivity|]. cbn. intros [H|H]; contradiction.
    + intros [H|H]; contradiction.
Qed.
Lemma first_flag_det l id b c : first_flag l id b -> first_flag l id c -> b = c.
Proof.
  intros (p1&q1&->&H1) (p2&q2&E&H2). revert p2 E H2. induction p1 as [|[k d] p1 IH]; intros [|[k2 d2] p2] E H2; cbn in *.
  - congruence.
  - injection E as -> _ _. exfalso. apply H2. now left.
  - injection E as -> -> _. exfalso. apply H1. now left.
  - injection E as -> -> E. apply (IH ltac:(tauto) p2 E). tauto.
Qed.
(** The list of jobs: the flag is that of the first entry. *)
Theorem C80_needs_tan : forall l id,
  (forall b, needs_tan id l = (b, true) <-> first_flag l id b) /\
  (~ In id (map fst l) <-> needs_tan id l = (false, false)).
Proof.
  intros l id. unfold needs_tan. pose proof (find_first l id) as F. destruct (find _ l) as [e|].
  - destruct F as (E&F). split.
    + intros b. split; [intros H; injection H as <-; exact F|]. intros H. now rewrite (first_flag_det l id _ _ F H).
    + split; [|discriminate]. intros H. exfalso. apply H. destruct F as (pre&post&->&_). rewrite map_app, in_app_iff. right. now left.
  - split; [|tauto]. intros b. split; [discriminate|]. intros (pre&post&->&_). exfalso. apply F. rewrite map_app, in_app_iff. right. now left.
Qed.
Print Assumptions C80_needs_tan.

Lemma map_val_set {V} (m : list (bytes * V)) k v id : map_val (map_set m k v) id = if bytes_eqb k id then Some v else map_val m id.
Proof.
  unfold map_val. induction m as [|[k' v'] m IH]; cbn [map_set find fst].
  - destruct (bytes_eqb k id); reflexivity.
  - destruct (bytes_eqb_spec k' k) as [->|Hk]; cbn [find fst].
    + destruct (bytes_eqb k id); reflexivity.
    + destruct (bytes_eqb_spec k' id) as [->|Hi]; [|exact IH]. destruct (bytes_eqb_spec k id); [congruence|reflexivity].
Qed.
Lemma map_val_all (l : list (bytes * bool)) id b : map_val (fold_left (fun m e => map_set m (fst e) (snd e)) l []) id = Some b <-> last_flag l id b.
Proof.
  revert b. induction l as [|[k c] l IH] using rev_ind; intros b.
  - split; [discriminate|]. intros (pre&post&E&_). destruct pre; discriminate.
  - rewrite fold_left_app. cbn [fold_left fst snd]. rewrite map_val_set. destruct (bytes_eqb_spec k id) as [->|Hk].
    + split.
      * intros H. injection H as ->. exists l, []. split; [reflexivity|intros []].
      * intros (pre&post&E&Hn). destruct post as [|x post] using rev_ind.
        -- apply app_inj_tail in E. destruct E as (_&E). congruence.
        -- exfalso. apply Hn. rewrite app_comm_cons, app_assoc in E. apply app_inj_tail in E. destruct E as (_&<-). rewrite map_app, in_app_iff. right. now left.
    + rewrite IH. split.
      * intros (pre&post&->&Hn). exists pre, (post ++ [(k, c)]). rewrite <- app_assoc. split; [reflexivity|]. rewrite map_app, in_app_iff. cbn. tauto.
      * intros (pre&post&E&Hn). destruct post as [|x post _] using rev_ind.
        -- apply app_inj_tail in E. destruct E as (_&E). congruence.
        -- rewrite app_comm_cons, app_assoc in E. apply app_inj_tail in E. destruct E as (->&_). exists pre, post. split; [reflexivity|].
           intros H. apply Hn. rewrite map_app, in_app_iff. now left.
Qed.
(** If a job is listed with one flag only, the list and the map of the dialog agree. *)
Theorem C80_agree : forall l id b, (forall c, In (id, c) l -> c = b) ->
  (needs_tan id l = (b, true) <-> map_val (fold_left (fun m e => map_set m (fst e) (snd e)) l []) id = Some b).
Proof.
  intros l id b H. destruct (C80_needs_tan l id) as (N&_). rewrite N, map_val_all. clear N. split.
  - intros (pre&post&->&_). assert (G : exists pre post', pre ++ (id, b) :: post' = (id, b) :: post /\ ~ In id (map fst post')).
    { assert (H' : forall c, In (id, c) post -> c = b) by (intros c Hc; apply H; rewrite in_app_iff; right; now right). clear H.
      induction post as [|[k c] post IH] using rev_ind; [exists [], []; split; [reflexivity|intros []]|].
      destruct (bytes_eqb_spec k id) as [->|Hk].
      - assert (c = b) as -> by (apply H'; rewrite in_app_iff; right; now left). exists ((id, b) :: post), []. split; [reflexivity|intros []].
      - destruct IH as (p&q&E&Hn); [intros d Hd; apply H'; rewrite in_app_iff; now left|].
        exists p, (q ++ [(k, c)]). rewrite app_comm_cons, app_assoc, E. split; [reflexivity|]. rewrite map_app, in_app_iff. cbn. tauto. }
    destruct G as (p&q&E&Hn). exists (pre ++ p), q. rewrite <- app_assoc, E. auto.
  - intros (pre&post&->&_). assert (G : exists p q, p ++ (id, b) :: q = pre ++ [(id, b)] /\ ~ In id (map fst p)).
    { assert (H' : forall c, In (id, c) pre -> c = b) by (intros c Hc; apply H; rewrite in_app_iff; now left). clear H.
      induction pre as [|[k c] pre IH]; [exists [], []; split; [reflexivity|intros []]|].
      destruct (bytes_eqb_spec k id) as [->|Hk].
      - assert (c = b) as -> by (apply H'; now left). exists [], (pre ++ [(id, b)]). split; [reflexivity|intros []].
      - destruct IH as (p&q&E&Hn); [intros d Hd; apply H'; now right|].
        exists ((k, c) :: p), q. cbn [app]. rewrite E. split; [reflexivity|]. cbn. intros [X|X]; contradiction. }
    destruct G as (p&q&E&Hn). exists p, (q ++ post). rewrite app_comm_cons, app_assoc, E, <- app_assoc. auto.
Qed.
Print Assumptions C80_agree.
(** With two entries of a job that differ they do not. *)
Theorem C80_differ_refuted : forall id b, needs_tan id [(id, b); (id, negb b)] = (b, true) /\
  map_val (fold_left (fun m e => map_set m (fst e) (snd e)) [(id, b); (id, negb b)] []) id = Some (negb b).
Proof.
  intros id b. split.
  - apply (C80_needs_tan [(id, b); (id, negb b)] id). exists [], [(id, negb b)]. split; [reflexivity|intros []].
  - apply map_val_all. exists [(id, b)], []. split; [reflexivity|intros []].
Qed.
Print Assumptions C80_differ_refuted.

(** ** The parameters of a message *)
Section Params.
  Context {P Common : Type} (others : bytes -> Z -> option (bytes -> outcome P)) (version : P -> Z) (common : P -> option (outcome Common))
          (pins : P -> option (outcome (list (bytes * bool)))).
  Notation found := (found others).
  Notation parse_params := (parse_params version common pins).
  (** A segment keeps the header it was read with. *)
  Definition keeps_header : Prop := forall id v read s q h, others id v = Some read -> read s = Ok q -> extract_header s = Ok h -> version q = sh_version h.

  Lemma known_version id v f s p h : keeps_header -> known others id v = Some f -> f s = Ok p -> extract_header s = Ok h -> v = sh_version h ->
    pversion version p = sh_version h.
  Proof.
    intros K Hk Hf Hh Hv. unfold known in Hk.
    destruct (bytes_eqb id (B "HIRMG")); [|destruct (bytes_eqb id (B "HIRMS"))].
    1, 2: destruct (Z.eqb_spec v 2); [|discriminate]; injection Hk as <-; destruct (unmarshal_acks _ s); try discriminate; injection Hf as <-; cbn; congruence.
    destruct (others id v) as [g|] eqn:Eg; [|discriminate]. injection Hk as <-. destruct (g s) as [q| |] eqn:Eq; try discriminate. injection Hf as <-. cbn.
    eapply K; eassumption.
  Qed.
  Lemma first_found segs l id : found segs l -> match segments_by_id id l with
    | [] => forall t, In t segs -> forall k, extract_header t = Ok k -> sh_id k = id -> known others id (sh_version k) = None
    | p :: _ => exists h s f, first_readable others segs id h s /\ known others id (sh_version h) = Some f /\ f s = Ok p
    end.
  Proof.
    intros H. induction H as [|s h segs l H1 H2 H3 IH|s h read p segs l H1 H2 H3 H4 IH]; [intros t []| |].
    - destruct (segments_by_id id l) as [|p r].
      + intros t [<-|Ht] k Hk E; [assert (k = h) as -> by congruence; rewrite <- E; assumption|]. eapply IH; eassumption.
      + destruct IH as (h'&s'&f&(pre&post&->&E1&E2&E3&E4)&F1&F2). exists h', s', f. split; [|auto]. exists (s :: pre), post. repeat split; try assumption.
        intros t [<-|Ht] k Hk E; [assert (k = h) as -> by congruence; rewrite <- E; assumption|]. eapply E4; eassumption.
    - unfold segments_by_id. cbn [filter fst]. destruct (bytes_eqb_spec (sh_id h) id) as [Ei|Ei].
      + cbn [map snd]. exists h, s, read. rewrite <- Ei. split; [|auto]. exists [], segs. repeat split; try assumption; [congruence|intros t []].
      + fold (segments_by_id id l). destruct (segments_by_id id l) as [|p' r].
        * intros t [<-|Ht] k Hk E; [congruence|]. eapply IH; eassumption.
        * destruct IH as (h'&s'&f&(pre&post&->&E1&E2&E3&E4)&F1&F2). exists h', s', f. split; [|auto]. exists (s :: pre), post. repeat split; try assumption.
          intros t [<-|Ht] k Hk E; [congruence|]. eapply E4; eassumption.
  Qed.
  Lemma first_readable_det segs id h1 s1 h2 s2 : first_readable others segs id h1 s1 -> first_readable others segs id h2 s2 -> h1 = h2 /\ s1 = s2.
  Proof.
    intros (p1&q1&->&A1&A2&A3&A4) (p2&q2&E&B1&B2&B3&B4). revert p2 E B4. induction p1 as [|x p1 IH]; intros [|y p2] E B4; cbn in E.
    - injection E as <- _. split; congruence.
    - injection E as <- _. exfalso. apply A3. apply (B4 s1); [now left|assumption|assumption].
    - injection E as -> _. exfalso. apply B3. apply (A4 s2); [now left|assumption|assumption].
    - injection E as -> E. apply (IH ltac:(intros t Ht; apply A4; now right) p2 E). intros t Ht. apply B4. now right.
  Qed.
  Lemma supported_offered (m : bank_message P) l : found (bm_raw m) l -> offered (bm_raw m) (supported_segments m).
  Proof.
    unfold supported_segments. induction 1 as [|s h segs l H1 H2 H3 IH|s h read p segs l H1 H2 H3 H4 IH]; cbn [flat_map]; [constructor| |]; rewrite H1;
      destruct (Z.leb_spec (Z.of_nat (List.length (sh_id h))) 5); cbn [app].
    1, 3: apply (offered_other s h); [exact H1|unfold offers; lia|exact IH].
    all: apply (offered_job s h); [exact H1|unfold offers; lia|exact IH].
  Qed.

  (** A message without common parameters changes nothing; one with them replaces
      everything, and the jobs that need a TAN are those of its own HIPINS segment. *)
  Theorem C80_parameters : forall (m : bank_message P) old new, found (bm_raw m) (bm_segments m) -> parse_params m old = Ok new ->
    (segments_by_id (B "HIBPA") (bm_segments m) = [] -> new = old) /\
    (forall p r, segments_by_id (B "HIBPA") (bm_segments m) = p :: r ->
       (exists q, p = POther q /\ common q = Some (Ok (bp_common new))) /\
       offered (bm_raw m) (map fst (bp_supported new)) /\
       (segments_by_id (B "HIPINS") (bm_segments m) = [] -> bp_pins new = None) /\
       (forall t r', segments_by_id (B "HIPINS") (bm_segments m) = t :: r' ->
          exists q jobs map, t = POther q /\ pins q = Some (Ok jobs) /\ bp_pins new = Some map /\
            forall id b, map_val map id = Some b <-> last_flag jobs id b)).
  Proof.
    intros m old new Hf H. unfold Params_Model.parse_params, first_segment in H.
    destruct (segments_by_id (B "HIBPA") (bm_segments m)) as [|[a|a|q] r0] eqn:E.
    - injection H as <-. split; [reflexivity|]. discriminate.
    - discriminate.
    - discriminate.
    - split; [discriminate|]. intros p r E0. injection E0 as <- <-. destruct (common q) as [c|] eqn:Ec; [|discriminate]. destruct c as [c| |]; cbn [obind] in H; try discriminate.
      destruct (parse_pins pins m) as [pm| |] eqn:Epp; cbn [obind] in H; try discriminate. injection H as <-. cbn [bp_common bp_supported bp_pins].
      split; [exists q; split; [reflexivity|exact Ec]|].
      split; [rewrite map_map; cbn [attach fst]; rewrite map_id; eapply supported_offered; exact Hf|].
      unfold parse_pins, first_segment in Epp.
      destruct (segments_by_id (B "HIPINS") (bm_segments m)) as [|[a|a|t] r'] eqn:Et; try discriminate.
      + injection Epp as <-. split; [reflexivity|discriminate].
      + split; [discriminate|]. intros t0 r0' E0. injection E0 as <- <-. destruct (pins t) as [jobs|] eqn:Ep; [|discriminate].
        destruct jobs as [jobs| |]; cbn [obind] in Epp; try discriminate. injection Epp as <-. eexists t, jobs, _. split; [reflexivity|]. split; [exact Ep|]. split; [reflexivity|].
        intros id b. apply map_val_all.
  Qed.
  (** Each entry of the supported segments has the parameters of the first segment of its ID
      that has a reader, if that is of the version of the entry, and otherwise none. *)
  Theorem C80_attached : forall (m : bank_message P) old new id v o, keeps_header -> found (bm_raw m) (bm_segments m) -> parse_params m old = Ok new ->
    segments_by_id (B "HIBPA") (bm_segments m) <> [] -> In ((id, v), o) (bp_supported new) ->
    (forall h s, first_readable others (bm_raw m) id h s ->
       if sh_version h =? v then exists read p, known others id v = Some read /\ read s = Ok p /\ o = Some p else o = None) /\
    ((forall h s, ~ first_readable others (bm_raw m) id h s) -> o = None).
  Proof.
    intros m old new id v o K Hf H Hb Hi. unfold Params_Model.parse_params, first_segment in H.
    destruct (segments_by_id (B "HIBPA") (bm_segments m)) as [|[a|a|q] r0] eqn:E; [now destruct Hb|discriminate|discriminate|].
    destruct (common q) as [[c| |]|]; cbn [obind] in H; try discriminate. destruct (parse_pins pins m); cbn [obind] in H; try discriminate. injection H as <-. cbn [bp_supported] in Hi.
    apply in_map_iff in Hi. destruct Hi as ([id' v']&Ea&_). unfold attach in Ea. cbn [fst snd] in Ea. injection Ea as -> -> <-.
    unfold first_segment. pose proof (first_found _ _ id Hf) as F. destruct (segments_by_id id (bm_segments m)) as [|p r].
    - split; [|reflexivity]. intros h s (pre&post&Es&H1&H2&H3&_). exfalso. apply H3. apply (F s); [rewrite Es, in_app_iff; right; now left|exact H1|exact H2].
    - destruct F as (h&s&f&Fr&Fk&Fp). assert (Hh : extract_header s = Ok h) by (destruct Fr as (?&?&?&?&_); assumption).
      rewrite (known_version id _ f s p h K Fk Fp Hh eq_refl). split.
      + intros h' s' Fr'. destruct (first_readable_det _ _ _ _ _ _ Fr Fr') as (<-&<-). destruct (Z.eqb_spec (sh_version h) v) as [<-|]; [|reflexivity]. eauto.
      + intros Hn. destruct (Hn h s Fr).
  Qed.
End Params.
Print Assumptions C80_parameters.
Print Assumptions C80_attached.

(** ** The library's readers *)
Section Library.
  Context {F : Type} (parse_float : bytes -> option F) (neg : F -> F).
  (** The readers of go-hbci; a segment keeps the version of its header. *)
  Definition library (id : bytes) (v : Z) : option (bytes -> outcome (Z * oseg (account_information F))) :=
    match others parse_float neg id v with
    | Some f => Some (fun s => do q <- f s; do h <- extract_header s; Ok (sh_version h, q))
    | None => None
    end.
  Lemma library_keeps : keeps_header library fst.
  Proof.
    intros id v read s q h H1 H2 H3. unfold library in H1. destruct (others parse_float neg id v) as [f|]; [|discriminate]. injection H1 as <-.
    destruct (f s); cbn [obind] in H2; try discriminate. rewrite H3 in H2. cbn [obind] in H2. injection H2 as <-. reflexivity.
  Qed.
  (** go-hbci reads each segment that offers a job in one version only. *)
  Lemma one_version id v v' : (5 < List.length id)%nat -> library id v <> None -> library id v' <> None -> v = v'.
  Proof.
    intros L H H'. unfold library, others in H, H'. cbv zeta in H, H'.
    repeat match type of H with context [if bytes_eqb id ?b then _ else _] => destruct (bytes_eqb_spec id b) as [->|] end;
      try (vm_compute in L; exfalso; lia); try (now destruct H).
    all: repeat match goal with K : context [if ?a =? ?b then _ else _] |- _ => destruct (Z.eqb_spec a b) end; try (now destruct H); try (now destruct H'); congruence.
  Qed.
  Lemma known_library id v : (5 < List.length id)%nat -> known library id v <> None <-> library id v <> None.
  Proof.
    intros L. unfold known. destruct (bytes_eqb_spec id (B "HIRMG")) as [->|]; [vm_compute in L; lia|]. destruct (bytes_eqb_spec id (B "HIRMS")) as [->|]; [vm_compute in L; lia|].
    destruct (library id v); split; congruence.
  Qed.
  Lemma offered_in segs l id v : offered segs l -> In (id, v) l -> (5 < List.length id)%nat /\ exists s h, In s segs /\ extract_header s = Ok h /\ sh_id h = id /\ sh_version h = v.
  Proof.
    induction 1 as [|s h segs l H1 H2 H3 IH|s h segs l H1 H2 H3 IH]; [intros []| |].
    - intros [E|Hi]; [injection E as <- <-; split; [exact H2|]; exists s, h; repeat split; [now left|exact H1]|].
      destruct (IH Hi) as (L&s'&h'&Hs&R). split; [exact L|]. exists s', h'. split; [now right|exact R].
    - intros Hi. destruct (IH Hi) as (L&s'&h'&Hs&R). split; [exact L|]. exists s', h'. split; [now right|exact R].
  Qed.
  (** Every supported segment that go-hbci can read has its own parameters, and no other has. *)
  Theorem C80_library : forall (Common : Type) (common : Z * oseg (account_information F) -> option (outcome Common)) pins m old new id v o,
    found library (bm_raw m) (bm_segments m) -> parse_params fst common pins m old = Ok new ->
    segments_by_id (B "HIBPA") (bm_segments m) <> [] -> In ((id, v), o) (bp_supported new) ->
    match library id v with
    | None => o = None
    | Some read => exists s h p, In s (bm_raw m) /\ extract_header s = Ok h /\ sh_id h = id /\ sh_version h = v /\ read s = Ok p /\ o = Some (POther p)
    end.
  Proof.
    intros Common common pins m old new id v o Hf H Hb Hi.
    destruct (C80_attached library fst common pins m old new id v o library_keeps Hf H Hb Hi) as (A1&A2).
    destruct (segments_by_id (B "HIBPA") (bm_segments m)) as [|b r] eqn:Eb; [now destruct Hb|].
    destruct (C80_parameters library fst common pins m old new Hf H) as (_&P). destruct (P b r Eb) as (_&Off&_).
    destruct (offered_in _ _ id v Off) as (L&s0&h0&I0&E0&Ei&Ev); [apply in_map_iff; exists ((id, v), o); auto|].
    pose proof (first_found library (bm_raw m) (bm_segments m) id Hf) as FF.
    destruct (segments_by_id id (bm_segments m)) as [|p0 r0].
    - assert (K : known library id v = None) by (rewrite <- Ev; apply (FF s0 I0 h0 E0 Ei)).
      assert (library id v = None) as ->.
      { destruct (library id v) eqn:El; [|reflexivity]. exfalso. apply (proj2 (known_library id v L)); congruence. }
      apply A2. intros h s (pre&post&Es&H1&H2&H3&_). apply H3. apply (FF s); [rewrite Es, in_app_iff; right; now left|exact H1|exact H2].
    - destruct FF as (h&s&f&Fr&Fk&Fp). specialize (A1 h s Fr). pose proof Fr as (pre&post&Es&H1&H2&H3&_). apply (known_library id _ L) in H3.
      destruct (library id v) as [read|] eqn:El.
      + assert (sh_version h = v) as Ehv by (apply (one_version id _ _ L H3); congruence). rewrite Ehv, Z.eqb_refl in A1.
        destruct A1 as (g&p&Kg&Gp&->). unfold known in Kg. destruct (bytes_eqb_spec id (B "HIRMG")) as [->|]; [vm_compute in L; lia|].
        destruct (bytes_eqb_spec id (B "HIRMS")) as [->|]; [vm_compute in L; lia|]. rewrite El in Kg. injection Kg as <-.
        destruct (read s) as [q| |] eqn:Er; cbn in Gp; try discriminate. injection Gp as <-.
        exists s, h, q. repeat split; try assumption. rewrite Es, in_app_iff. right. now left.
      + destruct (Z.eqb_spec (sh_version h) v) as [E|]; [|exact A1]. rewrite E in H3. congruence.
  Qed.
End Library.
Print Assumptions C80_library.

(** ** A bank that offers balances in two versions *)
Definition ex_common : bytes := B "HIBPA:2:3:4+1'".
Definition ex_pins : bytes := B "HIPINS:3:1:4+1'".
Definition ex_sal (v : Z) : bytes := if v =? 5 then B "HISALS:4:5:4+1'" else B "HISALS:5:6:4+1'".
Definition ex_read (id : bytes) (v : Z) : option (bytes -> outcome bytes) :=
  if bytes_eqb id (B "HIUNK") then None else Some (fun s => do h <- extract_header s; Ok s).
Definition ex_version (p : bytes) : Z := match extract_header p with Ok h => sh_version h | _ => 0 end.
Definition ex_msg (raw : list bytes) : bank_message bytes :=
  mkBM (new_msg_header 0 300 (B "0") 1) [] (map (fun s => (match extract_header s with Ok h => sh_id h | _ => [] end, POther s)) raw) raw.
Definition ex_get (p : bytes) : option (outcome unit) := if has_prefix (B "HIBPA") p then Some (Ok tt) else None.
Definition ex_jobs (p : bytes) : option (outcome (list (bytes * bool))) :=
  if has_prefix (B "HIPINS") p then Some (Ok [(B "HKSAL", false); (B "HKCCS", true)]) else None.
Lemma ex_keeps : keeps_header ex_read ex_version.
Proof.
  intros id v read s q h H1 H2 H3. unfold ex_read in H1. destruct (bytes_eqb id (B "HIUNK")); [discriminate|]. injection H1 as <-.
  rewrite H3 in H2. cbn in H2. injection H2 as <-. unfold ex_version. now rewrite H3.
Qed.
Lemma ex_found segs : (forall s, In s segs -> exists h, extract_header s = Ok h /\ sh_id h <> B "HIRMG" /\ sh_id h <> B "HIRMS" /\ sh_id h <> B "HIUNK") ->
  found ex_read (bm_raw (ex_msg segs)) (bm_segments (ex_msg segs)).
Proof.
  cbn [ex_msg bm_raw bm_segments]. induction segs as [|s segs IH]; intros H; [constructor|]. destruct (H s (or_introl eq_refl)) as (h&Hh&N1&N2&N3).
  cbn [map]. rewrite Hh. eapply (found_known ex_read s h (fun s => omap POther (do h <- extract_header s; Ok s))); [exact Hh| | |].
  - unfold known, ex_read. destruct (bytes_eqb_spec (sh_id h) (B "HIRMG")); [contradiction|]. destruct (bytes_eqb_spec (sh_id h) (B "HIRMS")); [contradiction|].
    destruct (bytes_eqb_spec (sh_id h) (B "HIUNK")); [contradiction|]. reflexivity.
  - rewrite Hh. reflexivity.
  - apply IH. intros t Ht. apply H. now right.
Qed.
(** Both versions are offered and readable, and only the first has its parameters. *)
Theorem C80_second_version_refuted : exists new,
  found ex_read [ex_common; ex_pins; ex_sal 5; ex_sal 6] (bm_segments (ex_msg [ex_common; ex_pins; ex_sal 5; ex_sal 6])) /\
  keeps_header ex_read ex_version /\
  parse_params ex_version ex_get ex_jobs (ex_msg [ex_common; ex_pins; ex_sal 5; ex_sal 6]) (mkParams tt None []) = Ok new /\
  bp_supported new = [((B "HIPINS", 1), Some (POther ex_pins)); ((B "HISALS", 5), Some (POther (ex_sal 5))); ((B "HISALS", 6), None)] /\
  bp_pins new = Some [(B "HKSAL", false); (B "HKCCS", true)] /\
  ex_read (B "HISALS") 6 <> None.
Proof.
  eexists. split; [|split; [exact ex_keeps|split; [vm_compute; reflexivity|split; [|split; [|discriminate]]]]].
  - apply (ex_found [ex_common; ex_pins; ex_sal 5; ex_sal 6]). intros s [<-|[<-|[<-|[<-|[]]]]].
    + exists (mkSH (B "HIBPA") 2 3 (Some 4)). split; [vm_compute; reflexivity|repeat split; discriminate].
    + exists (mkSH (B "HIPINS") 3 1 (Some 4)). split; [vm_compute; reflexivity|repeat split; discriminate].
    + exists (mkSH (B "HISALS") 4 5 (Some 4)). split; [vm_compute; reflexivity|repeat split; discriminate].
    + exists (mkSH (B "HISALS") 5 6 (Some 4)). split; [vm_compute; reflexivity|repeat split; discriminate].
  - vm_compute; reflexivity.
  - vm_compute; reflexivity.
Qed.
Print Assumptions C80_second_version_refuted.
(** A later message with common parameters but without HIPINS drops the jobs. *)
Theorem C80_dropped_refuted : exists old new,
  found ex_read [ex_common; ex_sal 5] (bm_segments (ex_msg [ex_common; ex_sal 5])) /\
  bp_pins old = Some [(B "HKSAL", false)] /\
  parse_params ex_version ex_get ex_jobs (ex_msg [ex_common; ex_sal 5]) old = Ok new /\ bp_pins new = None.
Proof.
  exists (mkParams tt (Some [(B "HKSAL", false)]) []). eexists. split; [|split; [reflexivity|split; [vm_compute; reflexivity|reflexivity]]].
  apply (ex_found [ex_common; ex_sal 5]). intros s [<-|[<-|[]]].
  - exists (mkSH (B "HIBPA") 2 3 (Some 4)). split; [vm_compute; reflexivity|repeat split; discriminate].
  - exists (mkSH (B "HISALS") 4 5 (Some 4)). split; [vm_compute; reflexivity|repeat split; discriminate].
Qed.
Print Assumptions C80_dropped_refuted.
Example C80_agree_meets : (forall c, In (B "HKCCS", c) [(B "HKSAL", false); (B "HKCCS", true)] -> c = true) /\
  needs_tan (B "HKCCS") [(B "HKSAL", false); (B "HKCCS", true)] = (true, true) /\ needs_tan (B "HKXXX") [(B "HKSAL", false); (B "HKCCS", true)] = (false, false).
Proof. split; [|split; reflexivity]. intros c [H|[H|[]]]; [discriminate|congruence]. Qed.
(** A message go-hbci reads: the segment HITANS of version 5 has no reader, HIPINS has its
    parameters. *)
Definition lib_read (id : bytes) (v : Z) (s : bytes) : outcome (Z * oseg (account_information Z)) :=
  match library (fun _ => None) Z.opp id v with Some f => f s | None => Err end.
Lemma lib_found s h q segs l : extract_header s = Ok h -> bytes_eqb (sh_id h) (B "HIRMG") = false -> bytes_eqb (sh_id h) (B "HIRMS") = false ->
  lib_read (sh_id h) (sh_version h) s = Ok q -> found (library (fun _ => None) Z.opp) segs l -> found (library (fun _ => None) Z.opp) (s :: segs) ((sh_id h, POther q) :: l).
Proof.
  intros H1 H2 H3 H4 H5. unfold lib_read in H4. destruct (library (fun _ => None) Z.opp (sh_id h) (sh_version h)) as [f|] eqn:E; [|discriminate].
  apply (found_known _ s h (fun s => omap POther (f s))); [exact H1| |rewrite H4; reflexivity|exact H5]. unfold known. rewrite H2, H3, E. reflexivity.
Qed.
Definition lib_raw : list bytes := [B "HIBPA:5:3:4+11+280:37040044+Bank+3+1:2+220:300+500++300'"; B "HITANS:6:5:4+x'"; B "HIPINS:9:1:4+1+1+0+5:20:6:VR-NetKey::HKSAL:N:HKUEB:J'"].
Definition lib_msg : bank_message (Z * oseg (account_information Z)) :=
  mkBM (new_msg_header 0 300 (B "0") 1) [] [(B "HIBPA", POther (3, OBpd (Ok 11))); (B "HIPINS", POther (1, OPins (Ok tt)))] lib_raw.
Definition lib_common (p : Z * oseg (account_information Z)) : option (outcome Z) := match snd p with OBpd v => Some v | _ => None end.
Example C80_library_meets : found (library (fun _ => None) Z.opp) (bm_raw lib_msg) (bm_segments lib_msg) /\
  segments_by_id (B "HIBPA") (bm_segments lib_msg) <> [] /\
  parse_params fst lib_common (fun _ => Some (Ok [(B "HKSAL", false); (B "HKUEB", true)])) lib_msg (mkParams 0 None []) =
    Ok (mkParams 11 (Some [(B "HKSAL", false); (B "HKUEB", true)]) [((B "HITANS", 5), None); ((B "HIPINS", 1), Some (POther (1, OPins (Ok tt))))]).
Proof.
  split; [|split; [discriminate|vm_compute; reflexivity]]. unfold lib_msg, lib_raw. cbn [bm_raw bm_segments].
  apply (lib_found _ (mkSH (B "HIBPA") 5 3 (Some 4))); [vm_compute; reflexivity|reflexivity|reflexivity|vm_compute; reflexivity|].
  apply (found_unknown _ _ (mkSH (B "HITANS") 6 5 (Some 4))); [vm_compute; reflexivity|vm_compute; reflexivity|].
  apply (lib_found _ (mkSH (B "HIPINS") 9 1 (Some 4))); [vm_compute; reflexivity|reflexivity|reflexivity|vm_compute; reflexivity|constructor].
Qed.
