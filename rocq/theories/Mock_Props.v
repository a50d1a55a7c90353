(** * C78: the scripted HTTP transport plays its payloads in order *)
From Coq Require Import Lia ZifyBool ZifyNat.
From Verif Require Import Base BaseFacts Codec_Model Message_Proofs Transport_Model Transport_Spec Transport_Proofs Transport_Props Mock_Model Mock_Spec.
Open Scope Z_scope.

Lemma f2_length {A B} (P : A -> B -> Prop) l1 l2 : Forall2 P l1 l2 -> List.length l1 = List.length l2.
Proof. induction 1; cbn; congruence. Qed.
Lemma f2_impl {A B} (P Q : A -> B -> Prop) l1 l2 : (forall a b, P a b -> Q a b) -> Forall2 P l1 l2 -> Forall2 Q l1 l2.
Proof. induction 2; constructor; auto. Qed.

Section Mock.
  Context {R : Type}.
  Variable body_of : R -> option bytes.
  Notation mock := (@mock R).
  Notation op := (@op R).
  Notation play := (play body_of).
  Notation step := (step body_of).
  Notation send := (send body_of).

  Lemma play_app h1 h2 (m : mock) : play (h1 ++ h2) m = (do x <- play h1 m; do y <- play h2 (fst x); Ok (fst y, snd x ++ snd y)).
  Proof.
    revert m. induction h1 as [|o h1 IH]; intros m; cbn [app Mock_Model.play obind fst snd].
    - destruct (play h2 m) as [[m' l]| |]; reflexivity.
    - destruct (step o m) as [x| |]; cbn [obind]; try reflexivity. rewrite IH. destruct (play h1 (fst x)) as [y| |]; cbn [obind]; try reflexivity.
      cbn [fst snd]. destruct (play h2 (fst y)) as [z| |]; reflexivity.
  Qed.
  Lemma since_snoc (kind : op -> bool) h o : since kind (h ++ [o]) = if kind o then [] else since kind h ++ [o].
  Proof.
    induction h as [|x h IH]; cbn [app since existsb].
    - destruct (kind o); reflexivity.
    - rewrite existsb_app. cbn [existsb]. rewrite orb_false_r. destruct (kind o) eqn:E.
      + rewrite !orb_true_r. exact IH.
      + rewrite orb_false_r. destruct (kind x || existsb kind h); [exact IH|reflexivity].
  Qed.
  Lemma sent_snoc (h : list op) o : sent (h ++ [o]) = sent h ++ match o with Send r => [r] | _ => [] end.
  Proof. unfold sent. rewrite flat_map_app. cbn. now rewrite app_nil_r. Qed.

  (** Either nothing has been done with the transport, or its slices are there. *)
  Definition ready (m : mock) : Prop := exists rq rs es, mk_requests m = Some rq /\ mk_responses m = Some rs /\ mk_errors m = Some es /\
    List.length rs = List.length es /\ (mk_count m <= List.length rs)%nat.
  Definition unused (m : mock) : Prop := mk_requests m = None /\ mk_responses m = None /\ mk_errors m = None /\ mk_count m = O.
  Lemma send_unused r m : unused m -> send r m = Panic.
  Proof. intros (H1&H2&H3&H4). unfold Mock_Model.send, adapt. rewrite H1, H2, H3, H4. reflexivity. Qed.
  (** One request: it is answered by the next entry. *)
  Lemma send_ready r m : ready m -> exists rq rs es, mk_requests m = Some rq /\ mk_responses m = Some rs /\ mk_errors m = Some es /\
    List.length rs = List.length es /\ (mk_count m <= List.length rs)%nat /\
    match nth_error rs (mk_count m), nth_error es (mk_count m) with
    | Some x, Some e => send r m = Ok (mkMock (Some (rq ++ [Some r])) (Some rs) (Some es) (S (mk_count m)) (mk_bodies m), Response x e)
    | _, _ => mk_count m = List.length rs /\
        send r m = match body_of r with
                   | Some b => Ok (mkMock (Some (rq ++ [Some r])) (Some (rs ++ [None])) (Some (es ++ [Some (r, b)])) (S (mk_count m)) (mk_bodies m),
                                   Response None (Some (r, b)))
                   | None => Panic
                   end
    end.
  Proof.
    intros (rq&rs&es&H1&H2&H3&H4&H5). exists rq, rs, es. do 5 (split; [assumption|]).
    unfold Mock_Model.send, adapt. rewrite H1, H2, H3. cbn [elems].
    destruct (nth_error rs (mk_count m)) as [x|] eqn:E1; [destruct (nth_error es (mk_count m)) as [e|] eqn:E2|].
    - assert ((mk_count m < List.length rs)%nat) by (apply nth_error_Some; congruence).
      destruct (Nat.leb_spec (List.length rs) (mk_count m)); [lia|]. destruct (Nat.leb_spec (List.length es) (mk_count m)); [lia|].
      cbn [obind mk_responses mk_errors mk_count mk_requests mk_bodies elems]. rewrite E1. cbn [must obind]. rewrite E2. reflexivity.
    - exfalso. assert ((mk_count m < List.length rs)%nat) by (apply nth_error_Some; congruence). apply nth_error_None in E2. lia.
    - apply nth_error_None in E1. assert (E : mk_count m = List.length rs) by lia. split; [exact E|]. rewrite <- H4, E, Nat.leb_refl.
      destruct (body_of r) as [b|]; [|reflexivity].
      cbn [must obind mk_responses mk_errors mk_count mk_requests mk_bodies elems].
      rewrite nth_error_app2, Nat.sub_diag by lia. cbn [nth_error must obind].
      rewrite H4, nth_error_app2, Nat.sub_diag by lia. reflexivity.
  Qed.
  Definition healthy (m : mock) : Prop := ready m \/ unused m.
  Lemma healthy_step o m m' a : healthy m -> step o m = Ok (m', a) -> healthy m'.
  Proof.
    intros H E. destruct o; cbn [Mock_Model.step] in E.
    - destruct H as [H|H]; [|rewrite send_unused in E by exact H; discriminate].
      destruct (send_ready r m H) as (rq&rs&es&H1&H2&H3&H4&H5&K). left.
      destruct (nth_error rs (mk_count m)) as [x|] eqn:E1; [destruct (nth_error es (mk_count m)) as [e|] eqn:E2|].
      + rewrite K in E. injection E as <- <-. exists (rq ++ [Some r]), rs, es. cbn. repeat split; try assumption. apply nth_error_Some. congruence.
      + destruct K as (K0&K). apply nth_error_None in E2. assert ((mk_count m < List.length rs)%nat) by (apply nth_error_Some; congruence). lia.
      + destruct K as (K0&K). rewrite K in E. destruct (body_of r) as [b|]; [|discriminate]. injection E as <- <-.
        exists (rq ++ [Some r]), (rs ++ [None]), (es ++ [Some (r, b)]). cbn. rewrite !app_length. cbn. repeat split; lia.
    - injection E as <- <-. left. unfold set_payload, init. cbn. eexists _, _, _. cbn. do 3 (split; [reflexivity|]). rewrite !app_length. cbn.
      destruct H as [(rq&rs&es&H1&H2&H3&H4&H5)|(H1&H2&H3&H4)]; rewrite H2, H3; cbn; lia.
    - injection E as <- <-. left. unfold set_payloads, init. cbn. eexists _, _, _. cbn. do 3 (split; [reflexivity|]).
      rewrite repeat_length. split; [|lia]. generalize (List.length (mk_bodies m)). induction ps as [|p ps IH]; intros n; cbn; [reflexivity|]. now rewrite IH.
    - injection E as <- <-. exact H.
    - destruct (at_index _ i); cbn in E; try discriminate. injection E as <- <-. exact H.
    - injection E as <- <-. exact H.
    - destruct (at_index _ i); cbn in E; try discriminate. injection E as <- <-. exact H.
    - injection E as <- <-. exact H.
    - injection E as <- <-. left. exists [], [], []. cbn. repeat split; lia.
    - injection E as <- <-. exact H.
  Qed.
  Lemma healthy_play h : forall m m' l, healthy m -> play h m = Ok (m', l) -> healthy m'.
  Proof.
    induction h as [|o h IH]; intros m m' l H E; cbn [Mock_Model.play] in E; [injection E as <- _; exact H|].
    destruct (step o m) as [[m1 a]| |] eqn:E1; cbn [obind fst snd] in E; try discriminate.
    destruct (play h m1) as [[m2 l2]| |] eqn:E2; cbn [obind fst snd] in E; try discriminate. injection E as <- _.
    eapply IH; [|exact E2]. eapply healthy_step; eassumption.
  Qed.
  Lemma healthy_new : healthy new_mock.
  Proof. right. repeat split. Qed.

  (** ** What is recorded *)
  Lemma recorded h : forall m l, play h new_mock = Ok (m, l) ->
    elems (mk_requests m) = map Some (sent (since resets h)) /\ mk_count m = List.length (sent (since rewinds h)).
  Proof.
    induction h as [|o h IH] using rev_ind; intros m l E; [injection E as <- _; split; reflexivity|].
    rewrite play_app in E. destruct (play h new_mock) as [[m0 l0]| |] eqn:E0; cbn [obind] in E; try discriminate.
    destruct (IH _ _ eq_refl) as (I1&I2). pose proof (healthy_play h _ _ _ healthy_new E0) as H0. cbn [Mock_Model.play fst snd] in E.
    destruct (step o m0) as [[m1 a]| |] eqn:E1; cbn [obind fst snd] in E; try discriminate. injection E as <- _. clear IH E0.
    rewrite !since_snoc.
    destruct o; cbn [Mock_Model.step] in E1; cbn [resets rewinds]; rewrite ?sent_snoc, ?app_nil_r.
    - rewrite map_app, app_length. cbn [map List.length].
      destruct H0 as [H|H]; [|rewrite send_unused in E1 by exact H; discriminate].
      destruct (send_ready r m0 H) as (rq&rs&es&H1&H2&H3&H4&H5&K). rewrite H1 in I1. cbn [elems] in I1.
      destruct (nth_error rs (mk_count m0)); [destruct (nth_error es (mk_count m0))|]; [|destruct K as (_&K)|destruct K as (_&K)]; rewrite K in E1;
        try (destruct (body_of r); [|discriminate]); injection E1 as <- _; cbn [mk_requests mk_count elems]; rewrite I1, I2; split; try reflexivity; lia.
    - injection E1 as <- _. cbn [set_payload init mk_requests mk_count elems]. split; [exact I1|reflexivity].
    - injection E1 as <- _. cbn [set_payloads init mk_requests mk_count elems]. split; [exact I1|reflexivity].
    - injection E1 as <- _. auto.
    - destruct (at_index _ i); cbn in E1; try discriminate. injection E1 as <- _. auto.
    - injection E1 as <- _. auto.
    - destruct (at_index _ i); cbn in E1; try discriminate. injection E1 as <- _. auto.
    - injection E1 as <- _. auto.
    - injection E1 as <- _. split; reflexivity.
    - injection E1 as <- _. auto.
  Qed.
  (** Requests are all requests since the last Reset, in order; CallCount is the number
      of those since the last Reset or registration. *)
  Theorem C78_recorded : forall h m l, play h new_mock = Ok (m, l) ->
    step Requests m = Ok (m, TheRequests (map Some (sent (since resets h)))) /\
    step CallCount m = Ok (m, Count (Z.of_nat (List.length (sent (since rewinds h))))).
  Proof. intros h m l E. destruct (recorded h m l E) as (H1&H2). cbn [Mock_Model.step]. now rewrite H1, H2. Qed.
  (** Request gives the request of an index, but crashes for the one after the last,
      where nil is promised, and for negative ones; the same for Error. *)
  Theorem C78_request : forall h m l i, play h new_mock = Ok (m, l) -> let rs := sent (since resets h) in
    (0 <= i < zlen rs -> exists r, nth_error rs (Z.to_nat i) = Some r /\ step (Request i) m = Ok (m, TheRequest (Some r))) /\
    (zlen rs < i -> step (Request i) m = Ok (m, TheRequest None)) /\
    (i < 0 \/ i = zlen rs -> step (Request i) m = Panic).
  Proof.
    intros h m l i E rs. destruct (recorded h m l E) as (H1&_). fold rs in H1. cbn [Mock_Model.step]. unfold at_index. rewrite H1. unfold zlen in *.
    rewrite map_length. split; [|split].
    - intros H. destruct (Z.ltb_spec (Z.of_nat (List.length rs)) i); [lia|]. destruct (Z.ltb_spec i 0); [lia|].
      destruct (nth_error rs (Z.to_nat i)) as [r|] eqn:En; [|apply nth_error_None in En; lia]. exists r. split; [reflexivity|].
      erewrite map_nth_error by exact En. reflexivity.
    - intros H. destruct (Z.ltb_spec (Z.of_nat (List.length rs)) i); [reflexivity|lia].
    - intros H. destruct (Z.ltb_spec (Z.of_nat (List.length rs)) i); [lia|].
      destruct (Z.ltb_spec i 0); [reflexivity|]. assert (i = Z.of_nat (List.length rs)) as -> by lia.
      { rewrite Nat2Z.id. destruct (nth_error (map Some rs) (List.length rs)) eqn:En; [|reflexivity].
        assert (X : (List.length rs < List.length (map Some rs))%nat) by (apply nth_error_Some; congruence). rewrite map_length in X. lia. }
  Qed.
  Theorem C78_nil_promised_refuted : forall h m l, play h new_mock = Ok (m, l) ->
    step (Request (zlen (sent (since resets h)))) m = Panic.
  Proof. intros h m l E. apply (C78_request h m l _ E). now right. Qed.

  (** ** What is played *)

  (** The payloads [ps] are registered, the first [mk_count] of them used. *)
  Definition loaded (m : mock) (ps : list bytes) : Prop :=
    exists rq rs, mk_requests m = Some rq /\ mk_responses m = Some rs /\ mk_errors m = Some (repeat None (List.length ps)) /\
      Forall2 (fun x p => exists y, x = Some y /\ left_of m y = rfc4648 p /\ rs_length y = zlen p) rs ps.
  Lemma responses_left (m : mock) ps pre : (forall p k, nth_error ps k = Some p -> nth (pre + k) (mk_bodies m) [] = b64_encode p) ->
    Forall2 (fun x p => exists y, x = Some y /\ left_of m y = rfc4648 p /\ rs_length y = zlen p) (responses_for pre ps) ps.
  Proof.
    revert pre. induction ps as [|p ps IH]; intros pre H; cbn [responses_for]; constructor.
    - exists (mkResponse pre (zlen p)). split; [reflexivity|]. split; [|reflexivity]. unfold left_of. cbn [rs_body].
      rewrite <- encode_rfc, <- (H p O eq_refl). f_equal. lia.
    - apply IH. intros q k Hk. rewrite <- (H q (S k) Hk). f_equal. lia.
  Qed.
  Lemma loaded_payloads ps m : loaded (set_payloads ps m) ps.
  Proof.
    unfold set_payloads, loaded, init. cbn [mk_requests mk_responses mk_errors mk_bodies elems]. eexists _, _. do 3 (split; [reflexivity|]).
    apply responses_left. cbn [mk_bodies]. intros p k Hk. rewrite app_nth2 by lia.
    replace (List.length (mk_bodies m) + k - List.length (mk_bodies m))%nat with k by lia.
    apply nth_error_nth. now apply map_nth_error.
  Qed.
  Lemma loaded_payload ps p m m' a : loaded m ps -> (forall y, In (Some y) (elems (mk_responses m)) -> (rs_body y < List.length (mk_bodies m))%nat) ->
    set_payload p m = (m', a) -> loaded m' (ps ++ [p]) /\ a = Index (zlen ps) /\ mk_count m' = O /\
    (forall y, In (Some y) (elems (mk_responses m')) -> (rs_body y < List.length (mk_bodies m'))%nat).
  Proof.
    intros (rq&rs&H1&H2&H3&H4) Hb E. unfold set_payload, init in E. cbn in E. rewrite H1, H2, H3 in E. cbn [elems] in E. rewrite H2 in Hb. cbn [elems] in Hb.
    assert (Hl : List.length rs = List.length ps) by (eapply f2_length; exact H4).
    injection E as <- <-. cbn [mk_count]. split; [|split; [|split; [reflexivity|]]].
    - exists rq, (rs ++ [Some (mkResponse (List.length (mk_bodies m)) (zlen p))]). cbn [mk_requests mk_responses mk_errors].
      do 2 (split; [reflexivity|]). split; [rewrite app_length, repeat_app; reflexivity|]. apply Forall2_app.
      + assert (G : Forall2 (fun x q => In x rs /\ exists y, x = Some y /\ left_of m y = rfc4648 q /\ rs_length y = zlen q) rs ps).
        { clear - H4. assert (G : forall l, (forall x, In x rs -> In x l) -> Forall2 (fun x q => In x l /\ exists y, x = Some y /\ left_of m y = rfc4648 q /\ rs_length y = zlen q) rs ps).
          { induction H4 as [|x q rs ps Hx H4 IH]; intros l I; constructor; [split; [apply I; now left|exact Hx]|]. apply IH. intros z Hz. apply I. now right. }
          apply G. auto. }
        eapply f2_impl; [|exact G]. intros x q (Hi&y&->&Hy&Hz). exists y. split; [reflexivity|]. split; [|exact Hz].
        unfold left_of in *. cbn [mk_bodies]. rewrite app_nth1; [exact Hy|]. now apply Hb.
      + constructor; [|constructor]. eexists. split; [reflexivity|]. split; [|reflexivity]. unfold left_of. cbn [rs_body mk_bodies].
        rewrite app_nth2, Nat.sub_diag by lia. cbn. now rewrite encode_rfc.
    - f_equal. unfold zlen. rewrite app_length, Hl. cbn. lia.
    - cbn [mk_responses elems mk_bodies]. intros y Hy. rewrite app_length. cbn. apply in_app_or in Hy. destruct Hy as [Hy|[Hy|[]]].
      + specialize (Hb y Hy). lia.
      + injection Hy as <-. cbn. lia.
  Qed.

  (** What is left to play: the payloads [ps]. *)
  Definition rest (m : mock) (ps : list bytes) : Prop :=
    exists rq rs1 rs2 es, mk_requests m = Some rq /\ mk_responses m = Some (rs1 ++ rs2) /\ mk_errors m = Some (es ++ repeat None (List.length ps)) /\
      mk_count m = List.length rs1 /\ List.length es = List.length rs1 /\
      Forall2 (fun x p => exists y, x = Some y /\ left_of m y = rfc4648 p /\ rs_length y = zlen p) rs2 ps.
  Lemma loaded_rest m ps : loaded m ps -> mk_count m = O -> rest m ps.
  Proof. intros (rq&rs&H1&H2&H3&H4) H. exists rq, [], rs, []. cbn [app List.length]. repeat split; assumption. Qed.
  Lemma left_bodies (m m' : mock) y : mk_bodies m = mk_bodies m' -> left_of m y = left_of m' y.
  Proof. intros H. unfold left_of. now rewrite H. Qed.
  Lemma rest_send r m p ps : rest m (p :: ps) -> exists m' y, send r m = Ok (m', Response (Some y) None) /\ left_of m y = rfc4648 p /\ rs_length y = zlen p /\
    mk_bodies m' = mk_bodies m /\ rest m' ps.
  Proof.
    intros (rq&rs1&rs2&es&H1&H2&H3&H4&H5&H6). inversion H6 as [|x q rs ps' (y&->&Hy&Hz) H7]; subst.
    assert (Hr : ready m).
    { exists rq, (rs1 ++ Some y :: rs), (es ++ repeat None (S (List.length ps))). split; [exact H1|]. split; [exact H2|]. split; [exact H3|].
      rewrite !app_length, repeat_length. apply f2_length in H7. cbn. split; lia. }
    destruct (send_ready r m Hr) as (rq'&rs'&es'&E1&E2&E3&E4&E5&K). rewrite E1 in H1. rewrite E2 in H2. rewrite E3 in H3.
    injection H1 as ->. injection H2 as ->. injection H3 as ->.
    assert (N1 : nth_error (rs1 ++ Some y :: rs) (mk_count m) = Some (Some y)) by (rewrite H4, nth_error_app2, Nat.sub_diag by lia; reflexivity).
    assert (N2 : nth_error (es ++ repeat None (S (List.length ps))) (mk_count m) = Some None) by (rewrite H4, <- H5, nth_error_app2, Nat.sub_diag by lia; reflexivity).
    cbn [List.length] in K. rewrite N1 in K. cbn [repeat] in N2. rewrite N2 in K.
    eexists _, y. split; [exact K|]. split; [exact Hy|]. split; [exact Hz|]. split; [reflexivity|].
    exists (rq ++ [Some r]), (rs1 ++ [Some y]), rs, (es ++ [None]). cbn [mk_requests mk_responses mk_errors mk_count]. rewrite <- !app_assoc, !app_length. cbn [app List.length].
    do 3 (split; [reflexivity|]). split; [lia|]. split; [lia|exact H7].
  Qed.
  Lemma rest_none r m : rest m [] -> send r m = match body_of r with None => Panic | Some b => send r m end /\
    (forall b, body_of r = Some b -> exists m', send r m = Ok (m', Response None (Some (r, b))) /\ mk_bodies m' = mk_bodies m /\ rest m' []).
  Proof.
    intros (rq&rs1&rs2&es&H1&H2&H3&H4&H5&H6). inversion H6; subst. rewrite app_nil_r in H2. cbn [repeat List.length] in H3. rewrite app_nil_r in H3.
    assert (Hr : ready m) by (exists rq, rs1, es; repeat split; try assumption; lia).
    destruct (send_ready r m Hr) as (rq'&rs'&es'&E1&E2&E3&E4&E5&K). rewrite E1 in H1. rewrite E2 in H2. rewrite E3 in H3.
    injection H1 as ->. injection H2 as ->. injection H3 as ->. 
    assert (En : nth_error rs1 (mk_count m) = None) by (apply nth_error_None; lia). rewrite En in K. destruct K as (_&K).
    split; [rewrite K; destruct (body_of r); reflexivity|]. intros b Hb. rewrite Hb in K. eexists. split; [exact K|]. split; [reflexivity|].
    exists (rq ++ [Some r]), (rs1 ++ [None]), [], (es ++ [Some (r, b)]). cbn [mk_requests mk_responses mk_errors mk_count List.length repeat]. rewrite !app_nil_r, !app_length. cbn.
    do 3 (split; [reflexivity|]). split; [lia|]. split; [lia|constructor].
  Qed.
  Lemma rest_plays rs : forall m m0 ps, rest m ps -> mk_bodies m = mk_bodies m0 ->
    (Forall (fun r => body_of r <> None) (skipn (List.length ps) rs) ->
     exists m' l, play (map Send rs) m = Ok (m', l) /\ plays body_of m0 ps rs l /\ mk_bodies m' = mk_bodies m0 /\ rest m' (skipn (List.length rs) ps)) /\
    (~ Forall (fun r => body_of r <> None) (skipn (List.length ps) rs) -> play (map Send rs) m = Panic).
  Proof.
    induction rs as [|r rs IH]; intros m m0 ps Hm Hb.
    - split; [|intros H; destruct H; rewrite skipn_nil; constructor]. intros _. exists m, []. split; [reflexivity|]. split; [constructor|]. split; [exact Hb|exact Hm].
    - destruct ps as [|p ps]; cbn [map Mock_Model.play Mock_Model.step].
      + destruct (rest_none r m Hm) as (K1&K2). cbn [skipn List.length]. destruct (body_of r) as [b|] eqn:Eb.
        * destruct (K2 b eq_refl) as (m1&E1&B1&R1). rewrite E1. cbn [obind fst snd]. destruct (IH m1 m0 [] R1 ltac:(congruence)) as (I1&I2). cbn [skipn List.length] in I1, I2. split.
          -- intros H. inversion H; subst. destruct (I1 H3) as (m'&l&E&P&B&Q). rewrite E. cbn [obind fst snd]. eexists _, _. split; [reflexivity|].
             split; [constructor; assumption|]. split; [exact B|]. rewrite skipn_nil in Q. exact Q.
          -- intros H. rewrite I2; [reflexivity|]. intros C. apply H. constructor; [congruence|exact C].
        * split; [intros H; inversion H; congruence|]. intros _. rewrite K1. reflexivity.
      + destruct (rest_send r m p ps Hm) as (m1&y&E1&L1&Z1&B1&R1). rewrite E1. cbn [obind fst snd skipn List.length].
        destruct (IH m1 m0 ps R1 ltac:(congruence)) as (I1&I2). split.
        * intros H. destruct (I1 H) as (m'&l&E&P&B&Q). rewrite E. cbn [obind fst snd]. eexists _, _. split; [reflexivity|].
          split; [constructor; [|exact Z1|exact P]|split; [exact B|exact Q]]. rewrite <- L1. symmetry. now apply left_bodies.
        * intros H. rewrite (I2 H). reflexivity.
  Qed.

  Lemma plays_bodies (m m' : mock) : mk_bodies m = mk_bodies m' -> forall ps rs l, plays body_of m ps rs l -> plays body_of m' ps rs l.
  Proof.
    intros H ps rs l P. induction P; constructor; try assumption. rewrite <- (left_bodies m m') by exact H. assumption.
  Qed.
  (** In every state: payloads registered at once are played in order, and the requests
      behind the last of them get an error that shows them. *)
  Theorem C78_plays : forall m ps rs,
    (Forall (fun r => body_of r <> None) (skipn (List.length ps) rs) ->
     exists m' answers, play (SetPayloads ps :: map Send rs) m = Ok (m', Done :: answers) /\ plays body_of m' ps rs answers) /\
    (~ Forall (fun r => body_of r <> None) (skipn (List.length ps) rs) -> play (SetPayloads ps :: map Send rs) m = Panic).
  Proof.
    intros m ps rs. cbn [Mock_Model.play Mock_Model.step obind fst snd].
    destruct (rest_plays rs (set_payloads ps m) (set_payloads ps m) ps (loaded_rest _ _ (loaded_payloads ps m) eq_refl) eq_refl) as (H1&H2). split.
    - intros H. destruct (H1 H) as (m'&a&E&P&B&_). rewrite E. cbn [obind fst snd]. eexists _, _. split; [reflexivity|].
      apply (plays_bodies (set_payloads ps m)); [now symmetry|exact P].
    - intros H. rewrite (H2 H). reflexivity.
  Qed.

  (** The same for payloads registered one by one, which are numbered. *)
  Lemma register_all ps : forall m qs, loaded m qs -> mk_count m = O ->
    (forall y, In (Some y) (elems (mk_responses m)) -> (rs_body y < List.length (mk_bodies m))%nat) ->
    exists m', play (map SetPayload ps) m = Ok (m', map (fun i => Index (Z.of_nat i)) (seq (List.length qs) (List.length ps))) /\
      loaded m' (qs ++ ps) /\ mk_count m' = O.
  Proof.
    induction ps as [|p ps IH]; intros m qs H Hc Hb.
    - exists m. rewrite app_nil_r. auto.
    - cbn [map Mock_Model.play Mock_Model.step obind seq List.length]. destruct (set_payload p m) as [m1 a] eqn:E.
      destruct (loaded_payload qs p m m1 a H Hb E) as (H1&->&Hc1&Hb1). cbn [fst snd].
      destruct (IH m1 (qs ++ [p]) H1 Hc1 Hb1) as (m'&E'&H'&Hc'). rewrite E'. cbn [obind fst snd]. exists m'.
      rewrite app_length in *. cbn [List.length] in *. rewrite Nat.add_1_r in *. rewrite <- app_assoc in H'. auto.
  Qed.
  Theorem C78_registers : forall m ps rs, Forall (fun r => body_of r <> None) (skipn (List.length ps) rs) ->
    exists m' answers, play (Reset :: map SetPayload ps ++ map Send rs) m =
        Ok (m', Done :: map (fun i => Index (Z.of_nat i)) (seq 0 (List.length ps)) ++ answers) /\
      plays body_of m' ps rs answers.
  Proof.
    intros m ps rs H. cbn [Mock_Model.play Mock_Model.step obind fst snd].
    set (m0 := mkMock (Some []) (Some []) (Some []) 0 (mk_bodies m)).
    destruct (register_all ps m0 []) as (m1&E1&L1&C1); [exists [], []; repeat split; constructor|reflexivity|intros y []|].
    destruct (rest_plays rs m1 m1 ps (loaded_rest _ _ L1 C1) eq_refl) as (K&_). destruct (K H) as (m'&a&E&P&B&_).
    rewrite play_app, E1. cbn [obind fst snd]. rewrite E. cbn [obind fst snd]. eexists _, _. split; [reflexivity|].
    apply (plays_bodies m1); [now symmetry|exact P].
  Qed.
  (** A payload that is registered after a response was used rewinds the script: the first
      response comes again, and if its body was read there is nothing left in it. *)
  Theorem C78_register_later_refuted : forall m p q r1 r2, exists x m',
    play [Reset; SetPayload p; Send r1; ReadBody x; SetPayload q; Send r2; ReadBody x] m =
      Ok (m', [Done; Index 0; Response (Some x) None; Body (rfc4648 p); Index 1; Response (Some x) None; Body []]).
  Proof.
    intros m p q r1 r2. exists (mkResponse (List.length (mk_bodies m)) (zlen p)).
    cbn [Mock_Model.play Mock_Model.step obind fst snd set_payload init mk_requests mk_responses mk_errors mk_count mk_bodies elems app List.length
         Mock_Model.send adapt Nat.leb nth_error must rs_body left_of].
    assert (L : forall (A : list bytes) x r, nth (List.length A) (A ++ x :: r) [] = x) by (intros; rewrite app_nth2, Nat.sub_diag by lia; reflexivity).
    assert (Em : forall (A : list bytes) x, emptied (List.length A) (A ++ [x]) = A ++ [[]]) by (induction A as [|y A IH]; intros x; cbn; [reflexivity|now rewrite IH]).
    unfold left_of. cbn [rs_body mk_bodies]. rewrite Em, <- app_assoc. cbn [app]. rewrite !L, !encode_rfc. eexists. reflexivity.
  Qed.
  (** Without a registration or Reset before it, every request crashes. *)
  Theorem C78_unprepared : forall h m l r, play h new_mock = Ok (m, l) ->
    ((exists x, play [Send r] m = x /\ x <> Panic) -> existsb rewinds h = true).
  Proof.
    intros h m l r E (x&Hx&Hn). destruct (existsb rewinds h) eqn:Eh; [reflexivity|]. exfalso. apply Hn. rewrite <- Hx. clear Hx Hn.
    cbn [Mock_Model.play Mock_Model.step]. rewrite send_unused; [reflexivity|].
    revert m l E. induction h as [|o h IH] using rev_ind; intros m l E; [injection E as <- _; repeat split|].
    rewrite existsb_app in Eh. apply orb_false_iff in Eh. destruct Eh as (Eh&Eo). cbn [existsb] in Eo. rewrite orb_false_r in Eo.
    rewrite play_app in E. destruct (play h new_mock) as [[m0 l0]| |] eqn:E0; cbn [obind] in E; try discriminate.
    specialize (IH Eh m0 l0 eq_refl). cbn [Mock_Model.play fst snd] in E.
    destruct o; try discriminate; cbn [Mock_Model.step] in E.
    - rewrite send_unused in E by exact IH. discriminate.
    - injection E as <- _. exact IH.
    - destruct (at_index _ i); cbn in E; try discriminate. injection E as <- _. exact IH.
    - injection E as <- _. exact IH.
    - destruct (at_index _ i); cbn in E; try discriminate. injection E as <- _. exact IH.
    - injection E as <- _. exact IH.
    - injection E as <- _. exact IH.
  Qed.

  Lemma unbroken t : broken_into_lines t t.
  Proof. induction t; constructor; assumption. Qed.
  Lemma no_answer cuts (s : server) url request : s url (rfc4648 request) = Err -> exchange (dialog_transport cuts None s) url request = Err.
  Proof.
    intros H. change (exchange (dialog_transport cuts (Some (https_do s)) s) url request = Err). apply C38_no_answer.
    unfold https_do. cbn [List.concat]. rewrite app_nil_r, H. reflexivity.
  Qed.
  (** Errors has an entry for each payload, nil, and then the requests that came after the
      last payload. *)
  Lemma rest_errors rs : forall m m' l ps es, rest m ps -> mk_errors m = Some es -> play (map Send rs) m = Ok (m', l) ->
    exists bs, map body_of (skipn (List.length ps) rs) = map Some bs /\ mk_errors m' = Some (es ++ map Some (combine (skipn (List.length ps) rs) bs)).
  Proof.
    induction rs as [|r rs IH]; intros m m' l ps es Hm He E.
    - injection E as <- _. exists []. rewrite skipn_nil. cbn. rewrite app_nil_r. auto.
    - cbn [map Mock_Model.play Mock_Model.step] in E. destruct ps as [|p ps].
      + destruct (rest_none r m Hm) as (K1&K2). destruct (body_of r) as [b|] eqn:Eb; [|rewrite K1 in E; discriminate].
        destruct (K2 b eq_refl) as (m1&E1&_&R1). rewrite E1 in E. cbn [obind fst snd] in E.
        assert (He1 : mk_errors m1 = Some (es ++ [Some (r, b)])).
        { destruct Hm as (rq&rs1&rs2&es0&H1&H2&H3&H4&H5&H6). inversion H6; subst. rewrite app_nil_r in H2. cbn [repeat List.length] in H3. rewrite app_nil_r in H3.
          destruct (send_ready r m) as (rq'&rs'&es'&F1&F2&F3&F4&F5&K); [exists rq, rs1, es0; repeat split; try assumption; lia|].
          rewrite F2 in H2. injection H2 as ->. assert (En : nth_error rs1 (mk_count m) = None) by (apply nth_error_None; lia). rewrite En in K. destruct K as (_&K).
          rewrite Eb, E1 in K. injection K as ->. cbn [mk_errors]. congruence. }
        destruct (play (map Send rs) m1) as [[m2 l2]| |] eqn:E2; cbn [obind fst snd] in E; try discriminate. injection E as <- _.
        destruct (IH m1 m2 l2 [] _ R1 He1 E2) as (bs&Hb&Hm2). cbn [skipn List.length] in *. exists (b :: bs). cbn [map combine]. rewrite Eb, Hb, Hm2, <- app_assoc. auto.
      + destruct (rest_send r m p ps Hm) as (m1&y&E1&_&_&_&R1). rewrite E1 in E. cbn [obind fst snd] in E.
        assert (He1 : mk_errors m1 = Some es).
        { unfold Mock_Model.send in E1. destruct (adapt body_of r m) as [m2| |] eqn:Ea; cbn [obind] in E1; try discriminate.
          assert (mk_errors m2 = mk_errors m).
          { unfold adapt in Ea. rewrite He in Ea. cbn [elems] in Ea. clear IH. destruct Hm as (rq&rs1&rs2&es0&H1&H2&H3&H4&H5&H6). rewrite He in H3. injection H3 as ->.
            destruct (Nat.leb_spec (List.length (es0 ++ None :: repeat None (List.length ps))) (mk_count m)) as [C|C];
              [rewrite app_length in C; cbn in C; lia|]. cbn [obind] in Ea. injection Ea as <-. cbn [mk_errors]. congruence. }
          destruct (nth_error (elems (mk_responses m2)) (mk_count m2)); cbn [must obind] in E1; try discriminate.
          destruct (nth_error (elems (mk_errors m2)) (mk_count m2)); cbn [must obind] in E1; try discriminate. injection E1 as <- _ _. cbn [mk_errors]. congruence. }
        destruct (play (map Send rs) m1) as [[m2 l2]| |] eqn:E2; cbn [obind fst snd] in E; try discriminate. injection E as <- _.
        exact (IH m1 m2 l2 ps es R1 He1 E2).
  Qed.
  Theorem C78_errors : forall m ps rs m' l, play (SetPayloads ps :: map Send rs) m = Ok (m', l) ->
    exists bs, map body_of (skipn (List.length ps) rs) = map Some bs /\
      step Errors m' = Ok (m', TheErrors (repeat None (List.length ps) ++ map Some (combine (skipn (List.length ps) rs) bs))).
  Proof.
    intros m ps rs m' l E. cbn [Mock_Model.play Mock_Model.step obind fst snd] in E.
    destruct (play (map Send rs) (set_payloads ps m)) as [[m2 l2]| |] eqn:E2; cbn [obind fst snd] in E; try discriminate. injection E as <- _.
    destruct (rest_errors rs _ m2 l2 ps (repeat None (List.length ps)) (loaded_rest _ _ (loaded_payloads ps m) eq_refl) eq_refl E2) as (bs&H1&H2).
    exists bs. split; [exact H1|]. cbn [Mock_Model.step]. rewrite H2. reflexivity.
  Qed.

  (** Through the HTTPS transport of a dialog, and through the one that does Base64, the
      caller gets the payload that is next, and an error if none is left. *)
  Theorem C78_exchange : forall m ps rs m' a post cuts url request, play (SetPayloads ps :: map Send rs) m = Ok (m', a) ->
    (forall p, nth_error ps (List.length rs) = Some p ->
       exchange (dialog_transport cuts None (mock_server body_of post m')) url request = Ok p /\
       https_base64_do cuts (mock_server body_of post m') url [request] = Ok (p, true)) /\
    (nth_error ps (List.length rs) = None -> body_of (post url (rfc4648 request)) <> None ->
       exchange (dialog_transport cuts None (mock_server body_of post m')) url request = Err /\
       https_base64_do cuts (mock_server body_of post m') url [request] = Err).
  Proof.
    intros m ps rs m' a post cuts url request E. cbn [Mock_Model.play Mock_Model.step obind fst snd] in E.
    destruct (rest_plays rs (set_payloads ps m) (set_payloads ps m) ps (loaded_rest _ _ (loaded_payloads ps m) eq_refl) eq_refl) as (H1&H2).
    assert (HR : rest m' (skipn (List.length rs) ps)).
    { destruct (Forall_dec (fun r => body_of r <> None)) with (l := skipn (List.length ps) rs) as [F|F].
      - intros r. destruct (body_of r); [left; discriminate|right; intros C; now apply C].
      - destruct (H1 F) as (m2&l2&E2&_&_&HR). rewrite E2 in E. cbn [obind fst snd] in E. injection E as <- _. exact HR.
      - rewrite (H2 F) in E. discriminate. }
    clear H1 H2 E. split.
    - intros p Hp. assert (Es : skipn (List.length rs) ps = p :: skipn (S (List.length rs)) ps).
      { clear - Hp. revert ps Hp. generalize (List.length rs). induction n as [|n IH]; intros [|q ps] Hp; cbn in *; try discriminate; [now injection Hp as ->|]. now apply IH. }
      rewrite Es in HR. destruct (rest_send (post url (rfc4648 request)) m' p _ HR) as (m2&y&E&L&_&B&_).
      assert (HS : mock_server body_of post m' url (rfc4648 request) = Ok (200, (rfc4648 p, true))).
      { unfold mock_server. rewrite E, (left_bodies m2 m' y B), L. reflexivity. }
      split; [eapply C38_https; [exact HS|]|].
      + apply unbroken.
      + apply (C38_https_base64 cuts _ url [request] 200 (rfc4648 p) true p); [cbn [List.concat]; rewrite app_nil_r; exact HS|reflexivity|apply unbroken].
    - intros Hp Hb. assert (Es : skipn (List.length rs) ps = []) by (apply skipn_all2; apply nth_error_None; exact Hp).
      rewrite Es in HR. destruct (rest_none (post url (rfc4648 request)) m' HR) as (_&K).
      destruct (body_of (post url (rfc4648 request))) as [b|] eqn:Eb; [|now destruct Hb]. destruct (K b eq_refl) as (m2&E&_&_).
      assert (HS : mock_server body_of post m' url (rfc4648 request) = Err) by (unfold mock_server; rewrite E; reflexivity).
      split.
      + apply no_answer. exact HS.
      + unfold https_base64_do. rewrite encoder_all, encode_rfc. cbn [List.concat]. rewrite app_nil_r, HS. reflexivity.
  Qed.
End Mock.
Print Assumptions C78_recorded.
Print Assumptions C78_request.
Print Assumptions C78_nil_promised_refuted.
Print Assumptions C78_plays.
Print Assumptions C78_registers.
Print Assumptions C78_register_later_refuted.
Print Assumptions C78_unprepared.
Print Assumptions C78_errors.
Print Assumptions C78_exchange.

(** A history with two scripts, three requests, a reading and a Reset; requests are pairs
    of a URL and a body. *)
Definition ex_body (r : bytes * bytes) : option bytes := Some (snd r).
Definition ex_history : list (@op (bytes * bytes)) :=
  [SetPayload (B "a"); Send (B "u", B "1"); Reset; SetPayloads [B "HNHBK"; B "b"]; Send (B "u", B "2"); CallCount;
   ReadBody (mkResponse 1 5); Send (B "u", B "3"); SetPayload (B "c"); Send (B "v", B "4"); Request 1].
Example C78_history_meets : exists m l, play ex_body ex_history new_mock = Ok (m, l) /\
  sent (since resets ex_history) = [(B "u", B "2"); (B "u", B "3"); (B "v", B "4")] /\
  sent (since rewinds ex_history) = [(B "v", B "4")] /\ nth_error l 6 = Some (Body (B "SE5IQks=")).
Proof. eexists _, _. split; [vm_compute; reflexivity|]. repeat split. Qed.
(** Two payloads and three requests: two responses, then an error. *)
Example C78_plays_meets : Forall (fun r => ex_body r <> None) (skipn 2 [(B "u", B "1"); (B "u", B "2"); (B "u", B "3")]) /\
  exists m l, play ex_body (SetPayloads [B "x"; B "y"] :: map Send [(B "u", B "1"); (B "u", B "2"); (B "u", B "3")]) new_mock = Ok (m, l) /\
    nth_error l 3 = Some (Response None (Some ((B "u", B "3"), B "3"))).
Proof. split; [repeat constructor; discriminate|]. eexists _, _. split; [vm_compute; reflexivity|reflexivity]. Qed.
(** A request without a body after the script crashes. *)
Example C78_no_body : play (fun _ : nat => None) [SetPayloads [B "x"]; Send 1%nat; Send 2%nat] new_mock = Panic.
Proof. reflexivity. Qed.
