(** * C83: which entries are written to the log *)
From Coq Require Import Lia.
From Verif Require Import Base BaseFacts Transport_Model Bank_Model Log_Model Switch_Model Switch_Spec.

Lemma run_body body s : run_call (WithDebugLogging body) s =
  let r := run_calls body (set_debug true s) in if snd r then r else (set_debug false (fst (fst r)), snd (fst r), false).
Proof. reflexivity. Qed.
Lemma run_app h : forall h' s, snd (run_calls h s) = false ->
  run_calls (h ++ h') s = let r1 := run_calls h s in let r2 := run_calls h' (fst (fst r1)) in (fst (fst r2), snd (fst r1) ++ snd (fst r2), snd r2).
Proof.
  induction h as [|c h IH]; intros h' s H; cbn [app run_calls] in *; cbv zeta in *.
  - cbn [fst snd app]. now destruct (run_calls h' s) as [[? ?] ?].
  - destruct (snd (run_call c s)) eqn:E; [congruence|]. cbn [fst snd] in *. rewrite (IH h' _ H). cbv zeta. cbn [fst snd]. now rewrite app_assoc.
Qed.
(** Induction over calls with their bodies *)
Section Ind.
  Variable P : call -> Prop.
  Hypothesis plain : forall c, (forall body, c <> WithDebugLogging body) -> P c.
  Hypothesis within : forall body, Forall P body -> P (WithDebugLogging body).
  Fixpoint call_ind2 (c : call) : P c.
  Proof.
    destruct c; try (apply plain; intros ? K; discriminate K). apply within. induction body as [|c body IH]; constructor; [apply call_ind2|exact IH].
  Defined.
End Ind.

Lemma calm_body c : calm c = true -> forall s, snd (run_call c s) = false.
Proof.
  induction c as [c Hp|body IH] using call_ind2; intros H s; [destruct c; try reflexivity; [cbn in *; now destruct (client_new table cfg)|now destruct (Hp body)|discriminate H]|].
  rewrite run_body. cbv zeta. cbn [calm] in H.
  assert (K : forall s, snd (run_calls body s) = false).
  { induction IH as [|c l Hc Hl IH]; intros s'; cbn [run_calls]; cbv zeta; [reflexivity|]. cbn [forallb] in H. apply andb_true_iff in H. destruct H as (H1&H2).
    rewrite (Hc H1). cbn [fst snd]. now apply IH. }
  rewrite K. reflexivity.
Qed.
Lemma calm_all h : forallb calm h = true -> forall s, snd (run_calls h s) = false.
Proof.
  induction h as [|c h IH]; intros H s; cbn [run_calls]; cbv zeta; [reflexivity|]. cbn [forallb] in H. apply andb_true_iff in H. destruct H as (H1&H2).
  rewrite (calm_body c H1). cbn [fst snd]. now apply IH.
Qed.
Lemma decided c s : calm c = true -> sw_debug (fst (fst (run_call c s))) = match decision c with Some b => b | None => sw_debug s end.
Proof.
  intros H. destruct c; try reflexivity. rewrite run_body. cbv zeta. rewrite (calm_all body H). reflexivity.
Qed.
Lemma decided_all h : forallb calm h = true -> forall s, sw_debug (fst (fst (run_calls h s))) = last_decision (sw_debug s) h.
Proof.
  induction h as [|c h IH]; intros H s; cbn [run_calls last_decision]; cbv zeta; [reflexivity|]. cbn [forallb] in H. apply andb_true_iff in H. destruct H as (H1&H2).
  rewrite (calm_body c H1). cbn [fst snd]. rewrite IH by exact H2. now rewrite decided.
Qed.
Lemma write_last h w l : forallb calm h = true -> forall s,
  snd (fst (run_calls (h ++ [Write w l]) s)) = snd (fst (run_calls h s)) ++ if is_on w (fst (fst (run_calls h s))) then map (pair w) l else [].
Proof. intros H s. rewrite run_app by now apply calm_all. cbn. now rewrite app_nil_r. Qed.

(** A debug entry is written exactly if the last call that decided about it turned it on; at
    the beginning it is off. *)
Theorem C83_debug : forall h l, forallb calm h = true ->
  crashed h = false /\ log_of_run (h ++ [Write Debug l]) = log_of_run h ++ if last_decision false h then map (pair Debug) l else [].
Proof.
  intros h l H. split; [now apply calm_all|]. unfold log_of_run. rewrite (write_last h Debug l H). unfold is_on. now rewrite decided_all.
Qed.
Lemma last_over {A} (b : list A) : forall a d, last (a ++ b) d = last b (last a d).
Proof.
  induction b as [|x b IH] using rev_ind; intros a d; [now rewrite app_nil_r|]. now rewrite app_assoc, !last_last.
Qed.
Lemma info_all l : Forall (fun c => calm c = true -> forall s, sw_info (fst (fst (run_call c s))) = last (info_calls c) (sw_info s)) l ->
  forallb calm l = true -> forall s, sw_info (fst (fst (run_calls l s))) = last (flat_map info_calls l) (sw_info s).
Proof.
  induction 1 as [|c l Hc Hl IH]; intros H s; cbn [run_calls flat_map]; cbv zeta; [reflexivity|]. cbn [forallb] in H. apply andb_true_iff in H. destruct H as (H1&H2).
  rewrite (calm_body c H1). cbn [fst snd]. rewrite IH, (Hc H1) by exact H2. now rewrite last_over.
Qed.
Lemma info_one c : calm c = true -> forall s, sw_info (fst (fst (run_call c s))) = last (info_calls c) (sw_info s).
Proof.
  induction c as [c Hp|body IH] using call_ind2; intros H s; [destruct c; try reflexivity; now destruct (Hp body)|].
  rewrite run_body. cbv zeta. cbn [calm info_calls] in *. rewrite (calm_all body H). cbn [fst snd].
  unfold set_debug at 1. cbn [sw_info]. now rewrite (info_all body IH H).
Qed.
(** An info entry is written exactly if the last call of SetInfoLog turned it on, wherever
    it was made; at the beginning it is on.  Nothing else decides about it. *)
Theorem C83_info : forall h l, forallb calm h = true ->
  log_of_run (h ++ [Write Info l]) = log_of_run h ++ if last (flat_map info_calls h) true then map (pair Info) l else [].
Proof.
  intros h l H. unfold log_of_run. rewrite (write_last h Info l H). unfold is_on. rewrite info_all; [reflexivity| |exact H].
  apply Forall_forall. intros c _. apply info_one.
Qed.
(** Nothing but what was handed to a logger is written, and in its order. *)
Theorem C83_silent : forall h, forallb calm h = true -> forall c, calm c = true ->
  (forall w l, c <> Write w l) -> (forall body, c <> WithDebugLogging body) -> log_of_run (h ++ [c]) = log_of_run h.
Proof.
  intros h H c Hc H1 H2. unfold log_of_run. rewrite run_app by now apply calm_all.
  destruct c; try (cbn; now rewrite app_nil_r); [cbn; destruct (client_new table cfg); cbn; now rewrite app_nil_r|now destruct (H2 body)|now destruct (H1 w entries)].
Qed.

(** EnableDebugLogging is not a setting of one client: what an exchange writes after two
    clients were made does not depend on the setting of the first, only on that of the
    second, whichever of them the exchange belongs to. *)
Lemma last_decision_app h : forall d h', last_decision d (h ++ h') = last_decision (last_decision d h) h'.
Proof. induction h as [|c h IH]; intros d h'; cbn [app last_decision]; [reflexivity|]. apply IH. Qed.
Theorem C83_client_refuted : forall table h cfg1 cfg2 b1 b2 l,
  forallb calm h = true -> client_new table cfg1 <> Panic -> client_new table cfg2 <> Panic ->
  log_of_run (h ++ [NewClient table cfg1 b1; NewClient table cfg2 b2; Write Debug l]) =
  log_of_run h ++ if b2 then map (pair Debug) l else [].
Proof.
  intros table h cfg1 cfg2 b1 b2 l H N1 N2.
  assert (K1 : calm (NewClient table cfg1 b1) = true) by (cbn; now destruct (client_new table cfg1)).
  assert (K2 : calm (NewClient table cfg2 b2) = true) by (cbn; now destruct (client_new table cfg2)).
  replace (h ++ [NewClient table cfg1 b1; NewClient table cfg2 b2; Write Debug l]) with (((h ++ [NewClient table cfg1 b1]) ++ [NewClient table cfg2 b2]) ++ [Write Debug l]) by (now rewrite <- !app_assoc).
  assert (Q : forallb calm (h ++ [NewClient table cfg1 b1]) = true) by (rewrite forallb_app, H; cbn [forallb]; now rewrite K1).
  assert (Q2 : forallb calm ((h ++ [NewClient table cfg1 b1]) ++ [NewClient table cfg2 b2]) = true) by (rewrite forallb_app, Q; cbn [forallb]; now rewrite K2).
  rewrite (proj2 (C83_debug _ l Q2)).
  rewrite !C83_silent by (assumption || (intros; discriminate)). now rewrite last_decision_app.
Qed.
(** The same holds whatever comes of making the second client: an error or a panic, too. *)
Theorem C83_failed_new_refuted : forall h table cfg b, forallb calm h = true ->
  after (h ++ [NewClient table cfg b]) = mkSwitches b (sw_info (after h)) /\
  (crashed (h ++ [NewClient table cfg b]) = true <-> client_new table cfg = Panic).
Proof.
  intros h table cfg b H. unfold after, crashed. rewrite run_app by now apply calm_all. cbv zeta. cbn [run_calls run_call new_switched fst snd]. cbv zeta.
  destruct (client_new table cfg); cbn; repeat split; congruence.
Qed.

(** Inside WithDebugLogging a debug entry is written unless a call before it, inside, turned
    it off: also the end of another WithDebugLogging. *)
Theorem C83_within : forall h body l, forallb calm h = true -> forallb calm body = true ->
  log_of_run (h ++ [WithDebugLogging (body ++ [Write Debug l])]) =
  log_of_run (h ++ [WithDebugLogging body]) ++ if last_decision true body then map (pair Debug) l else [].
Proof.
  intros h body l H Hb. unfold log_of_run. rewrite !run_app by now apply calm_all. cbv zeta. cbn [fst snd run_calls]. cbv zeta. rewrite !run_body. cbv zeta.
  assert (Hb2 : forallb calm (body ++ [Write Debug l]) = true) by (rewrite forallb_app, Hb; reflexivity).
  rewrite (calm_all _ Hb2), (calm_all _ Hb). cbn [fst snd]. rewrite !app_nil_r, <- app_assoc. f_equal.
  rewrite (write_last body Debug l Hb). unfold is_on. now rewrite decided_all.
Qed.
(** Afterwards debug logging is off, also if it was on before. *)
Theorem C83_restore_refuted : forall h body l, forallb calm h = true -> forallb calm body = true ->
  log_of_run (h ++ [WithDebugLogging body; Write Debug l]) = log_of_run (h ++ [WithDebugLogging body]) /\ sw_debug (after (h ++ [WithDebugLogging body])) = false.
Proof.
  intros h body l H Hb. assert (Q : forallb calm (h ++ [WithDebugLogging body]) = true) by (rewrite forallb_app, H; cbn; now rewrite Hb).
  split; [|unfold after; rewrite decided_all by exact Q; now rewrite last_decision_app].
  replace (h ++ [WithDebugLogging body; Write Debug l]) with ((h ++ [WithDebugLogging body]) ++ [Write Debug l]) by (now rewrite <- app_assoc).
  rewrite (proj2 (C83_debug _ l Q)), last_decision_app. cbn. now rewrite app_nil_r.
Qed.
(** And if the function panics, it stays as it was at the panic: on, unless it was turned off
    inside. *)
Theorem C83_panic : forall h body rest, forallb calm h = true -> forallb calm body = true ->
  crashed (h ++ [WithDebugLogging (body ++ Crash :: rest)]) = true /\
  sw_debug (after (h ++ [WithDebugLogging (body ++ Crash :: rest)])) = last_decision true body.
Proof.
  intros h body rest H Hb. unfold crashed, after. rewrite run_app by now apply calm_all. cbv zeta. cbn [fst snd run_calls]. cbv zeta. rewrite run_body. cbv zeta.
  rewrite run_app by now apply calm_all. cbv zeta. cbn [run_calls run_call]. cbv zeta. cbn [fst snd]. split; [reflexivity|]. now rewrite decided_all.
Qed.

(** Cases: two clients, nested functions, SetInfoLog inside a function, a client that
    cannot be made. *)
Example C83_case : forall (e : log_entry),
  let cfg1 := mkCfg (B "1") (B "u") (B "p") (B "https://a") 300 (B "x") (B "1") in
  let cfg2 := mkCfg (B "2") (B "v") (B "q") (B "https://b") 999 (B "x") (B "1") in
  (exists c, client_new [] cfg1 = Ok c) /\ client_new [] cfg2 = Err /\
  log_of_run [NewClient [] cfg1 false; NewClient [] cfg2 true; Write Debug [e]] = [(Debug, e)] /\
  log_of_run [NewClient [] cfg1 true; NewClient [] cfg2 false; Write Debug [e]; Write Info [e]] = [(Info, e)] /\
  log_of_run [SetDebugMode true; WithDebugLogging [Write Debug [e]; WithDebugLogging [Write Debug [e]]; Write Debug [e]]; Write Debug [e]] = [(Debug, e); (Debug, e)] /\
  log_of_run [WithDebugLogging [SetInfoLog false]; Write Info [e]] = [] /\
  sw_debug (after [WithDebugLogging [Crash; SetDebugMode false]]) = true.
Proof. intros e cfg1 cfg2. split; [eexists; reflexivity|]. repeat split; reflexivity. Qed.

Print Assumptions C83_debug.
Print Assumptions C83_info.
Print Assumptions C83_silent.
Print Assumptions C83_client_refuted.
Print Assumptions C83_failed_new_refuted.
Print Assumptions C83_within.
Print Assumptions C83_restore_refuted.
Print Assumptions C83_panic.
