(** * Facts about which segments can be read: groups and sequences of elements *)
From Verif Require Import Base BaseFacts Lexer_Model Lexer_Spec Lexer_Proofs Lexer_Facts
  Codec_Model Codec_Spec Codec_Proofs Codec_Props Wire_Model Wire_Spec Wire_Proofs Wire_Facts Wire_Facts2 Wire_Facts3
  Message_Model Message_Spec Message_Proofs Message_Facts Message_Facts2 Message_Facts3
  Dialog_Model Seg_Model Seg_Spec Seg_Facts Seg_Facts2 Seg_Facts3 Seg_Facts4 Seg_Facts5 Accept_Spec Accept_Facts.
From Coq Require Import Lia ZifyBool ZifyNat ZifyN.
Open Scope Z_scope.
Ltac Zify.zify_post_hook ::= Z.div_mod_to_equations.

(** ** Groups *)
Definition piece (p : bytes) : Prop := echunk p /\ existsb special p = false.
Lemma special_join (ps : list bytes) : Forall (fun p => existsb special p = false) ps -> existsb special (join [b_colon] ps) = false.
Proof.
  induction ps as [|p [|q ps] IH]; intros H; inversion H; subst; [reflexivity|assumption|].
  change (join [b_colon] (p :: q :: ps)) with (p ++ b_colon :: join [b_colon] (q :: ps)).
  rewrite existsb_app. cbn [existsb]. rewrite IH by assumption. rewrite H2. reflexivity.
Qed.
Lemma special_join_in (ps : list bytes) p : In p ps -> existsb special p = true -> existsb special (join [b_colon] ps) = true.
Proof.
  intros Hin Hs. apply existsb_exists in Hs. destruct Hs as (c&Hc&Hs). apply existsb_exists. exists c. split; [|exact Hs].
  clear Hs. induction ps as [|q [|r ps] IH]; [destruct Hin| |].
  - destruct Hin as [->|[]]. exact Hc.
  - change (join [b_colon] (q :: r :: ps)) with (q ++ b_colon :: join [b_colon] (r :: ps)). apply in_or_app.
    destruct Hin as [->|Hin]; [now left|]. right. right. now apply IH.
Qed.
Lemma rejoin (ps : list bytes) : Forall piece ps -> ps <> [] -> len (join [b_colon] ps) < 2 ^ 61 -> group_extract (join [b_colon] ps) = Ok ps.
Proof.
  intros H Hne Hl. apply group_extract_clean; [| |apply special_join|exact Hl]; [|exact Hne|];
    (eapply Forall_impl; [|exact H]); intros p [H1 H2]; assumption.
Qed.
Lemma len_join_app c (a b : list bytes) : len (join [c] a) <= len (join [c] (a ++ b)) /\ len (join [c] b) <= len (join [c] (a ++ b)).
Proof.
  destruct a as [|x a]; [cbn [app]; split; [change (len (join [c] [])) with 0; pose proof (len_nonneg (join [c] b)); lia|lia]|].
  destruct b as [|y b]; [rewrite app_nil_r; split; [lia|]; change (len (join [c] [])) with 0; apply len_nonneg|].
  rewrite (join_app c (x :: a) (y :: b)) by discriminate. rewrite len_app.
  replace (len (c :: join [c] (y :: b))) with (1 + len (join [c] (y :: b))) by (unfold len; cbn [List.length]; lia).
  pose proof (len_nonneg (join [c] (x :: a))). pose proof (len_nonneg (join [c] (y :: b))). lia.
Qed.
Lemma len_join_skipn c n (ps : list bytes) : len (join [c] (skipn n ps)) <= len (join [c] ps).
Proof. pose proof (len_join_app c (firstn n ps) (skipn n ps)) as H. rewrite firstn_skipn in H. tauto. Qed.
Lemma len_join_firstn c n (ps : list bytes) : len (join [c] (firstn n ps)) <= len (join [c] ps).
Proof. pose proof (len_join_app c (firstn n ps) (skipn n ps)) as H. rewrite firstn_skipn in H. tauto. Qed.

Definition small (ps : list bytes) : Prop := len (join [b_colon] ps) < 2 ^ 61.
Definition parts_ok (ps : list bytes) : Prop := Forall piece ps /\ ps <> [] /\ small ps.
Lemma groupable_dec i : groupable i \/ ~ groupable i.
Proof.
  destruct i as [l|n|w n|u f|d|b|d|t]; cbn [groupable]; try (left; exact I);
  match goal with |- (~ In _ ?l /\ _) \/ _ =>
    destruct (in_dec byte_eq_dec "+"%byte l); destruct (in_dec byte_eq_dec "'"%byte l); tauto end.
Qed.
Lemma escaped_in c l : In c l -> In c (escaped l).
Proof.
  intros H. unfold escaped. apply in_flat_map. exists c. split; [exact H|].
  destruct (mem_byte c (B "?@':+")); [right; now left|now left].
Qed.
Lemma not_groupable i : item_ok i -> ~ groupable i -> existsb special (item_wire i) = true.
Proof.
  assert (Hgo : forall l w, ~ (~ In "+"%byte l /\ ~ In "'"%byte l) -> (forall c, In c l -> In c w) -> existsb special w = true).
  { intros l w H1 H2. apply existsb_exists. destruct (in_dec byte_eq_dec "+"%byte l) as [K|K].
    - exists "+"%byte. split; [now apply H2|reflexivity].
    - destruct (in_dec byte_eq_dec "'"%byte l) as [J|J]; [|tauto]. exists "'"%byte. split; [now apply H2|reflexivity]. }
  intros _ H. destruct i as [l|n|w n|u f|d|b|d|t]; cbn [groupable item_wire] in *; try tauto.
  - apply (Hgo l); [exact H|]. intros c. apply escaped_in.
  - apply (Hgo d); [exact H|]. intros c Hc. right. apply in_or_app. right. now right.
Qed.
Lemma strip_ne_last (es : list bytes) : strip es <> [] -> exists q e, strip es = q ++ [e] /\ e <> [].
Proof.
  intros H. destruct (exists_last H) as (q&e&E). exists q, e. split; [exact E|]. pose proof (strip_last es H) as K. rewrite E, last_last in K. exact K.
Qed.
Lemma in_strip (es : list bytes) w : w <> [] -> In w es -> In w (strip es).
Proof.
  intros Hw Hin. destruct (strip_spec es) as [k E]. rewrite E in Hin. apply in_app_or in Hin. destruct Hin as [H|H]; [exact H|].
  apply repeat_spec in H. congruence.
Qed.
Lemma group_cases e : Forall item_ok e -> group_wire e <> [] -> len (group_wire e) < 2 ^ 61 ->
  (Forall groupable e /\ group_extract (group_wire e) = Ok (strip (map item_wire e)) /\ parts_ok (strip (map item_wire e))) \/
  (existsb special (group_wire e) = true /\ group_extract (group_wire e) = Err).
Proof.
  intros Hok Hne Hl.
  assert (Hs : strip (map item_wire e) <> []) by (intros K; apply Hne; unfold group_wire; now rewrite K).
  assert (Hd : Forall groupable e \/ exists i, In i e /\ ~ groupable i).
  { clear. induction e as [|i e IH]; [left; constructor|]. destruct (groupable_dec i) as [H|H].
    - destruct IH as [IH|(j&IH1&IH2)]; [left; now constructor|right; exists j; split; [now right|assumption]].
    - right. exists i. split; [now left|assumption]. }
  destruct Hd as [Hg|(i&Hi&Hng)].
  - left. split; [exact Hg|]. split; [apply group_read; [split; assumption|exact Hs|exact Hl]|].
    split; [|split; [exact Hs|exact Hl]].
    apply strip_Forall. clear -Hok Hg. induction e as [|i e IH]; [constructor|]. inversion Hok; inversion Hg; subst.
    cbn [map]. constructor; [|now apply IH]. split; [now apply item_echunk|now apply item_special].
  - right. assert (Hoi : item_ok i) by (rewrite Forall_forall in Hok; now apply Hok).
    pose proof (not_groupable i Hoi Hng) as Hsp.
    assert (Hin : In (item_wire i) (strip (map item_wire e))).
    { apply in_strip; [intros K; rewrite K in Hsp; discriminate|]. now apply in_map. }
    assert (Hj : existsb special (group_wire e) = true) by (eapply special_join_in; [exact Hin|exact Hsp]).
    split; [exact Hj|]. destruct (strip_ne_last _ Hs) as (q&x&E&Hx).
    unfold group_wire in *. rewrite E in *. apply group_extract_special; [|exact Hx|exact Hj|exact Hl].
    rewrite <- E. apply strip_Forall, items_echunk, Hok.
Qed.
Lemma made_of_unique e ps : Forall item_ok e -> group_wire e <> [] -> len (group_wire e) < 2 ^ 61 -> made_of (group_wire e) ps ->
  group_extract (group_wire e) = Ok ps.
Proof.
  intros Hok Hne Hl (g&Hg&Hw&->). rewrite Hw in *. apply group_read; [exact Hg| |exact Hl].
  intros K. apply Hne. unfold group_wire. now rewrite K.
Qed.

(** ** Forms *)
Definition fits {A} (r : bytes -> outcome A) (f : form) : Prop := forall e, Forall item_ok e -> group_wire e <> [] ->
  len (group_wire e) < 2 ^ 61 -> judged (r (group_wire e)) (accepts f (group_wire e)) (crashes f (group_wire e)).
Lemma fits_group {A} (r : bytes -> outcome A) (k : list bytes -> outcome A) P C :
  (forall w, r w = do ps <- group_extract w; k ps) ->
  (forall ps, parts_ok ps -> judged (k ps) (P ps) (C ps)) -> fits r (fragile_group P C).
Proof.
  intros Hr Hk e Hok Hne Hl. rewrite Hr. destruct (group_cases e Hok Hne Hl) as [(Hg&E&Hp)|(Hs&E)]; rewrite E; cbn [obind accepts crashes fragile_group].
  - eapply judged_iff; [apply Hk, Hp| |].
    + split; [intros H; exists (strip (map item_wire e)); split; [exists e; repeat split; assumption|exact H]|].
      intros (ps&Hm&H). apply made_of_unique in Hm; [|assumption..]. congruence.
    + split; [intros H; exists (strip (map item_wire e)); split; [exists e; repeat split; assumption|exact H]|].
      intros (ps&Hm&H). apply made_of_unique in Hm; [|assumption..]. congruence.
  - eapply judged_iff; [apply judged_err| |]; (split; [tauto|]); intros (ps&Hm&H); apply made_of_unique in Hm; congruence.
Qed.
Lemma fits_value {A} (r : bytes -> outcome A) P : (forall w, judged (r w) (P w) False) -> fits r (value P).
Proof. intros H e _ _ _. apply H. Qed.

(** ** Sequences of elements *)
Definition reader : Type := {A : Type & bytes -> outcome A}.
Definition rd {A} (r : bytes -> outcome A) : reader := existT _ A r.
(** [None]: the element is not looked at. *)
Fixpoint chain (rs : list (option reader)) (k : nat) (es : list bytes) : outcome unit :=
  match rs with
  | [] => Ok tt
  | [Some r] => do _ <- last_field k (projT2 r) es; Ok tt
  | Some r :: rs => do _ <- field k (projT2 r) es; chain rs (S k) es
  | None :: rs => chain rs (S k) es
  end.
Fixpoint plain_chain (rs : list (option reader)) (k : nat) (es : list bytes) : outcome unit :=
  match rs with
  | [] => Ok tt
  | Some r :: rs => do _ <- field k (projT2 r) es; plain_chain rs (S k) es
  | None :: rs => plain_chain rs (S k) es
  end.
Lemma nth_error_repeat_nil {A} (x : A) n k : nth_error (repeat x n) k = if (k <? n)%nat then Some x else None.
Proof. revert k. induction n as [|n IH]; intros [|k]; try reflexivity. cbn [repeat nth_error]. rewrite IH. reflexivity. Qed.
Lemma strip_pad (es : list bytes) n : strip (es ++ repeat [] n) = strip es.
Proof.
  induction es as [|x es IH]; cbn [app].
  - induction n as [|n IH]; [reflexivity|]. cbn [repeat strip]. now rewrite IH.
  - cbn [strip]. now rewrite IH.
Qed.
Lemma last_field_short {A} k (f : bytes -> outcome A) (es : list bytes) : (List.length es <= S k)%nat -> last_field k f (strip es) = field k f (strip es).
Proof.
  intros H. rewrite <- (strip_pad es (S k - List.length es)). rewrite last_field_strip.
  - symmetry. apply field_strip.
  - rewrite app_length, repeat_length. lia.
Qed.
Lemma chain_plain rs : forall k es, (List.length es <= k + List.length rs)%nat -> chain rs k (strip es) = plain_chain rs k (strip es).
Proof.
  induction rs as [|[r|] rs IH]; intros k es H; [reflexivity| |].
  - destruct rs as [|r2 rs].
    + cbn [chain plain_chain]. rewrite last_field_short by (cbn in H; lia). reflexivity.
    + change (chain (Some r :: r2 :: rs) k (strip es)) with (do _ <- field k (projT2 r) (strip es); chain (r2 :: rs) (S k) (strip es)).
      change (plain_chain (Some r :: r2 :: rs) k (strip es)) with (do _ <- field k (projT2 r) (strip es); plain_chain (r2 :: rs) (S k) (strip es)).
      rewrite IH; [reflexivity|]. cbn [List.length] in *. lia.
  - cbn [chain plain_chain]. apply IH. cbn [List.length] in *. lia.
Qed.

(** The verdict of a reader on one element. *)
Definition judges (r : option reader) (f : form) (w : bytes) : Prop :=
  match r with
  | Some r => judged (projT2 r w) (accepts f w) (crashes f w)
  | None => accepts f w /\ ~ crashes f w
  end.
Lemma all_pass_cons f fs w ws : all_pass (f :: fs) (w :: ws) <-> passes f w /\ all_pass fs ws.
Proof.
  unfold all_pass. split.
  - intros H. split; [exact (H 0%nat f eq_refl)|]. intros k g Hk. exact (H (S k) g Hk).
  - intros [H1 H2] [|k] g Hk; [injection Hk as <-; exact H1|exact (H2 k g Hk)].
Qed.
Lemma one_crashes_cons f fs w ws : one_crashes (f :: fs) (w :: ws) <-> (w <> [] /\ crashes f w) \/ (passes f w /\ one_crashes fs ws).
Proof.
  unfold one_crashes. split.
  - intros ([|k]&g&H1&H2&H3&H4).
    + injection H1 as <-. left. split; assumption.
    + right. split; [exact (H4 0%nat f ltac:(lia) eq_refl)|]. exists k, g. split; [exact H1|]. split; [exact H2|]. split; [exact H3|].
      intros j g' Hj. exact (H4 (S j) g' ltac:(lia)).
  - intros [[H1 H2]|[H1 (k&g&H2&H3&H4&H5)]].
    + exists 0%nat, f. split; [reflexivity|]. split; [exact H1|]. split; [exact H2|]. intros j g Hj. lia.
    + exists (S k), g. split; [exact H2|]. split; [exact H3|]. split; [exact H4|].
      intros [|j] g' Hj Hg; [injection Hg as <-; exact H1|]. apply (H5 j g'); [lia|exact Hg].
Qed.
Lemma skipn_nth (es : list bytes) k : (exists x r, skipn k es = x :: r /\ nth k es [] = x /\ skipn (S k) es = r) \/
  (skipn k es = [] /\ nth k es [] = [] /\ skipn (S k) es = []).
Proof.
  revert es. induction k as [|k IH]; intros [|x es].
  - right. repeat split.
  - left. exists x, es. repeat split.
  - right. repeat split.
  - destruct (IH es) as [(y&r&H1&H2&H3)|H]; [left; exists y, r; auto|right; exact H].
Qed.
Lemma all_pass_nil fs : all_pass fs [].
Proof. intros k f _. left. now destruct k. Qed.
Lemma one_crashes_nil fs : ~ one_crashes fs [].
Proof. intros (k&f&_&H&_). destruct k; now apply H. Qed.
Lemma all_pass_pad fs ws : all_pass fs (ws ++ [[]]) <-> all_pass fs ws.
Proof.
  assert (K : forall k, nth k (ws ++ [[]]) [] = nth k ws ([] : bytes)).
  { intros k. destruct (Nat.lt_ge_cases k (List.length ws)) as [H|H]; [now apply app_nth1|].
    rewrite app_nth2 by exact H. rewrite (nth_overflow ws) by exact H. destruct (k - List.length ws)%nat as [|[|]]; reflexivity. }
  unfold all_pass. split; intros H k f Hk; [rewrite <- K|rewrite K]; exact (H k f Hk).
Qed.
Lemma chain_judged fs : forall rs k (es : list bytes), List.length rs = List.length fs ->
  (forall j r f, nth_error rs j = Some r -> nth_error fs j = Some f -> nth (k + j) es [] <> [] -> judges r f (nth (k + j) es [])) ->
  judged (plain_chain rs k es) (all_pass fs (skipn k es)) (one_crashes fs (skipn k es)).
Proof.
  induction fs as [|f fs IH]; intros rs k es Hlen Hj; destruct rs as [|r rs]; try discriminate.
  - cbn [plain_chain]. eapply judged_iff; [apply judged_ok| |].
    + split; [intros _ j f Hf; destruct j; discriminate|tauto].
    + split; [tauto|]. intros (j&f&Hf&_). destruct j; discriminate.
  - injection Hlen as Hlen.
    assert (IH' : judged (plain_chain rs (S k) es) (all_pass fs (skipn (S k) es)) (one_crashes fs (skipn (S k) es))).
    { apply IH; [exact Hlen|]. intros j r' f' H1 H2 H3. rewrite Nat.add_succ_comm in *. exact (Hj (S j) r' f' H1 H2 H3). }
    specialize (Hj 0%nat r f eq_refl eq_refl). rewrite Nat.add_0_r in Hj.
    assert (K : judged (plain_chain (r :: rs) k es) (passes f (nth k es []) /\ all_pass fs (skipn (S k) es))
        ((nth k es [] <> [] /\ crashes f (nth k es [])) \/ (passes f (nth k es []) /\ one_crashes fs (skipn (S k) es)))).
    { assert (Hdec : nth k es [] = [] \/ nth k es [] <> []) by (destruct (nth k es []); [now left|right; discriminate]).
      destruct r as [r|]; cbn [plain_chain judges] in *.
      - eapply judged_iff; [eapply judged_bind; [apply judged_field, Hj|intros; exact IH']| |]; unfold passes; tauto.
      - eapply judged_iff; [exact IH'| |]; unfold passes; tauto. }
    destruct (skipn_nth es k) as [(x&q&E1&E2&E3)|(E1&E2&E3)].
    + rewrite E1, E2, E3 in *. eapply judged_iff; [exact K|symmetry; apply all_pass_cons|symmetry; apply one_crashes_cons].
    + rewrite E1, E2, E3 in *. eapply judged_iff; [exact K| |].
      * split; [intros _; apply all_pass_nil|intros _; split; [now left|apply all_pass_nil]].
      * split; [intros [[H _]|[_ H]]; [congruence|exfalso; exact (one_crashes_nil _ H)]|]. intros H. exfalso. exact (one_crashes_nil _ H).
Qed.
