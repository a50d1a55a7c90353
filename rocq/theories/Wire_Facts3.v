From Verif Require Import Base BaseFacts Lexer_Model Lexer_Spec Lexer_Proofs Lexer_Facts
  Codec_Model Codec_Spec Codec_Proofs Wire_Model Wire_Spec Wire_Proofs Wire_Facts Wire_Facts2.
From Coq Require Import Lia ZifyBool ZifyNat ZifyN.
Open Scope Z_scope.
Ltac Zify.zify_post_hook ::= Z.div_mod_to_equations.

(** ** Groups *)
Definition special (c : byte) : bool := beq c b_plus || beq c b_quote.
Lemma map_fst_fpieces cs d : map fst (fpieces cs d) = cs.
Proof. induction cs as [|c [|c2 cs] IH]; [reflexivity|reflexivity|]. cbn [fpieces map fst] in *. now rewrite IH. Qed.
Lemma group_extract_clean es : Forall echunk es -> es <> [] -> existsb special (join [b_colon] es) = false ->
  len (join [b_colon] es) < 2 ^ 61 -> group_extract (join [b_colon] es) = Ok es.
Proof.
  intros H Hne Hsp Hsm. unfold group_extract. unfold special in Hsp. rewrite Hsp. cbv zeta.
  rewrite <- flatp_fpieces by assumption.
  assert (Hok : Forall okp (fpieces es b_plus)).
  { apply okp_fpieces; [|reflexivity]. eapply Forall_impl; [|exact H]. apply echunk_okc. }
  destruct (with_tokens_ok (fpieces es b_plus) (group_split []) Hok) as (ts&t&H1&H2&H3&H4).
  { rewrite flatp_fpieces by assumption. autorewrite with len. lia. }
  rewrite H4. f_equal. rewrite (group_split_pieces _ _ _ H1 Hok), (eof_group _ _ H2), app_nil_r. apply map_fst_fpieces.
Qed.
Lemma before_last_flatp c es : is_delimiter c = true -> Forall echunk es ->
  exists lc, before_last c es = flatp lc /\ Forall okp lc.
Proof.
  intros Hc H. exists (map (fun e => (e, c)) es). split.
  - destruct es as [|x es]; [reflexivity|]. cbn [before_last]. inversion H; subst. clear.
    revert x. induction es as [|y es IH]; intros x; [unfold flatp; cbn; now rewrite app_nil_r|].
    rewrite join_cons. specialize (IH y). cbn [map] in *. change (flatp ((x, c) :: (y, c) :: map (fun e => (e, c)) es))
      with ((x ++ [c]) ++ flatp ((y, c) :: map (fun e => (e, c)) es)). rewrite <- IH. now rewrite <- !app_assoc.
  - apply Forall_map. eapply Forall_impl; [|exact H]. intros e He. split; [now apply echunk_okc|assumption].
Qed.
Lemma group_extract_special es e : Forall echunk (es ++ [e]) -> e <> [] ->
  existsb special (join [b_colon] (es ++ [e])) = true -> len (join [b_colon] (es ++ [e])) < 2 ^ 61 ->
  group_extract (join [b_colon] (es ++ [e])) = Err.
Proof.
  intros H Hne Hsp Hsm. unfold group_extract. unfold special in Hsp. rewrite Hsp. cbv zeta.
  apply Forall_app in H. destruct H as [H1 H2]. inversion H2 as [|? ? He _]; subst.
  destruct (before_last_flatp b_colon es eq_refl H1) as (lc&E&Hok). rewrite join_last in *. rewrite E in *.
  autorewrite with len in Hsm. pose proof (len_nonneg (flatp lc)). pose proof (len_nonneg e).
  apply with_tokens_err; [assumption| |].
  - autorewrite with len. lia.
  - destruct (echunk_okc e He) as [->|Hg]; [congruence|]. apply good_unterminated; [assumption| |]; lia.
Qed.
Lemma trim_len c s : len (trim_right c s) <= len s.
Proof. destruct (trim_right_last c s) as [k [E _]]. rewrite E at 2. rewrite len_app. pose proof (len_nonneg (repeat c k)). lia. Qed.
Lemma binary_len data c : marshal_elem (EBinary data) = Ok c -> len data <= len c.
Proof.
  intros H. cbn [marshal_elem] in H. rewrite marshal_binary_eq in H. injection H as <-.
  autorewrite with len.
  repeat match goal with |- context[len ?x] => lazymatch goal with H : 0 <= len x |- _ => fail | _ => pose proof (len_nonneg x) end end. lia.
Qed.
Lemma echunk_deadly c x : echunk c -> is_delimiter x = true -> ends_with x c -> len c < 2 ^ 61 -> deadly (trim_right x c).
Proof.
  intros [e [H1 H2]] Hx He Hsm. destruct (chunk_deadly e c x H1 H2 Hx He) as [H|[data [-> Hl]]]; [assumption|].
  pose proof (binary_len _ _ H1). lia.
Qed.
Lemma group_extract_colon es e : Forall echunk (es ++ [e]) -> ends_with b_colon e ->
  len (join [b_colon] (es ++ [e])) < 2 ^ 61 ->
  group_extract (trim_right b_colon (join [b_colon] (es ++ [e]))) = Err.
Proof.
  intros H He Hsm. apply Forall_app in H. destruct H as [H1 H2]. inversion H2 as [|? ? Hc _]; subst.
  destruct (before_last_flatp b_colon es eq_refl H1) as (lc&E&Hok). rewrite join_last in *. rewrite E in *.
  autorewrite with len in Hsm. pose proof (len_nonneg (flatp lc)). pose proof (len_nonneg e).
  assert (Hd : deadly (trim_right b_colon e)) by (apply echunk_deadly; [assumption|reflexivity|assumption|lia]).
  destruct Hd as [Hne Hd]. rewrite trim_right_suffix by assumption.
  pose proof (trim_len b_colon e). pose proof (len_nonneg (trim_right b_colon e)).
  unfold group_extract. cbv zeta. destruct (existsb _ _).
  - apply with_tokens_err; [assumption| |].
    + autorewrite with len. lia.
    + rewrite <- (app_nil_r (trim_right b_colon e)). apply Hd; [lia|lia|now left].
  - rewrite <- app_assoc. apply with_tokens_err; [assumption| |].
    + autorewrite with len. lia.
    + apply Hd; [lia|lia|]. right. exists b_plus. split; reflexivity.
Qed.

(** ** Segments whose last element ends in '+' *)
Lemma ends_join x c (cs : list bytes) (k : bytes) : x <> c -> ends_with x (join [c] (cs ++ [k])) -> ends_with x k.
Proof.
  intros Hx [p Hp]. rewrite join_last in Hp. destruct k as [|k0 k'] eqn:Ek.
  - rewrite app_nil_r in Hp. destruct cs as [|y cs]; [destruct p; discriminate|]. cbn [before_last] in Hp.
    apply app_inj_tail in Hp. destruct Hp as [_ E]. congruence.
  - rewrite <- Ek in *. assert (Hk : k <> []) by (rewrite Ek; discriminate).
    destruct (exists_last Hk) as [q [z Hz]]. rewrite Hz in Hp |- *. rewrite app_assoc in Hp.
    apply app_inj_tail in Hp. destruct Hp as [_ ->]. now exists q.
Qed.
Lemma segment_err es e : Forall chunked (es ++ [e]) -> ends_with b_plus e ->
  len (join [b_plus] (es ++ [e])) < 2 ^ 61 ->
  segment_extract (trim_right b_plus (join [b_plus] (es ++ [e])) ++ [b_quote]) = Err.
Proof.
  intros H He Hsm. apply Forall_app in H. destruct H as [H1 H2]. inversion H2 as [|? ? Hc _]; subst.
  destruct Hc as (cs&Hcne&Hcs&Ee). destruct (exists_last Hcne) as [cs' [k Ek]]. rewrite Ek in *. clear Hcne Ek cs.
  rewrite Ee in He. apply ends_join in He; [|discriminate].
  apply Forall_app in Hcs. destruct Hcs as [Hcs Hk]. inversion Hk as [|? ? Hk' _]; subst. clear Hk H2.
  destruct (before_last_flatp b_colon cs' eq_refl Hcs) as (lc&E&Hok).
  assert (exists lc0, before_last b_plus es = flatp lc0 /\ Forall okp lc0) as (lc0&E0&Hok0).
  { destruct (chunked_css _ H1) as (css&G1&G2&G3). exists (List.concat (map (fun cs => fpieces cs b_plus) css)).
    split.
    - rewrite G1. clear -G2. destruct css as [|c0 css]; [reflexivity|]. cbn [map before_last].
      revert c0 G2. induction css as [|c1 css IH]; intros c0 G2; inversion G2; subst.
      + cbn [map join List.concat]. now rewrite app_nil_r, flatp_fpieces.
      + cbn [map]. rewrite join_cons. specialize (IH c1 ltac:(assumption)). cbn [map List.concat] in *.
        rewrite flatp_app, <- IH, flatp_fpieces by assumption. now rewrite <- !app_assoc.
    - clear -G3. induction G3 as [|cs css Hcs _ IH]; [constructor|]. cbn [map List.concat]. apply Forall_app. split; [|assumption].
      apply okp_fpieces; [|reflexivity]. eapply Forall_impl; [|exact Hcs]. apply echunk_okc. }
  rewrite !join_last in *. rewrite E0, E in *. rewrite app_assoc, <- flatp_app in *.
  autorewrite with len in Hsm. pose proof (len_nonneg (flatp (lc0 ++ lc))). pose proof (len_nonneg k).
  assert (Hd : deadly (trim_right b_plus k)) by (apply echunk_deadly; [assumption|reflexivity|assumption|lia]).
  destruct Hd as [Hne Hd]. rewrite trim_right_suffix by assumption. rewrite <- app_assoc.
  pose proof (trim_len b_plus k). pose proof (len_nonneg (trim_right b_plus k)).
  apply with_tokens_err; [apply Forall_app; auto| |].
  - autorewrite with len. lia.
  - apply Hd; [lia|lia|]. right. exists b_quote. split; reflexivity.
Qed.

(** ** Any message *)
Lemma segments_split_prefix ts : forall cur, exists rest, cur ++ covered ts = List.concat (segments_split cur ts) ++ rest.
Proof.
  induction ts as [|t ts IH]; intros cur.
  - exists cur. cbn. now rewrite app_nil_r.
  - cbn [segments_split]. destruct (IH (cur ++ tok_val t)) as [r1 H1]. destruct (IH []) as [r2 H2].
    assert (E : cur ++ covered (t :: ts) = (cur ++ tok_val t) ++ covered ts) by (unfold covered; cbn; now rewrite app_assoc).
    rewrite E. destruct (tok_type t); try (exists r1; exact H1).
    exists r2. cbn [List.concat]. cbn [app] in H2. rewrite H2. now rewrite app_assoc.
Qed.
Lemma segments_split_quote ts : Forall (fun t => tok_type t = T_SEGEND -> tok_val t = [b_quote]) ts ->
  forall cur, Forall (ends_with b_quote) (segments_split cur ts).
Proof.
  induction 1 as [|t ts Ht H IH]; intros cur; [constructor|]. cbn [segments_split].
  destruct (tok_type t); try apply IH. constructor; [|apply IH]. rewrite Ht by reflexivity. now exists cur.
Qed.
Lemma message_extract_any raw segs : small_input raw -> message_extract raw = Ok segs ->
  Forall (ends_with b_quote) segs /\ exists rest, raw = List.concat segs ++ rest.
Proof.
  intros Hsm. unfold message_extract, se_extract, new_segment_extractor. cbn [se_raw se_segments].
  pose proof (read_all_scans _ Hsm) as Hs. destruct (read_all raw) as [ts e] eqn:E. cbn [fst snd] in Hs.
  destruct e; cbn [snd]; try discriminate. destruct (existsb is_error ts); [discriminate|].
  intros H. injection H as <-. cbn [app]. split.
  - apply segments_split_quote. pose proof (scans_tokens _ _ _ _ Hs) as Ht. eapply Forall_impl; [|exact Ht].
    intros t Ht' Hty. cbn beta in Ht'. rewrite Hty in Ht'. exact Ht'.
  - destruct (scans_cover _ _ _ _ Hs) as [_ [rest [Hr _]]]. destruct (segments_split_prefix ts []) as [r2 H2].
    exists (r2 ++ rest). rewrite app_assoc, <- H2. exact Hr.
Qed.

(** ** Lookup *)
Lemma before_colon_id s : has_id (before_colon s) s.
Proof.
  induction s as [|c s [H1 H2]]; [split; [intros []|now left]|]. cbn [before_colon].
  destruct (beq_spec c b_colon) as [->|Hc]; split.
  - intros [].
  - right. now exists s.
  - intros [->|H]; [congruence|contradiction].
  - destruct H2 as [H2|[r H2]]; [left; now rewrite H2 at 1|right]. exists r. cbn [app]. now rewrite <- H2.
Qed.
Lemma has_id_unique s : forall a b, has_id a s -> has_id b s -> a = b.
Proof.
  induction s as [|c s IH]; intros a b [Ha1 Ha2] [Hb1 Hb2].
  - destruct Ha2 as [<-|[r Hr]]; [|destruct a; discriminate]. destruct Hb2 as [<-|[r Hr]]; [reflexivity|destruct b; discriminate].
  - destruct a as [|x a], b as [|y b]; [reflexivity| | |].
    + destruct Ha2 as [Ha2|[r Ha2]]; [discriminate|]. cbn in Ha2. exfalso.
      assert (c = b_colon) by congruence. subst c. destruct Hb2 as [Hb2|[r' Hb2]]; apply Hb1; left; cbn in Hb2; congruence.
    + destruct Hb2 as [Hb2|[r Hb2]]; [discriminate|]. cbn in Hb2. exfalso.
      assert (c = b_colon) by congruence. subst c. destruct Ha2 as [Ha2|[r' Ha2]]; apply Ha1; left; cbn in Ha2; congruence.
    + assert (x = c) by (destruct Ha2 as [Ha2|[r Ha2]]; cbn in Ha2; congruence).
      assert (y = c) by (destruct Hb2 as [Hb2|[r Hb2]]; cbn in Hb2; congruence). subst. f_equal.
      apply IH; split; [intros G; apply Ha1; now right| |intros G; apply Hb1; now right|].
      * destruct Ha2 as [Ha2|[r Ha2]]; [left; congruence|right; exists r; cbn in Ha2; congruence].
      * destruct Hb2 as [Hb2|[r Hb2]]; [left; congruence|right; exists r; cbn in Hb2; congruence].
Qed.
Lemma map_get_append m k v id : map_get (map_append m k v) id = map_get m id ++ (if bytes_eqb k id then [v] else []).
Proof.
  induction m as [|[k' vs] m IH].
  - cbn. destruct (bytes_eqb k id); reflexivity.
  - cbn [map_append]. destruct (bytes_eqb_spec k' k) as [->|Hk]; cbn [map_get].
    + destruct (bytes_eqb k id); [reflexivity|now rewrite app_nil_r].
    + destruct (bytes_eqb_spec k' id) as [->|]; [|assumption].
      destruct (bytes_eqb_spec k id) as [->|]; [congruence|now rewrite app_nil_r].
Qed.
Lemma find_segments_filter x id p : (forall s, p s = true <-> has_id id s) ->
  find_segments x id = filter p (se_segments x).
Proof.
  intros Hp. unfold find_segments.
  assert (G : forall l m, map_get (fold_left (fun m s => map_append m (before_colon s) s) l m) id = map_get m id ++ filter p l).
  { induction l as [|s l IH]; intros m; [cbn; now rewrite app_nil_r|]. cbn [fold_left filter]. rewrite IH, map_get_append, <- app_assoc.
    f_equal. destruct (bytes_eqb_spec (before_colon s) id) as [E|E].
    - replace (p s) with true; [reflexivity|]. symmetry. apply Hp. rewrite <- E. apply before_colon_id.
    - replace (p s) with false; [reflexivity|]. symmetry. destruct (p s) eqn:F; [|reflexivity].
      exfalso. apply E. apply (has_id_unique s); [apply before_colon_id|now apply Hp]. }
  rewrite G. reflexivity.
Qed.
Lemma find_segment_spec x id s : find_segment x id = Some s <->
  exists pre post, se_segments x = pre ++ s :: post /\ starts_with id s /\ Forall (fun t => ~ starts_with id t) pre.
Proof.
  unfold find_segment. induction (se_segments x) as [|t l IH]; cbn [find].
  - split; [discriminate|]. intros ([|]&post&H&_); discriminate.
  - destruct (has_prefix id t) eqn:E.
    + split.
      * intros H. injection H as <-. exists [], l. split; [reflexivity|]. split; [now apply has_prefix_spec|constructor].
      * intros ([|p pre]&post&H&Hs&Hf); cbn in H; [congruence|]. injection H as <- _. inversion Hf; subst.
        exfalso. apply has_prefix_spec in E. contradiction.
    + assert (Hn : ~ starts_with id t) by (intros G; apply has_prefix_spec in G; congruence).
      rewrite IH. split.
      * intros (pre&post&->&Hs&Hf). exists (t :: pre), post. split; [reflexivity|]. split; [assumption|]. now constructor.
      * intros ([|p pre]&post&H&Hs&Hf); cbn in H; [injection H as -> _; contradiction|]. injection H as <- ->.
        inversion Hf; subst. exists pre, post. auto.
Qed.
