(** * Facts about generated readers *)
From Coq Require Import Lia.
From Verif Require Import Base BaseFacts Codec_Model Wire_Model Message_Model Gosrc_Model Gen_Model Gen_Spec Gen_Facts.
Open Scope Z_scope.

(** ** The text *)
Lemma field_text_stmt o n idx f : n = List.length (go_fields o) ->
  field_text o idx f ++ nl = nl ++ stmt_source (go_var o) 1 (field_stmt n idx f).
Proof.
  intros ->. unfold field_text, field_stmt, t1, t2, t3. destruct (Nat.eqb (S idx) (List.length (go_fields o))).
  - cbn [stmt_source cond_source source_source flat_map indent repeat]. repeat rewrite <- app_assoc. reflexivity.
  - cbn [stmt_source cond_source source_source flat_map indent repeat]. repeat rewrite <- app_assoc. reflexivity.
Qed.
Lemma fields_text_stmts o n : n = List.length (go_fields o) -> forall fs idx,
  fields_text o idx fs ++ nl = nl ++ flat_map (stmt_source (go_var o) 1) (reader_stmts n idx fs).
Proof.
  intros N fs. induction fs as [|f fs IH]; intro idx; cbn [fields_text reader_stmts flat_map].
  - now rewrite app_nil_r.
  - rewrite <- app_assoc, IH. rewrite app_assoc, (field_text_stmt o n idx f N), <- app_assoc. reflexivity.
Qed.

(** ** Running *)
Section Run.
  Context {V : Type}.
  Variable decode : bytes -> bytes -> outcome V.
  Notation store := (@store V).

  Lemma run_field es n idx f st :
    run_stmt decode es (field_stmt n idx f) false st =
    match given n idx es with
    | None => Ok (Going false st)
    | Some w => match decode (gf_type f) w with
                | Ok v => Ok (Going false (set_field (gf_name f) (Some (gf_type f, Some v)) (set_field (gf_name f) (Some (gf_type f, None)) st)))
                | Err => Ok (Failed (gf_name f))
                | Panic => Panic
                end
    end.
  Proof.
    unfold field_stmt, given. cbn [run_stmt run_cond obind]. rewrite Nat.add_0_r.
    destruct (nth_error es (S idx)) as [e|] eqn:E.
    - assert (L : (S idx < List.length es)%nat) by (apply nth_error_Some; congruence).
      replace (Nat.ltb (S idx) (List.length es)) with true by (symmetry; now apply Nat.ltb_lt). cbn [obind].
      destruct e as [|c e]; cbn [List.length Nat.ltb Nat.leb obind]; [reflexivity|].
      assert (S0 : forall st, set_field (gf_name f) (Some (gf_type f, @None V)) st (gf_name f) = Some (gf_type f, None)) by (intro; unfold set_field; now rewrite beq_same).
      destruct (Nat.eqb_spec (S idx) n) as [En|En].
      + cbn [run_stmt run_cond obind]. replace (Nat.ltb (S idx) (List.length es + 1)) with true by (symmetry; apply Nat.ltb_lt; lia). cbn [obind run_stmt run_source].
        replace (Nat.leb (S idx) (List.length es)) with true by (symmetry; apply Nat.leb_le; lia). cbn [obind]. rewrite S0, <- En.
        destruct (decode (gf_type f) (join [b_plus] (skipn (S idx) es))); reflexivity.
      + cbn [run_stmt run_source]. rewrite E. cbn [obind]. rewrite S0. destruct (decode (gf_type f) (c :: e)); reflexivity.
    - assert (L : (List.length es <= S idx)%nat) by now apply nth_error_None.
      replace (Nat.ltb (S idx) (List.length es)) with false by (symmetry; apply Nat.ltb_ge; lia). reflexivity.
  Qed.

  (** What becomes of the fields when every element can be read *)
  Lemma run_all es n : forall fs idx st,
    (forall k f w, nth_error fs k = Some f -> given n (idx + k) es = Some w -> exists v, decode (gf_type f) w = Ok v) ->
    NoDup (map gf_name fs) ->
    exists st', run_stmts decode es (reader_stmts n idx fs) false st = Ok (Going false st') /\
      (forall k f, nth_error fs k = Some f ->
         match given n (idx + k) es with
         | None => st' (gf_name f) = st (gf_name f)
         | Some w => exists v, decode (gf_type f) w = Ok v /\ st' (gf_name f) = Some (gf_type f, Some v)
         end) /\
      (forall g, ~ In g (map gf_name fs) -> st' g = st g).
  Proof.
    induction fs as [|f fs IH]; intros idx st H N; cbn [reader_stmts run_stmts].
    - exists st. split; [reflexivity|]. split; [intros [|k] f E; discriminate E|reflexivity].
    - cbn [map] in N. inversion N as [|? ? Na Nb]; subst. rewrite run_field.
      assert (H' : forall k f w, nth_error fs k = Some f -> given n (S idx + k) es = Some w -> exists v, decode (gf_type f) w = Ok v).
      { intros k g w E G. apply (H (S k) g w E). now rewrite <- plus_n_Sm. }
      assert (K : forall st1 st', (forall k g, nth_error fs k = Some g ->
         match given n (S idx + k) es with None => st' (gf_name g) = st1 (gf_name g) | Some w => exists v, decode (gf_type g) w = Ok v /\ st' (gf_name g) = Some (gf_type g, Some v) end) ->
         (forall g, g <> gf_name f -> st1 g = st g) -> forall k g, nth_error fs k = Some g ->
         match given n (idx + S k) es with None => st' (gf_name g) = st (gf_name g) | Some w => exists v, decode (gf_type g) w = Ok v /\ st' (gf_name g) = Some (gf_type g, Some v) end).
      { intros st1 st' H1 H2 k g E. specialize (H1 k g E). rewrite <- plus_n_Sm. cbn [Nat.add] in H1. destruct (given n (S (idx + k)) es); [exact H1|].
        rewrite H1. apply H2. intros K. apply Na. rewrite <- K. apply in_map. eapply nth_error_In; eauto. }
      destruct (given n idx es) as [w|] eqn:G.
      + destruct (H 0%nat f w eq_refl) as (v&Hv); [now rewrite Nat.add_0_r|]. rewrite Hv. cbn [obind].
        edestruct (IH (S idx) (set_field (gf_name f) (Some (gf_type f, Some v)) (set_field (gf_name f) (Some (gf_type f, None)) st)) H' Nb) as (st'&R&A&Bo).
        exists st'. split; [exact R|]. split.
        * intros [|k] g E; cbn [nth_error] in E.
          { injection E as <-. rewrite Nat.add_0_r, G. exists v. split; [exact Hv|]. rewrite Bo by exact Na. unfold set_field. now rewrite beq_same. }
          { eapply K; eauto. intros g' Hg'. unfold set_field. rewrite !beq_diff by congruence. reflexivity. }
        * intros g Hg. cbn [map In] in Hg. rewrite Bo by tauto. unfold set_field. rewrite !beq_diff by (intro; apply Hg; now left). reflexivity.
      + cbn [obind]. destruct (IH (S idx) st H' Nb) as (st'&R&A&Bo). exists st'. split; [exact R|]. split.
        * intros [|k] g E; cbn [nth_error] in E.
          { injection E as <-. rewrite Nat.add_0_r, G. now apply Bo. }
          { eapply K; eauto. }
        * intros g Hg. cbn [map In] in Hg. apply Bo. tauto.
  Qed.
  (** The first element that cannot be read ends it *)
  Lemma run_first es n : forall fs idx st k f w,
    nth_error fs k = Some f -> given n (idx + k) es = Some w ->
    (forall j g w', (j < k)%nat -> nth_error fs j = Some g -> given n (idx + j) es = Some w' -> exists v, decode (gf_type g) w' = Ok v) ->
    (decode (gf_type f) w = Err -> run_stmts decode es (reader_stmts n idx fs) false st = Ok (Failed (gf_name f))) /\
    (decode (gf_type f) w = Panic -> run_stmts decode es (reader_stmts n idx fs) false st = Panic).
  Proof.
    induction fs as [|f0 fs IH]; intros idx st k f w E G H; [destruct k; discriminate E|]. cbn [reader_stmts run_stmts]. rewrite run_field.
    destruct k as [|k]; cbn [nth_error] in E.
    - injection E as ->. rewrite Nat.add_0_r in G. rewrite G. split; intros ->; reflexivity.
    - assert (H' : forall j g w', (j < k)%nat -> nth_error fs j = Some g -> given n (S idx + j) es = Some w' -> exists v, decode (gf_type g) w' = Ok v).
      { intros j g w' L Ej Gj. apply (H (S j) g w'); [lia|exact Ej|now rewrite <- plus_n_Sm]. }
      rewrite <- plus_n_Sm in G. destruct (given n idx es) as [w0|] eqn:G0.
      + destruct (H 0%nat f0 w0 ltac:(lia) eq_refl) as (v&->); [now rewrite Nat.add_0_r|]. cbn [obind]. now apply (IH (S idx) _ k f w).
      + cbn [obind]. now apply (IH (S idx) _ k f w).
  Qed.
End Run.
