(** * Facts about the generator of segment readers *)
From Coq Require Import Lia.
From Verif Require Import Base BaseFacts Codec_Model Wire_Model Message_Model Gosrc_Model Gen_Model Gen_Spec.
Open Scope Z_scope.

Lemma bytes_eqb_true a b : bytes_eqb a b = true <-> a = b.
Proof. destruct (bytes_eqb_spec a b); split; congruence. Qed.
Lemma beq_same a : bytes_eqb a a = true.
Proof. now apply bytes_eqb_true. Qed.
Lemma beq_diff a b : a <> b -> bytes_eqb a b = false.
Proof. intro H. destruct (bytes_eqb a b) eqn:E; [apply bytes_eqb_true in E; congruence|reflexivity]. Qed.

(** ** Looking up *)
Lemma lookup_found name f : forall before after, (forall d, In d (before ++ after) -> decl_name d <> Some name) ->
  scope_lookup name (before ++ DStruct name f :: after) = Some (DStruct name f).
Proof.
  induction before as [|d before IH]; intros after H; cbn [app scope_lookup].
  - cbn [decl_name]. now rewrite beq_same.
  - rewrite IH by (intros x Hx; apply H; now right). destruct (decl_name d) as [m|] eqn:E; [|reflexivity].
    rewrite beq_diff; [reflexivity|]. intros ->. apply (H d); [now left|exact E].
Qed.
Definition first_named (name : bytes) (f : gsfield) : Prop := exists r, sf_names f = name :: r.
Lemma field_type_absent name : forall fields decl, (forall f, In f fields -> ~ first_named name f) -> field_type fields name decl = Some decl.
Proof.
  induction fields as [|f fields IH]; intros decl H; cbn [field_type]; [reflexivity|].
  assert (N : ~ first_named name f) by (apply H; now left).
  destruct (sf_names f) as [|n r] eqn:E; [apply IH; intros; apply H; now right|].
  rewrite beq_diff; [apply IH; intros; apply H; now right|]. intros ->. apply N. exists r. exact E.
Qed.
Lemma nodup_first name : forall fields f1 f2, NoDup (flat_map sf_names fields) -> In f1 fields -> In f2 fields ->
  first_named name f1 -> first_named name f2 -> f1 = f2.
Proof.
  induction fields as [|f fields IH]; intros f1 f2 N H1 H2 F1 F2; [destruct H1|]. cbn [flat_map] in N.
  assert (K : forall g, In g fields -> first_named name g -> In name (flat_map sf_names fields)).
  { intros g Hg (r&E). apply in_flat_map. exists g. split; [exact Hg|]. rewrite E. now left. }
  assert (D : forall x, In x (sf_names f) -> ~ In x (flat_map sf_names fields)).
  { intros x Hx Hy. clear -N Hx Hy. revert N Hx. generalize (sf_names f). intro l. induction l as [|y l IHl]; intros N Hx; [destruct Hx|].
    cbn in N. inversion N as [|? ? Na Nb]; subst. destruct Hx as [->|Hx]; [apply Na; apply in_or_app; now right|now apply IHl]. }
  assert (N2 : NoDup (flat_map sf_names fields)). { clear -N. revert N. generalize (sf_names f). intro l. induction l; cbn; intro N; [exact N|inversion N; auto]. }
  destruct H1 as [->|H1]; destruct H2 as [->|H2]; [reflexivity| | |now apply IH].
  - exfalso. destruct F1 as (r&E). apply (D name); [rewrite E; now left|eauto].
  - exfalso. destruct F2 as (r&E). apply (D name); [rewrite E; now left|eauto].
Qed.
Lemma field_type_spec name : forall fields, NoDup (flat_map sf_names fields) ->
  field_type fields name [] =
    match find (fun f => match sf_names f with n :: _ => bytes_eqb n name | [] => false end) fields with
    | None => Some []
    | Some f => match sf_type f with GPointer t => Some t | GPlain _ => None end
    end.
Proof.
  induction fields as [|f fields IH]; intro N; cbn [field_type find]; [reflexivity|].
  assert (N2 : NoDup (flat_map sf_names fields)). { clear -N. cbn in N. revert N. generalize (sf_names f). intro l. induction l; cbn; intro N; [exact N|inversion N; auto]. }
  destruct (sf_names f) as [|n r] eqn:E; [now apply IH|]. destruct (bytes_eqb n name) eqn:En; [|now apply IH].
  apply bytes_eqb_true in En. subst n. destruct (sf_type f) as [t|t]; [|reflexivity]. apply field_type_absent.
  intros g Hg Fg. assert (f = g). { apply (nodup_first name (f :: fields)); auto; [now left|now right|exists r; exact E]. }
  subst g. cbn [flat_map] in N. rewrite E in N. cbn in N. inversion N as [|? ? Na Nb]. apply Na. apply in_or_app. right.
  apply in_flat_map. exists f. split; [exact Hg|]. rewrite E. now left.
Qed.
Lemma field_type_declares fields name t : NoDup (flat_map sf_names fields) ->
  t <> [] -> (field_type fields name [] = Some t <-> declares fields name t).
Proof.
  intros N T. rewrite (field_type_spec name fields N). split.
  - destruct (find _ fields) as [f|] eqn:F; [|congruence]. apply find_some in F as (I&F). destruct (sf_type f) as [t'|t'] eqn:Et; [|discriminate].
    intro E. injection E as ->. split; [exact T|]. destruct f as [ns ty]. cbn in *. destruct ns as [|n r]; [discriminate F|]. apply bytes_eqb_true in F. subst. exists r. exact I.
  - intros (_&others&I). destruct (find _ fields) as [f|] eqn:F.
    + apply find_some in F as (If&F). assert (f = mkSField (name :: others) (GPointer t)) as ->; [|reflexivity].
      apply (nodup_first name fields); auto; [|now exists others]. destruct (sf_names f) as [|n r] eqn:E; [discriminate F|]. apply bytes_eqb_true in F. subst. now exists r.
    + exfalso. pose proof (find_none _ _ F _ I) as K. cbn in K. rewrite beq_same in K. discriminate K.
Qed.

(** ** Elements *)
Lemma visit_all name fields elems : NoDup (flat_map sf_names fields) -> forall acc,
  (exists l, Forall2 (element_of fields) elems l /\ visit_elements (DStruct name fields) elems acc = Ok (acc ++ l, false)) \/
  ((~ exists l, Forall2 (element_of fields) elems l) /\ exists l, visit_elements (DStruct name fields) elems acc = Ok (l, true)).
Proof.
  intro N. induction elems as [|e elems IH]; intro acc; cbn [visit_elements].
  - left. exists []. split; [constructor|]. now rewrite app_nil_r.
  - assert (Bad : (forall f, ~ element_of fields e f) -> ~ exists l, Forall2 (element_of fields) (e :: elems) l).
    { intros H (l&F). inversion F; subst. now apply (H y). }
    destruct (el_expr e) as [x sel|n|t] eqn:E.
    2,3: right; split; [apply Bad; intros f ((x&Hx)&_); congruence|eauto].
    destruct x as [x' sel'|n|t].
    1,3: right; split; [apply Bad; intros f ((x&Hx)&_); congruence|eauto].
    cbn [decl_field_type]. destruct (field_type fields sel []) as [t|] eqn:T.
    + destruct t as [|c t].
      * right. split; [|eauto]. apply Bad. intros f ((x&Hx)&D&_). rewrite E in Hx. injection Hx as _ ->. pose proof D as (T'&_).
        apply (field_type_declares fields _ _ N T') in D. congruence.
      * assert (G : element_of fields e (mkField sel (c :: t) (el_line e))).
        { split; [exists n; exact E|]. split; [apply field_type_declares; [exact N|discriminate|exact T]|reflexivity]. }
        destruct (IH (acc ++ [mkField sel (c :: t) (el_line e)])) as [(l&F&V)|(F&V)].
        { left. exists (mkField sel (c :: t) (el_line e) :: l). split; [now constructor|]. rewrite V. now rewrite <- app_assoc. }
        { right. split; [|exact V]. intros (l&K). inversion K; subst. apply F. eauto. }
    + right. split; [|eauto]. apply Bad. intros f ((x&Hx)&D&_). rewrite E in Hx. injection Hx as _ ->. pose proof D as (T'&_).
      apply (field_type_declares fields _ _ N T') in D. congruence.
Qed.
(** Other declarations are passed over. *)
Definition passed_over (name : bytes) (d : gdecl) : Prop := forall b, d <> DMethod [RPointer name] (B "elements") b.
Lemma visit_pass obj name d acc : passed_over name d -> visit_decl obj name d acc = Ok acc.
Proof.
  intro H. destruct d as [| | |recv m body]; try reflexivity. cbn [visit_decl]. destruct recv as [|[r|] [|]]; try reflexivity.
  destruct (bytes_eqb m (B "elements")) eqn:E1; [|reflexivity]. destruct (bytes_eqb r name) eqn:E2; [|reflexivity].
  apply bytes_eqb_true in E1, E2. subst. exfalso. now apply (H body).
Qed.
Lemma visit_file_pass obj name file acc : (forall d, In d file -> passed_over name d) -> visit_file obj name file acc = Ok acc.
Proof.
  revert acc. induction file as [|d file IH]; intros acc H; cbn [visit_file]; [reflexivity|].
  rewrite visit_pass by (apply H; now left). cbn [obind]. apply IH. intros; apply H; now right.
Qed.
Lemma visit_file_app obj name a b acc : visit_file obj name (a ++ b) acc = do x <- visit_file obj name a acc; visit_file obj name b x.
Proof.
  revert acc. induction a as [|d a IH]; intro acc; cbn [app visit_file obind]; [reflexivity|].
  destruct (visit_decl obj name d acc); cbn [obind]; auto.
Qed.

(** ** Sorting what is sorted *)
Fixpoint lines_in_order (l : list gfield) : Prop :=
  match l with
  | a :: (b :: _) as r => gf_line a <= gf_line b /\ lines_in_order r
  | _ => True
  end.
Lemma insert_end f l : (forall g, In g l -> gf_line g <= gf_line f) -> insert_field f l = l ++ [f].
Proof.
  induction l as [|g l IH]; intro H; cbn [insert_field app]; [reflexivity|].
  pose proof (H g ltac:(now left)). replace (gf_line f <? gf_line g) with false by lia. rewrite IH; [reflexivity|]. intros; apply H; now right.
Qed.
Lemma order_head a l : lines_in_order (a :: l) -> lines_in_order l /\ forall g, In g l -> gf_line a <= gf_line g.
Proof.
  revert a. induction l as [|b l IH]; intros a H; [split; [exact I|intros g []]|].
  destruct H as (H1&H2). split; [exact H2|]. intros g [<-|Hg]; [exact H1|]. apply IH in H2 as (_&H2). specialize (H2 g Hg). lia.
Qed.
Lemma sort_sorted l : lines_in_order l -> sort_fields l = l.
Proof.
  unfold sort_fields. cut (forall acc, lines_in_order l -> (forall g f, In g acc -> In f l -> gf_line g <= gf_line f) -> fold_left (fun acc f => insert_field f acc) l acc = acc ++ l).
  { intros K H. apply (K [] H). intros g f []. }
  induction l as [|a l IH]; intros acc O H; cbn [fold_left]; [now rewrite app_nil_r|].
  rewrite insert_end by (intros; apply H; [assumption|now left]). apply order_head in O as (O&A).
  rewrite IH; [now rewrite <- app_assoc|exact O|]. intros g f Hg Hf. apply in_app_iff in Hg as [Hg|[<-|[]]]; [apply H; [exact Hg|now right]|auto].
Qed.
Lemma elements_lines fields elems l : Forall2 (element_of fields) elems l -> in_order elems -> lines_in_order l.
Proof.
  intro F. induction F as [|e f elems l H F IH]; intro O; [exact I|]. destruct F as [|e2 f2 elems l H2 F]; [exact I|].
  destruct O as (O1&O2). split; [|now apply IH]. destruct H as (_&_&->). destruct H2 as (_&_&->). exact O1.
Qed.
Lemma method_pass name before after b : (forall b, ~ In (DMethod [RPointer name] (B "elements") b) (before ++ after)) ->
  forall obj acc, visit_file obj name (before ++ DMethod [RPointer name] (B "elements") (Some b) :: after) acc =
    visit_decl obj name (DMethod [RPointer name] (B "elements") (Some b)) acc.
Proof.
  intros H obj acc. assert (P : forall d, In d (before ++ after) -> passed_over name d) by (intros d Hd b' ->; now apply (H b')).
  rewrite visit_file_app, visit_file_pass by (intros; apply P, in_or_app; now left). cbn [obind visit_file].
  destruct (visit_decl obj name (DMethod [RPointer name] (B "elements") (Some b)) acc) as [x| |] eqn:E; cbn [obind]; try reflexivity.
  apply visit_file_pass. intros; apply P, in_or_app; now right.
Qed.
Lemma extract_form file name fields body : go_file file name fields body ->
  extract_fields file name = do x <- visit_decl (DStruct name fields) name (DMethod [RPointer name] (B "elements") (Some body)) ([], false);
    if snd x then Err else Ok (sort_fields (fst x)).
Proof.
  intros ((b1&a1&E1&H1)&N&b2&a2&E2&H2). unfold extract_fields. rewrite E1 at 1. rewrite lookup_found by exact H1. rewrite E2, method_pass by exact H2. reflexivity.
Qed.
