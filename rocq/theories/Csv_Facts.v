(** * Facts about the reader of CSV files *)
From Coq Require Import Lia.
From Verif Require Import Base BaseFacts Bank_Model Csv_Model Csv_Spec.
Open Scope Z_scope.

(** ** Blanks *)
Lemma zb_inj a b : zb a = zb b -> a = b.
Proof. unfold zb. intro H. apply N2Z.inj in H. assert (E : Byte.of_N (Byte.to_N a) = Byte.of_N (Byte.to_N b)) by (rewrite H; reflexivity).
  rewrite !Byte.of_to_N in E. now injection E. Qed.
Lemma zb_is a n b : (zb a =? n) = true -> zb b = n -> a = b.
Proof. intros H E. apply Z.eqb_eq in H. apply zb_inj. congruence. Qed.

Lemma space1_in a : space1 a = true -> In [a] blank_chars.
Proof. unfold blank_chars. destruct a; intro H; try discriminate H; cbn; tauto. Qed.
Lemma space2_in a b : space2 a b = true -> In [a; b] blank_chars.
Proof.
  unfold space2. rewrite andb_true_iff, orb_true_iff. intros [A [E|E]].
  - rewrite (zb_is _ _ xc2 A eq_refl), (zb_is _ _ x85 E eq_refl). unfold blank_chars. cbn. tauto.
  - rewrite (zb_is _ _ xc2 A eq_refl), (zb_is _ _ xa0 E eq_refl). unfold blank_chars. cbn. tauto.
Qed.
Lemma space3_in a b c : space3 a b c = true -> In [a; b; c] blank_chars.
Proof.
  unfold space3. rewrite !orb_true_iff, !andb_true_iff. intros [[[[[A E] C]|[[A E] C]]|[[A E] C]]|[[A E] C]].
  - rewrite (zb_is _ _ xe1 A eq_refl), (zb_is _ _ x9a E eq_refl), (zb_is _ _ x80 C eq_refl). unfold blank_chars. cbn. tauto.
  - rewrite (zb_is _ _ xe2 A eq_refl), (zb_is _ _ x80 E eq_refl). clear -C. unfold blank_chars.
    destruct c; try discriminate C; cbn; tauto.
  - rewrite (zb_is _ _ xe2 A eq_refl), (zb_is _ _ x81 E eq_refl), (zb_is _ _ x9f C eq_refl). unfold blank_chars. cbn. tauto.
  - rewrite (zb_is _ _ xe3 A eq_refl), (zb_is _ _ x80 E eq_refl), (zb_is _ _ x80 C eq_refl). unfold blank_chars. cbn. tauto.
Qed.
(** A blank is one of the three kinds. *)
Lemma blank_kinds x : In x blank_chars ->
  (exists a, x = [a] /\ space1 a = true) \/
  (exists a b, x = [a; b] /\ space1 a = false /\ space1 b = false /\ space2 a b = true) \/
  (exists a b c, x = [a; b; c] /\ space1 a = false /\ space1 c = false /\ (forall d, space2 a d = false) /\ (forall d, space2 d c = true -> b <> d) /\ space3 a b c = true).
Proof.
  unfold blank_chars. cbn [In]. intro H.
  repeat (destruct H as [<-|H]; [first [left; eexists; split; reflexivity | right; left; do 2 eexists; repeat split; reflexivity |
    right; right; do 3 eexists; repeat split; try reflexivity; intros d E K; subst d; vm_compute in E; discriminate E ]|]). destruct H.
Qed.

(** Trimming from the left. *)
Lemma blanks_nil : blanks []. Proof. exists []. split; [reflexivity|intros x []]. Qed.
Lemma blanks_cons x s : In x blank_chars -> blanks s -> blanks (x ++ s).
Proof. intros H (l&->&K). exists (x :: l). split; [reflexivity|]. intros y [<-|I]; auto. Qed.
Lemma blanks_app a b : blanks a -> blanks b -> blanks (a ++ b).
Proof. intros (l&->&K) (l'&->&K'). exists (l ++ l'). split; [symmetry; apply concat_app|]. intros x I. apply in_app_or in I. destruct I; auto. Qed.
Lemma blanks_ind' (P : bytes -> Prop) : P [] -> (forall x s, In x blank_chars -> blanks s -> P s -> P (x ++ s)) -> forall s, blanks s -> P s.
Proof.
  intros H0 H1 s (l&->&K). induction l as [|x l IH]; [exact H0|]. cbn [List.concat]. apply H1; [apply K; now left| |].
  - exists l. split; [reflexivity|]. intros y I. apply K. now right.
  - apply IH. intros y I. apply K. now right.
Qed.

Lemma trim_left_blank x s : In x blank_chars -> trim_blanks_left (x ++ s) = trim_blanks_left s.
Proof.
  intro H. destruct (blank_kinds x H) as [(a&->&A)|[(a&b&->&A&_&C)|(a&b&c&->&A&_&C&_&D)]]; unfold trim_blanks_left; cbn [app trim_by].
  - rewrite A. reflexivity.
  - rewrite A, C. reflexivity.
  - rewrite A, C, D. reflexivity.
Qed.
Lemma trim_left_blanks a s : blanks a -> trim_blanks_left (a ++ s) = trim_blanks_left s.
Proof. intro H. induction H as [|x t I _ IH] using blanks_ind'; [reflexivity|]. rewrite <- app_assoc, trim_left_blank by exact I. exact IH. Qed.
Lemma trim_left_not s : ~ starts_blank s -> trim_blanks_left s = s.
Proof.
  intro N. unfold trim_blanks_left. destruct s as [|a [|b [|c r]]]; cbn [trim_by].
  - reflexivity.
  - destruct (space1 a) eqn:A; [|reflexivity]. exfalso. apply N. exists [a], []. split; [now apply space1_in|reflexivity].
  - destruct (space1 a) eqn:A; [exfalso; apply N; exists [a], [b]; split; [now apply space1_in|reflexivity]|].
    destruct (space2 a b) eqn:C; [exfalso; apply N; exists [a; b], []; split; [now apply space2_in|reflexivity]|]. reflexivity.
  - destruct (space1 a) eqn:A; [exfalso; apply N; exists [a], (b :: c :: r); split; [now apply space1_in|reflexivity]|].
    destruct (space2 a b) eqn:C; [exfalso; apply N; exists [a; b], (c :: r); split; [now apply space2_in|reflexivity]|].
    destruct (space3 a b c) eqn:D; [exfalso; apply N; exists [a; b; c], r; split; [now apply space3_in|reflexivity]|]. reflexivity.
Qed.
Lemma starts_blank_dec s : starts_blank s \/ ~ starts_blank s.
Proof.
  assert (N : trim_blanks_left s = s -> ~ starts_blank s).
  { intros E (x&r&I&->). rewrite trim_left_blank in E by exact I.
    assert (L : forall n t, (List.length t <= n)%nat -> (List.length (trim_blanks_left t) <= List.length t)%nat).
    { unfold trim_blanks_left. induction n as [|n IH]; intros t T.
      - destruct t; [cbn; lia|cbn in T; lia].
      - destruct t as [|a [|b [|c t]]]; cbn [trim_by].
        + lia.
        + destruct (space1 a); cbn; lia.
        + destruct (space1 a); [etransitivity; [apply (IH [b]); cbn in *; lia|cbn; lia]|].
          destruct (space2 a b); cbn; lia.
        + cbn [List.length] in T. destruct (space1 a); [etransitivity; [apply (IH (b :: c :: t)); cbn; lia|cbn; lia]|].
          destruct (space2 a b); [etransitivity; [apply (IH (c :: t)); cbn; lia|cbn; lia]|].
          destruct (space3 a b c); [etransitivity; [apply (IH t); cbn; lia|cbn; lia]|cbn; lia]. }
    pose proof (L _ r (le_n _)) as K. rewrite E in K. rewrite app_length in K.
    destruct (blank_kinds x I) as [(a&->&_)|[(a&b&->&_)|(a&b&c&->&_)]]; cbn in K; lia. }
  destruct s as [|a [|b [|c r]]].
  - right. apply N. reflexivity.
  - destruct (space1 a) eqn:A; [left; exists [a], []; split; [now apply space1_in|reflexivity]|].
    right. apply N. unfold trim_blanks_left. cbn. rewrite A. reflexivity.
  - destruct (space1 a) eqn:A; [left; exists [a], [b]; split; [now apply space1_in|reflexivity]|].
    destruct (space2 a b) eqn:C; [left; exists [a; b], []; split; [now apply space2_in|reflexivity]|].
    right. apply N. unfold trim_blanks_left. cbn. rewrite A, C. reflexivity.
  - destruct (space1 a) eqn:A; [left; exists [a], (b :: c :: r); split; [now apply space1_in|reflexivity]|].
    destruct (space2 a b) eqn:C; [left; exists [a; b], (c :: r); split; [now apply space2_in|reflexivity]|].
    destruct (space3 a b c) eqn:D; [left; exists [a; b; c], r; split; [now apply space3_in|reflexivity]|].
    right. apply N. unfold trim_blanks_left. cbn. rewrite A, C, D. reflexivity.
Qed.
Lemma trim_left_split s : exists a, s = a ++ trim_blanks_left s /\ blanks a /\ ~ starts_blank (trim_blanks_left s).
Proof.
  remember (List.length s) as n eqn:E. assert (L : (List.length s <= n)%nat) by lia. clear E. revert s L.
  induction n as [|n IH]; intros s L.
  - destruct s; [|cbn in L; lia]. exists []. split; [reflexivity|]. split; [apply blanks_nil|]. intros (x&r&I&E).
    destruct (blank_kinds x I) as [(a&->&_)|[(a&b&->&_)|(a&b&c&->&_)]]; discriminate E.
  - destruct (starts_blank_dec s) as [(x&r&I&->)|N].
    + rewrite trim_left_blank by exact I. destruct (IH r) as (a&E&A&N).
      { rewrite app_length in L. destruct (blank_kinds x I) as [(a&->&_)|[(a&b&->&_)|(a&b&c&->&_)]]; cbn in L; lia. }
      exists (x ++ a). split; [rewrite <- app_assoc; now f_equal|]. split; [now apply blanks_cons|exact N].
    + exists []. rewrite trim_left_not by exact N. split; [reflexivity|]. split; [apply blanks_nil|exact N].
Qed.

(** Trimming from the right: the same, the other way round. *)
Notation trim_rev := (trim_by space1 (fun b a => space2 a b) (fun c b a => space3 a b c)).
Lemma trim_rev_blank x s : In x blank_chars -> trim_rev (rev x ++ s) = trim_rev s.
Proof.
  intro H. destruct (blank_kinds x H) as [(a&->&A)|[(a&b&->&_&A&C)|(a&b&c&->&_&A&_&C&D)]]; cbn [rev app trim_by].
  - rewrite A. reflexivity.
  - rewrite A, C. reflexivity.
  - rewrite A. destruct (space2 b c) eqn:E; [exfalso; exact (C b E eq_refl)|]. rewrite D. reflexivity.
Qed.
Lemma trim_rev_split n : forall s, (List.length s <= n)%nat ->
  exists b, s = b ++ trim_rev s /\ blanks (rev b) /\ ~ ends_blank (rev (trim_rev s)).
Proof.
  assert (E1 : forall x r, In x blank_chars -> forall s, rev s = r ++ x -> s = rev x ++ rev r).
  { intros x r _ s H. rewrite <- (rev_involutive s), H, rev_app_distr. reflexivity. }
  induction n as [|n IH]; intros s L.
  - destruct s; [|cbn in L; lia]. exists []. cbn. split; [reflexivity|]. split; [apply blanks_nil|]. intros (x&r&I&E).
    destruct (blank_kinds x I) as [(a&->&_)|[(a&b&->&_)|(a&b&c&->&_)]]; destruct r; discriminate E.
  - assert (D : (exists x r, In x blank_chars /\ s = rev x ++ r) \/ trim_rev s = s /\ ~ exists x r, In x blank_chars /\ s = rev x ++ r).
    { assert (F : forall x r, In x blank_chars -> s = rev x ++ r ->
                 match s with
                 | [] => False
                 | a :: t => space1 a = true \/ match t with [] => False | b :: t' => space2 b a = true \/ match t' with [] => False | c :: _ => space3 c b a = true end end
                 end).
      { intros x r I ->. destruct (blank_kinds x I) as [(a&->&A)|[(a&b&->&_&A&C)|(a&b&c&->&_&A&_&C&K)]]; cbn; tauto. }
      destruct s as [|a [|b [|c r]]].
      - right. split; [reflexivity|]. intros (x&r&I&E). exact (F _ _ I E).
      - destruct (space1 a) eqn:A; [left; exists [a], []; split; [now apply space1_in|reflexivity]|].
        right. split; [cbn; rewrite A; reflexivity|]. intros (x&r&I&E). specialize (F _ _ I E). cbn in F. destruct F; [discriminate|contradiction].
      - destruct (space1 a) eqn:A; [left; exists [a], [b]; split; [now apply space1_in|reflexivity]|].
        destruct (space2 b a) eqn:C; [left; exists [b; a], []; split; [now apply space2_in|reflexivity]|].
        right. split; [cbn; rewrite A, C; reflexivity|]. intros (x&r&I&E). specialize (F _ _ I E). cbn in F. destruct F as [|[|]]; [discriminate|discriminate|contradiction].
      - destruct (space1 a) eqn:A; [left; exists [a], (b :: c :: r); split; [now apply space1_in|reflexivity]|].
        destruct (space2 b a) eqn:C; [left; exists [b; a], (c :: r); split; [now apply space2_in|reflexivity]|].
        destruct (space3 c b a) eqn:D; [left; exists [c; b; a], r; split; [now apply space3_in|reflexivity]|].
        right. split; [cbn; rewrite A, C, D; reflexivity|]. intros (x&t&I&E). specialize (F _ _ I E). cbn in F. destruct F as [|[|]]; discriminate. }
    destruct D as [(x&r&I&->)|[-> N]].
    + rewrite trim_rev_blank by exact I. destruct (IH r) as (b&E&A&N).
      { rewrite app_length, rev_length in L. destruct (blank_kinds x I) as [(a&->&_)|[(a&b&->&_)|(a&b&c&->&_)]]; cbn in L; lia. }
      exists (rev x ++ b). split; [rewrite <- app_assoc; now f_equal|]. split; [|exact N].
      rewrite rev_app_distr, rev_involutive. apply blanks_app; [exact A|]. rewrite <- (app_nil_r x). apply blanks_cons; [exact I|apply blanks_nil].
    + exists []. split; [reflexivity|]. split; [apply blanks_nil|]. intros (x&r&I&E). apply N. exists x, (rev r). split; [exact I|]. exact (E1 x r I s E).
Qed.

Lemma trim_trimmed s : trimmed s (trim_blanks s).
Proof.
  unfold trim_blanks, trim_blanks_right. destruct (trim_left_split s) as (a&E&A&N). set (t := trim_blanks_left s) in *. clearbody t.
  destruct (trim_rev_split _ (rev t) (le_n _)) as (b&F&C&M). exists a, (rev b).
  assert (G : t = rev (trim_rev (rev t)) ++ rev b) by (rewrite <- rev_app_distr, <- F; symmetry; apply rev_involutive).
  split; [now rewrite <- G|]. split; [exact A|]. split; [exact C|]. split; [|exact M].
  intros (x&r&I&K). apply N. exists x, (r ++ rev b). split; [exact I|]. rewrite G, K, <- app_assoc. reflexivity.
Qed.

(** The first byte of a blank is never one of the further bytes of another. *)
Definition cont (c : byte) : bool := (128 <=? zb c) && (zb c <? 192).
Lemma blank_bytes x : In x blank_chars -> exists c r, x = c :: r /\ cont c = false /\ forall d, In d r -> cont d = true.
Proof.
  unfold blank_chars. cbn [In]. intro H.
  repeat (destruct H as [<-|H]; [do 2 eexists; split; [reflexivity|]; split; [reflexivity|]; cbn [In]; intros d K;
    repeat (destruct K as [<-|K]; [reflexivity|]); destruct K|]). destruct H.
Qed.
Lemma app_cases {A} (a b c d : list A) : a ++ b = c ++ d ->
  (exists e, a = c ++ e /\ d = e ++ b) \/ (exists e, e <> [] /\ c = a ++ e /\ b = e ++ d).
Proof.
  revert c. induction a as [|x a IH]; intros [|y c] H; cbn in H.
  - left. exists []. split; [reflexivity|]. now rewrite H.
  - right. exists (y :: c). split; [discriminate|]. split; [reflexivity|exact H].
  - left. exists (x :: a). split; [reflexivity|]. now rewrite <- H.
  - injection H as -> H. destruct (IH c H) as [(e&->&->)|(e&N&->&->)]; [left; exists e|right; exists e]; repeat split; auto.
Qed.
(** What follows does not matter if it does not begin with a further byte. *)
Lemma starts_blank_app t b : t <> [] -> ~ starts_blank t -> match b with [] => True | c :: _ => cont c = false end -> ~ starts_blank (t ++ b).
Proof.
  intros T N C (x&r&I&E). destruct (app_cases _ _ _ _ E) as [(e&E1&E2)|(e&E0&E1&E2)].
  - apply N. exists x, e. split; assumption.
  - destruct (blank_bytes x I) as (c&rx&X&_&R). destruct t as [|t0 t]; [contradiction|]. destruct e as [|e0 e]; [contradiction|].
    subst b. cbn in C. rewrite X in E1. injection E1 as -> ->. rewrite R in C; [discriminate|]. apply in_or_app. right. now left.
Qed.
Lemma blanks_head b : blanks b -> match b with [] => True | c :: _ => cont c = false end.
Proof. intro H. induction H as [|x s I _ _] using blanks_ind'; [exact Logic.I|]. destruct (blank_bytes x I) as (c&r&->&C&_). exact C. Qed.

Lemma trim_unique s t : trimmed s t -> t = trim_blanks s.
Proof.
  intros (a&b&->&A&C&N&M). unfold trim_blanks. rewrite trim_left_blanks by exact A.
  assert (R : forall u, blanks b -> trim_rev (rev (u ++ b)) = trim_rev (rev u)).
  { intros u. clear. intros (l&->&K). revert K. induction l as [|x l IH] using rev_ind; intro K; cbn [List.concat]; [now rewrite app_nil_r|].
    rewrite concat_app. cbn [List.concat]. rewrite app_nil_r, app_assoc, rev_app_distr, trim_rev_blank.
    - apply IH. intros y I. apply K. apply in_or_app. now left.
    - apply K. apply in_or_app. right. now left. }
  assert (F : forall u, ~ ends_blank u -> trim_rev (rev u) = rev u).
  { intros u K. destruct (trim_rev_split _ (rev u) (le_n _)) as (e&E&D&_). destruct e as [|e0 e]; [now symmetry|]. exfalso. apply K.
    assert (G : u = rev (trim_rev (rev u)) ++ rev (e0 :: e)) by (rewrite <- rev_app_distr, <- E; symmetry; apply rev_involutive).
    destruct D as (l&L&DL). destruct l as [|x l _] using rev_ind.
    - exfalso. cbn in L. apply (f_equal (@List.length byte)) in L. rewrite app_length in L. cbn in L. lia.
    - rewrite L, concat_app in G. cbn [List.concat] in G. rewrite app_nil_r, app_assoc in G.
      exists x, (rev (trim_rev (rev u)) ++ List.concat l). split; [|exact G]. apply DL. apply in_or_app. right. now left. }
  unfold trim_blanks_right. destruct t as [|t0 t].
  - cbn [app]. rewrite <- (app_nil_r b) at 1. rewrite trim_left_blanks by exact C. reflexivity.
  - rewrite trim_left_not by (apply starts_blank_app; [discriminate|exact N|exact (blanks_head b C)]).
    rewrite R by exact C. rewrite F by exact M. symmetry. apply rev_involutive.
Qed.
Theorem trimmed_iff s t : trimmed s t <-> t = trim_blanks s.
Proof. split; [apply trim_unique|]. intros ->. apply trim_trimmed. Qed.
