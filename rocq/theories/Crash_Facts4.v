(** * Auxiliary proofs: the bank's messages as good and bad answers *)
From Coq Require Import Lia.
From Verif Require Import Base BaseFacts Codec_Model Message_Model Dialog_Model Dialog_Spec Client_Model Client_Spec Seg_Model Seg_Spec Seg_Props Answer_Spec Answer_Facts2 Crash_Spec Crash_Facts Crash_Facts2.
Open Scope Z_scope.

Lemma crashing_dec l : crashing l \/ ~ crashing l.
Proof.
  destruct (existsb (fun p => match pc_info p with IKept k => crashes k | _ => false end) (lt_pieces l)) eqn:E.
  - left. apply existsb_exists in E. destruct E as (p&H1&H2). destruct (pc_info p) as [| | | | | | | | | |k|] eqn:Ep; try discriminate.
    exists p, k. auto.
  - right. intros (p&k&H1&H2&H3). assert (X : existsb (fun p => match pc_info p with IKept k => crashes k | _ => false end) (lt_pieces l) = true).
    { apply existsb_exists. exists p. split; [exact H1|]. now rewrite H2. }
    congruence.
Qed.
Lemma news_dec {J} (k : kind J) : is_init k \/ ~ is_init k.
Proof. destruct k; [right|left|right|right]; try (intros (?&?&?&?&X); discriminate). now repeat eexists. Qed.
Definition news_value {Acc} (n : bytes * bytes) : oseg Acc :=
  ONews (if is_nil (fst n) || is_nil (snd n) then Panic else Ok (utf8 (fst n), utf8 (snd n))).
Lemma segs_news {F} l : @letter_segs F l (B "HIKIM") = map news_value (letter_news l).
Proof.
  unfold letter_segs, letter_news. induction (lt_pieces l) as [|p ps IH]; [reflexivity|].
  cbn [flat_map]. rewrite IH, map_app. f_equal. unfold piece_value.
  destruct (pc_info p) as [| | | | | | | | | |k|id v fs] eqn:Ep; cbn [info_id]; try (now destruct (list_eq_dec _ _ _)).
  destruct k; cbn [kept_id]; destruct (list_eq_dec _ _ _) as [Z|Z]; try reflexivity; try (exfalso; discriminate Z); now destruct Z.
Qed.
Lemma segs_filled {F} l id s : letter_ok l -> In s (@letter_segs F l id) -> filled id s.
Proof.
  intros Hok H. unfold letter_segs in H. apply in_flat_map in H. destruct H as (p&Hp&H).
  destruct (list_eq_dec _ _ _) as [E|]; [|destruct H]. subst id.
  unfold piece_value in H. destruct (pc_info p) as [| | | | | | | | | |k|id v fs] eqn:Ep; cbn [info_id]; try (now destruct H);
    destruct H as [<-|[]]; (split; [|split; [|split; [|split; [|split]]]]; intros X; try discriminate X; try (eexists; split; [reflexivity|discriminate])).
  all: destruct k; discriminate X.
Qed.
Lemma segs_params {F} l m : (forall id, ~ In id [B "HIRMG"; B "HIRMS"; B "HNHBK"; B "HNHBS"] -> segs m id = @letter_segs F l id) -> params_readable m.
Proof.
  intros Hs. 
  assert (V : forall id s, In s (@letter_segs F l id) ->
    (id = B "HIBPA" -> exists v, s = OBpd (Ok v)) /\ (id = B "HIPINS" -> s = OPins (Ok tt)) /\
    (id = B "HIUPA" -> exists u, s = OUpd (Ok u)) /\ (id = B "HIUPD" -> exists a, s = OAccount (Ok a))).
  { intros id s H. unfold letter_segs in H. apply in_flat_map in H. destruct H as (p&Hp&H).
    destruct (list_eq_dec _ _ _) as [E|]; [|destruct H]. subst id.
    unfold piece_value in H. destruct (pc_info p) as [| | | | | | | | | |k|id v fs] eqn:Ep; cbn [info_id]; try (now destruct H);
      destruct H as [<-|[]]; (split; [|split; [|split]]; intros X; try discriminate X; try (eexists; reflexivity); try reflexivity).
    all: destruct k; discriminate X. }
  assert (N : forall id, ~ In id [B "HIRMG"; B "HIRMS"; B "HNHBK"; B "HNHBS"] -> forall s, In s (segs m id) -> In s (@letter_segs F l id)).
  { intros id Hid s H. now rewrite (Hs id Hid) in H. }
  unfold params_readable. split; [|split].
  - intros s r E. split.
    + apply (V (B "HIBPA") s); [apply N; [intros X; repeat (destruct X as [X|X]; [discriminate X|]); exact X|rewrite E; now left]|reflexivity].
    + intros p q E2. apply (V (B "HIPINS") p); [apply N; [intros X; repeat (destruct X as [X|X]; [discriminate X|]); exact X|rewrite E2; now left]|reflexivity].
  - intros s r E. apply (V (B "HIUPA") s); [apply N; [intros X; repeat (destruct X as [X|X]; [discriminate X|]); exact X|rewrite E; now left]|reflexivity].
  - apply Forall_forall. intros s Hin. apply (V (B "HIUPD") s); [apply N; [intros X; repeat (destruct X as [X|X]; [discriminate X|]); exact X|exact Hin]|reflexivity].
Qed.

Section Letters.
  Context {J F : Type} (parse_float : bytes -> option F) (neg : F -> F) (value : N -> bytes -> F).
  Hypothesis Hfloat : reads_decimals parse_float value.
  Variable answer : list (entry J) -> option letter.
  Hypothesis Hvalid : forall h l, answer h = Some l -> valid_letter l.
  Notation reader := (others parse_float neg).
  Notation bank := (writes answer).
  Lemma letter_bad h e x : answer (h ++ [e]) = Some x -> crashes_client (kind_of e) x -> bad_answer bank reader h e.
  Proof.
    intros Ha Hc. assert (Eb : bank (h ++ [e]) = Ok (letter_wire x)) by (unfold writes; now rewrite Ha).
    destruct (crashing_dec x) as [C|C].
    - left. exists (letter_wire x). split; [exact Eb|]. eapply letter_crash; eauto.
    - destruct Hc as [?|(I&sub&body&r&En&Hn)]; [contradiction|].
      assert (Hok : letter_ok x) by (apply valid_not_crashing; eauto).
      destruct (letter_read parse_float neg value Hfloat x Hok) as (m&R&_&D&_&_&_&S&_).
      right. split; [exact I|]. exists m, (utf8 (lt_dialog x)), (map news_value r).
      split; [exists (letter_wire x); auto|]. split; [exact D|]. split; [now apply (segs_params x)|].
      rewrite S; [|intros X; repeat (destruct X as [X|X]; [discriminate X|]); exact X]. rewrite segs_news, En. cbn [map].
      unfold news_value at 1. cbn [fst snd]. destruct Hn as [->| ->]; [reflexivity|]. now rewrite orb_true_r.
  Qed.
  Lemma letter_good h e : (forall x, answer (h ++ [e]) = Some x -> ~ crashes_client (kind_of e) x) -> good_answer bank reader h e.
  Proof.
    intros Hn. unfold good_answer, writes. destruct (answer (h ++ [e])) as [x|] eqn:Ha.
    2:{ split; discriminate. }
    split; [discriminate|]. intros raw E. injection E as <-. specialize (Hn x eq_refl).
    assert (C : ~ crashing x) by (intros C; apply Hn; now left).
    assert (Hok : letter_ok x) by (apply valid_not_crashing; eauto).
    destruct (letter_read parse_float neg value Hfloat x Hok) as (m&R&_&D&_&_&_&S&_).
    rewrite R. split; [discriminate|]. intros m' E. assert (m' = m) by congruence. subst m'. clear E.
    split; [split|].
    - exists (utf8 (lt_dialog x)). exact D.
    - intros id s H. destruct (in_dec (list_eq_dec byte_eq_dec) id [B "HIRMG"; B "HIRMS"; B "HNHBK"; B "HNHBS"]) as [X|X].
      + repeat (split; [intros ->; repeat (destruct X as [X|X]; [discriminate X|]); destruct X|]).
        intros ->; repeat (destruct X as [X|X]; [discriminate X|]); destruct X.
      + rewrite (S id X) in H. eapply segs_filled; eauto.
    - intros I s r E. rewrite S in E; [|intros X; repeat (destruct X as [X|X]; [discriminate X|]); exact X]. rewrite segs_news in E.
      destruct (letter_news x) as [|[sub body] l] eqn:En; [discriminate|]. cbn [map] in E. injection E as <- _.
      unfold news_value. cbn [fst snd]. eexists. split; [reflexivity|].
      destruct sub as [|s0 sub]; [exfalso; apply Hn; right; split; [exact I|]; exists [], body, l; auto|].
      destruct body as [|b0 body]; [exfalso; apply Hn; right; split; [exact I|]; exists (s0 :: sub), [], l; auto|].
      discriminate.
  Qed.
  Lemma one_crashes_bad h t : one_crashes answer h t -> one_bad bank reader h t.
  Proof.
    intros (b&e&a&x&E&Ha&Hc). exists b, e, a. split; [exact E|]. apply letter_bad with x; [|exact Hc]. now rewrite <- app_assoc.
  Qed.
  Lemma none_crashes_good h t : ~ one_crashes answer h t -> all_good bank reader h t.
  Proof.
    intros N b e a E. apply letter_good. intros x Ha Hc. apply N. exists b, e, a, x. rewrite app_assoc. auto.
  Qed.
  Lemma all_good_split h t1 t2 : all_good bank reader h (t1 ++ t2) -> all_good bank reader h t1 /\ all_good bank reader (h ++ t1) t2.
  Proof.
    intros H1. split.
    - intros b e a ->. apply (H1 b e (a ++ t2)). now rewrite <- app_assoc.
    - intros b e a ->. specialize (H1 (t1 ++ b) e a ltac:(now rewrite <- app_assoc)). now rewrite <- app_assoc.
  Qed.
  Lemma crashes_client_dec {K} (k : kind K) l : crashes_client k l \/ ~ crashes_client k l.
  Proof.
    destruct (crashing_dec l) as [C|C]; [left; now left|]. destruct (news_dec k) as [I|I].
    2:{ right. intros [?|[? _]]; contradiction. }
    destruct (letter_news l) as [|[s b] r] eqn:E.
    - right. intros [?|(_&s&b&r&X&_)]; [contradiction|congruence].
    - destruct s as [|s0 s]; [left; right; split; [exact I|]; exists [], b, r; auto|].
      destruct b as [|b0 b]; [left; right; split; [exact I|]; exists (s0 :: s), [], r; auto|].
      right. intros [?|(_&s'&b'&r'&X&H)]; [contradiction|]. rewrite E in X. injection X as <- <- _. destruct H; discriminate.
  Qed.
  Lemma one_crashes_dec h t : one_crashes answer h t \/ ~ one_crashes answer h t.
  Proof.
    revert h. induction t as [|e t IH]; intros h.
    - right. intros (b&e&a&x&E&_). destruct b; discriminate.
    - destruct (IH (h ++ [e])) as [H|H].
      + left. destruct H as (b&e'&a&x&->&Ha&Hc). exists (e :: b), e', a, x. split; [reflexivity|]. split; [|exact Hc].
        rewrite <- app_assoc in Ha. exact Ha.
      + assert (D : (exists x, answer (h ++ [e]) = Some x /\ crashes_client (kind_of e) x) \/ ~ exists x, answer (h ++ [e]) = Some x /\ crashes_client (kind_of e) x).
        { destruct (answer (h ++ [e])) as [x|].
          - destruct (crashes_client_dec (kind_of e) x) as [C|C]; [left; now exists x|]. right. intros (y&E&Hy). assert (y = x) by congruence. now subst.
          - right. intros (y&E&_). discriminate. }
        destruct D as [(x&Ha&Hc)|D].
        * left. exists [], e, t, x. auto.
        * right. intros (b&e'&a&x&E&Ha&Hc). destruct b as [|b0 b].
          -- cbn in E. assert (e' = e) by congruence. subst. apply D. now exists x.
          -- cbn in E. injection E as -> ->. apply H. exists b, e', a, x. split; [reflexivity|]. split; [|exact Hc]. rewrite <- app_assoc. exact Ha.
  Qed.
  (** Sound and safe calls crash exactly then. *)
  Lemma exactly {A} (m : @act J _ A) (Q : A -> Prop) : sound bank reader m -> safe (all_good bank reader) m Q ->
    forall w t, w_sent (fst (m w)) = w_sent w ++ t -> (snd (m w) = Panic <-> one_crashes answer (w_sent w) t).
  Proof.
    intros H1 H2 w t E. destruct (H1 w) as (t1&E1&P1). destruct (H2 w) as (t2&E2&P2).
    rewrite E in E1, E2. apply app_inv_head in E1, E2. subst t1 t2. split; intros H.
    - destruct (one_crashes_dec (w_sent w) t) as [C|C]; [exact C|]. apply none_crashes_good in C. now destruct (proj1 (P2 C)).
    - apply P1. now apply one_crashes_bad.
  Qed.
End Letters.
