(** * Proofs about the SWIFT lexer *)
From Verif Require Import Base BaseFacts Lexer_Model Lexer_Spec Lexer_Proofs Swift_Model Swift_Spec.
From Coq Require Import Lia ZifyBool ZifyNat ZifyN.
Ltac Zify.zify_post_hook ::= Z.div_mod_to_equations.
Open Scope Z_scope.

Lemma take_while_digits s : take_while is_digit s = take_digits s.
Proof. induction s as [|c s IH]; simpl; [reflexivity|]. now rewrite IH. Qed.
Lemma drop_while_digits s : drop_while is_digit s = drop_digits s.
Proof. induction s as [|c s IH]; simpl; [reflexivity|]. now rewrite IH. Qed.
Lemma while_split f s : take_while f s ++ drop_while f s = s.
Proof. induction s as [|c s IH]; simpl; [reflexivity|]. destruct (f c); simpl; congruence. Qed.

(** ** Runs of the state machine, independent of the fuel *)
Definition ends (inp : bytes) (c : nat) (k : sstate) (a p : Z) (R : list token * lex_end) : Prop :=
  forall f, (c <= f)%nat -> run_lexer (sw_step inp) f k a p = R.

Lemma ends_goto inp c k a p k' a' p' R : sw_step inp k a p = LGoto k' a' p' ->
  ends inp c k' a' p' R -> ends inp (S c) k a p R.
Proof.
  intros E H f Hf. destruct f as [|f]; [lia|]. cbn [run_lexer]. rewrite E. apply H. lia.
Qed.
Lemma ends_emit inp c k a p t k' a' p' ts e : sw_step inp k a p = LEmit t k' a' p' ->
  ends inp c k' a' p' (ts, e) -> ends inp (S c) k a p (t :: ts, e).
Proof.
  intros E H f Hf. destruct f as [|f]; [lia|]. cbn [run_lexer]. rewrite E, (H f) by lia. reflexivity.
Qed.
Lemma ends_done inp k a p t : sw_step inp k a p = LDone t -> ends inp 1 k a p ([t], EndDone).
Proof. intros E f Hf. destruct f as [|f]; [lia|]. cbn [run_lexer]. now rewrite E. Qed.
Lemma ends_le inp c c' k a p R : (c <= c')%nat -> ends inp c k a p R -> ends inp c' k a p R.
Proof. intros Hc H f Hf. apply H. lia. Qed.

Definition st (g : goal) : sstate :=
  match g with GEntry => SwEntry | GTag => SwTag | GStart => SwStart end.

(** The token that begins at [a], of the text [s], is [g], within [c] steps. *)
Definition gives (inp : bytes) (a : Z) (s : bytes) (c : nat) (k : sstate) (p : Z) (g : gres) : Prop :=
  match g with
  | GTok ty n g' =>
      forall c' ts e, ends inp c' (st g') (a + Z.of_nat n) (a + Z.of_nat n) (ts, e) ->
      ends inp (c + c') k a p (mkTok ty (firstn n s) a :: ts, e)
  | GErr => ends inp c k a p ([mkTok T_ERROR [] a], EndDone)
  | GEof n => ends inp c k a p ([mkTok T_EOF (firstn n s) a], EndDone)
  end.
Lemma gives_goto inp a s c k p k' p' g : sw_step inp k a p = LGoto k' a p' ->
  gives inp a s c k' p' g -> gives inp a s (S c) k p g.
Proof.
  intros E. destruct g as [ty n g'| |n]; simpl; intros H.
  - intros c' ts e He. exact (ends_goto _ _ _ _ _ _ _ _ _ E (H c' ts e He)).
  - exact (ends_goto _ _ _ _ _ _ _ _ _ E H).
  - exact (ends_goto _ _ _ _ _ _ _ _ _ E H).
Qed.
Lemma gives_le inp a s c c' k p g : (c <= c')%nat -> gives inp a s c k p g -> gives inp a s c' k p g.
Proof.
  intros Hc. destruct g as [ty n g'| |n]; simpl; intros H.
  - intros c2 ts e He. apply (ends_le _ (c + c2)); [lia|]. now apply H.
  - now apply (ends_le _ c).
  - now apply (ends_le _ c).
Qed.
Lemma gives_emit inp a s k p ty n g : view inp a s -> (n <= List.length s)%nat ->
  sw_step inp k a p = l_emit inp ty (st g) a (a + Z.of_nat n) -> gives inp a s 1 k p (GTok ty n g).
Proof.
  intros Hv Hn E c' ts e He. unfold l_emit in E. rewrite (view_slice _ _ _ _ Hv Hn) in E.
  exact (ends_emit _ _ _ _ _ _ _ _ _ _ _ E He).
Qed.
Lemma gives_err inp a s k p : sw_step inp k a p = l_errorf a -> gives inp a s 1 k p GErr.
Proof. intros E. exact (ends_done _ _ _ _ _ E). Qed.

(** ** Character classes *)
Definition safe (c : byte) : bool := negb (beq c b_nul || beq c b_cr).
Lemma class_facts c :
  (is_digit c = true -> is_capital c = false /\ beq c b_cr = false /\ beq c b_nul = false /\ beq c b_comma = false /\ safe c = true /\ beq c b_colon = false) /\
  (is_capital c = true -> is_digit c = false /\ beq c b_cr = false /\ beq c b_nul = false /\ safe c = true /\ beq c b_colon = false) /\
  (safe c = true -> beq c b_cr = false /\ beq c b_nul = false) /\
  (beq c b_cr = true -> is_digit c = false /\ is_capital c = false /\ beq c b_nul = false) /\
  (beq c b_nul = true -> is_digit c = false /\ is_capital c = false /\ beq c b_cr = false) /\
  (beq c b_colon = true -> is_digit c = false /\ is_capital c = false).
Proof. destruct c; vm_compute; repeat split; intros; try discriminate; reflexivity. Qed.

Lemma boundary_view inp p s : view inp p s -> s <> [] -> tag_boundary inp p = Ok (boundary s).
Proof.
  intros Hv Hs. destruct s as [|c r]; [congruence|]. unfold tag_boundary.
  rewrite (accept_cons _ _ _ _ _ Hv). unfold boundary.
  assert (Ec : beq b_cr c = beq c b_cr) by (destruct c; reflexivity). rewrite Ec.
  destruct (beq c b_cr) eqn:E1; [|now destruct r].
  pose proof (view_adv _ _ _ _ Hv) as Hv1.
  destruct r as [|d t].
  { unfold l_accept. rewrite (view_next_nil _ _ Hv1). reflexivity. }
  rewrite (accept_cons _ _ _ _ _ Hv1).
  assert (Ed : beq b_lf d = beq d b_lf) by (destruct d; reflexivity). rewrite Ed.
  destruct (beq d b_lf) eqn:E2; [|reflexivity].
  pose proof (view_adv _ _ _ _ Hv1) as Hv2.
  unfold l_rest. pose proof (view_range _ _ _ Hv2) as [_ Hr].
  rewrite <- Hr. unfold len at 1. rewrite (view_slice _ _ _ _ Hv2) by lia. rewrite firstn_all.
  f_equal. cbn [andb]. clear -t.
  destruct t as [|x [|y [|z u]]]; unfold len; cbn [has_prefix List.length bytes_eqb].
  - reflexivity.
  - rewrite !andb_false_r, andb_true_r. simpl. destruct x; reflexivity.
  - simpl Z.of_nat. simpl Z.ltb. cbv iota. rewrite !andb_false_r, !andb_true_r, !orb_false_r.
    destruct x; try reflexivity; destruct y; reflexivity.
  - replace (Z.of_nat (S (S (S (List.length u)))) <? 3) with false by lia.
    destruct x; try reflexivity; cbn; try (destruct y; reflexivity); destruct y; try reflexivity; destruct z; reflexivity.
Qed.

(** ** Free text *)
Lemma free_length_safe ps s : forallb safe ps = true ->
  free_length (ps ++ s) = option_map (fun n => (List.length ps + n)%nat) (free_length s).
Proof.
  induction ps as [|c ps IH]; intros H; cbn [forallb app] in *.
  - destruct (free_length s); reflexivity.
  - apply andb_true_iff in H. destruct H as [H1 H2]. cbn [free_length].
    destruct (class_facts c) as (_ & _ & F & _). destruct (F H1) as [-> ->]. cbn [andb].
    rewrite (IH H2). destruct (free_length s); reflexivity.
Qed.
Lemma free_length_spec s : forall n, free_length s = Some n ->
  exists t, skipn n s = b_cr :: t /\ boundary (b_cr :: t) = true /\ (n < List.length s)%nat.
Proof.
  induction s as [|c r IH]; intros n; cbn [free_length]; [discriminate|].
  destruct (beq c b_nul); [discriminate|]. destruct (beq c b_cr) eqn:E; cbn [andb].
  - apply beq_true in E. subst c. destruct (boundary (b_cr :: r)) eqn:Eb.
    + intros H. injection H as <-. exists r. repeat split; [assumption|simpl; lia].
    + destruct (free_length r) as [m|]; [|discriminate]. intros H. injection H as <-.
      destruct (IH m eq_refl) as (t & H1 & H2 & H3). exists t. repeat split; try assumption. simpl. lia.
  - destruct (free_length r) as [m|]; [|discriminate]. intros H. injection H as <-.
    destruct (IH m eq_refl) as (t & H1 & H2 & H3). exists t. repeat split; try assumption. simpl. lia.
Qed.

Lemma symbol_of_start inp p t c R : view inp p (b_cr :: t) -> ends inp c SwStart p p R -> ends inp c SwSymbol p p R.
Proof.
  intros Hv H f Hf. rewrite <- (H (S f)) by lia. cbn [run_lexer sw_step]. unfold sw_start.
  rewrite (view_next_cons _ _ _ _ Hv).
  change (is_digit b_cr) with false. change (is_capital b_cr) with false. change (beq b_cr b_cr) with true. cbv iota.
  unfold l_backup. now replace (p + 1 - 1) with p by lia.
Qed.

Lemma alnum_step inp a p c r : view inp p (c :: r) ->
  sw_alnum inp a p = if beq c b_cr then if boundary (c :: r) then l_emit inp TS_ALPHANUMERIC SwSymbol a p else LGoto SwAlnum a (p + 1)
                     else if beq c b_nul then l_errorf a else LGoto SwAlnum a (p + 1).
Proof.
  intros Hv. unfold sw_alnum. rewrite (view_next_cons _ _ _ _ Hv).
  unfold l_backup. replace (p + 1 - 1) with p by lia.
  rewrite (boundary_view _ _ _ Hv) by discriminate. rewrite (view_next_cons _ _ _ _ Hv).
  destruct (beq c b_cr); [|reflexivity]. destruct (boundary (c :: r)); reflexivity.
Qed.

(** From any place inside the token. *)
Lemma alnum_ends inp a S0 : forall s ps, S0 = ps ++ s -> view inp a S0 ->
  gives inp a S0 (List.length s + 1) SwAlnum (a + len ps)
    (match free_length s with Some n => GTok TS_ALPHANUMERIC (List.length ps + n) GStart | None => GErr end).
Proof.
  intros s. induction s as [|c r IH]; intros ps -> Hv.
  - rewrite app_nil_r in *. apply (gives_le _ _ _ 1); [lia|]. apply gives_err. cbn [sw_step]. unfold sw_alnum.
    pose proof Hv as Hv1. rewrite <- (app_nil_r ps) in Hv1. apply view_app in Hv1.
    rewrite (view_next_nil _ _ Hv1). reflexivity.
  - pose proof (view_app _ _ _ _ Hv) as Hv1. pose proof (alnum_step inp a _ _ _ Hv1) as Hs.
    cbn [free_length].
    assert (IH' : gives inp a (ps ++ c :: r) (List.length r + 1) SwAlnum (a + len ps + 1)
      (match free_length r with Some n => GTok TS_ALPHANUMERIC (List.length ps + S n) GStart | None => GErr end)).
    { specialize (IH (ps ++ [c])). rewrite <- app_assoc in IH. specialize (IH eq_refl Hv).
      rewrite len_app in IH. change (len [c]) with 1 in IH. rewrite Z.add_assoc in IH.
      destruct (free_length r) as [n|]; [|exact IH].
      rewrite app_length in IH. replace (List.length ps + S n)%nat with (List.length ps + List.length [c] + n)%nat by (simpl; lia).
      exact IH. }
    destruct (beq c b_cr) eqn:Ecr; cbn [andb].
    + destruct (class_facts c) as (_ & _ & _ & F & _). destruct (F Ecr) as (_ & _ & En). rewrite En.
      destruct (boundary (c :: r)) eqn:Eb.
      * intros c' ts e He. rewrite Nat.add_0_r in *.
        apply (ends_le _ (S c')); [simpl; lia|].
        apply beq_true in Ecr. subst c. unfold l_emit in Hs.
        pose proof (view_slice _ _ _ (List.length ps) Hv ltac:(rewrite app_length; lia)) as Hsl.
        fold (len ps) in Hsl. rewrite Hsl in Hs.
        change (sw_alnum inp a (a + len ps)) with (sw_step inp SwAlnum a (a + len ps)) in Hs.
        refine (ends_emit _ _ _ _ _ _ _ _ _ _ _ Hs _).
        eapply symbol_of_start; [exact Hv1|]. exact He.
      * replace (List.length (c :: r) + 1)%nat with (S (List.length r + 1)) by (simpl; lia).
        destruct (free_length r) as [n|]; cbn [option_map]; eapply gives_goto; [exact Hs|exact IH'|exact Hs|exact IH'].
    + destruct (beq c b_nul) eqn:En.
      * apply (gives_le _ _ _ 1); [lia|]. apply gives_err. exact Hs.
      * replace (List.length (c :: r) + 1)%nat with (S (List.length r + 1)) by (simpl; lia).
        destruct (free_length r) as [n|]; cbn [option_map]; eapply gives_goto; [exact Hs|exact IH'|exact Hs|exact IH'].
Qed.
Lemma free_gives inp a ps s : view inp a (ps ++ s) -> forallb safe ps = true ->
  gives inp a (ps ++ s) (List.length s + 1) SwAlnum (a + len ps) (free_text (ps ++ s)).
Proof.
  intros Hv Hs. unfold free_text. rewrite (free_length_safe _ _ Hs).
  pose proof (alnum_ends inp a _ s ps eq_refl Hv) as H. destruct (free_length s); exact H.
Qed.

(** ** Capitals and digits *)
Lemma sw_character_cons inp a p c r : view inp p (c :: r) ->
  sw_character inp a p = if cap_or_digit c then LGoto SwCharacter a (p + 1)
    else if beq c b_cr then l_emit inp TS_CHARACTER SwStart a p
    else if beq c b_nul then l_errorf a else LGoto SwAlnum a (p + 1).
Proof.
  intros Hv. unfold sw_character, cap_or_digit. rewrite (view_next_cons _ _ _ _ Hv). unfold l_backup.
  replace (p + 1 - 1) with p by lia. destruct (is_capital c); [reflexivity|]. now destruct (is_digit c).
Qed.
Lemma free_text_nul ps s c : forallb safe ps = true -> beq c b_nul = true -> free_text (ps ++ c :: s) = GErr.
Proof. intros H E. unfold free_text. rewrite (free_length_safe _ _ H). cbn [free_length]. now rewrite E. Qed.

Lemma cap_safe c : is_capital c = true -> safe c = true.
Proof. intros H. destruct (class_facts c) as (_ & F & _). now destruct (F H) as (_ & _ & _ & ? & _). Qed.
Lemma digit_safe c : is_digit c = true -> safe c = true.
Proof. intros H. destruct (class_facts c) as (F & _). now destruct (F H) as (_ & _ & _ & _ & ? & _). Qed.
Lemma cd_safe c : cap_or_digit c = true -> safe c = true.
Proof. unfold cap_or_digit. intros H. apply orb_true_iff in H. destruct H; [now apply cap_safe|now apply digit_safe]. Qed.
Lemma forallb_weaken (f g : byte -> bool) l : (forall c, f c = true -> g c = true) -> forallb f l = true -> forallb g l = true.
Proof. intros H. rewrite !forallb_forall. intros K x Hx. auto. Qed.
Lemma safe_snoc ps c : forallb safe ps = true -> safe c = true -> forallb safe (ps ++ [c]) = true.
Proof. intros H1 H2. rewrite forallb_app, H1. simpl. now rewrite H2. Qed.

Lemma char_gives inp a S0 : forall s ps, S0 = ps ++ s -> view inp a S0 -> forallb safe ps = true ->
  gives inp a S0 (List.length s + 2) SwCharacter (a + len ps)
    (match drop_while cap_or_digit s with
     | d :: _ => if beq d b_cr then GTok TS_CHARACTER (List.length ps + List.length (take_while cap_or_digit s)) GStart
                 else free_text S0
     | [] => GErr
     end).
Proof.
  intros s. induction s as [|c r IH]; intros ps -> Hv Hps.
  - rewrite app_nil_r in *. apply (gives_le _ _ _ 1); [lia|]. apply gives_err. cbn [sw_step]. unfold sw_character.
    pose proof Hv as Hv1. rewrite <- (app_nil_r ps) in Hv1. apply view_app in Hv1.
    rewrite (view_next_nil _ _ Hv1). reflexivity.
  - pose proof (view_app _ _ _ _ Hv) as Hv1. pose proof (sw_character_cons inp a _ _ _ Hv1) as Hs.
    cbn [drop_while take_while].
    replace (List.length (c :: r) + 2)%nat with (S (List.length r + 2)) by (simpl; lia).
    destruct (cap_or_digit c) eqn:Ecd.
    + eapply gives_goto; [exact Hs|]. specialize (IH (ps ++ [c])). rewrite <- app_assoc in IH.
      specialize (IH eq_refl Hv (safe_snoc _ _ Hps (cd_safe _ Ecd))).
      rewrite len_app in IH. change (len [c]) with 1 in IH. rewrite Z.add_assoc in IH.
      rewrite app_length in IH. simpl (List.length [c]) in IH. cbn [app List.length] in *.
      replace (List.length ps + S (List.length (take_while cap_or_digit r)))%nat
        with (List.length ps + 1 + List.length (take_while cap_or_digit r))%nat by lia.
      exact IH.
    + destruct (beq c b_cr) eqn:Ecr.
      * simpl (List.length []). rewrite Nat.add_0_r. apply (gives_le _ _ _ 1); [lia|].
        apply gives_emit; [exact Hv|rewrite app_length; lia|exact Hs].
      * destruct (beq c b_nul) eqn:En.
        { rewrite (free_text_nul _ _ _ Hps En). apply (gives_le _ _ _ 1); [lia|]. now apply gives_err. }
        assert (Hc : safe c = true) by (unfold safe; rewrite Ecr, En; reflexivity).
        eapply gives_goto; [exact Hs|].
        pose proof (free_gives inp a (ps ++ [c]) r) as F. rewrite <- app_assoc in F.
        specialize (F Hv (safe_snoc _ _ Hps Hc)). rewrite len_app in F. change (len [c]) with 1 in F.
        rewrite Z.add_assoc in F. eapply gives_le; [|exact F]. lia.
Qed.

Lemma sw_alpha_cons inp a p c r : view inp p (c :: r) ->
  sw_alpha inp a p = if is_capital c then LGoto SwAlpha a (p + 1)
    else if is_digit c then LGoto SwCharacter a (p + 1)
    else if beq c b_cr then l_emit inp TS_ALPHA SwStart a p
    else if beq c b_nul then l_errorf a else LGoto SwAlnum a (p + 1).
Proof.
  intros Hv. unfold sw_alpha. rewrite (view_next_cons _ _ _ _ Hv). unfold l_backup.
  now replace (p + 1 - 1) with p by lia.
Qed.

Lemma alpha_gives inp a S0 : forall s ps, S0 = ps ++ s -> view inp a S0 -> forallb is_capital ps = true ->
  gives inp a S0 (List.length s + 3) SwAlpha (a + len ps)
    (match drop_while is_capital s with
     | d :: _ =>
         if beq d b_cr then GTok TS_ALPHA (List.length ps + List.length (take_while is_capital s)) GStart
         else match drop_while cap_or_digit s with
              | e :: _ => if is_digit d && beq e b_cr then GTok TS_CHARACTER (List.length ps + List.length (take_while cap_or_digit s)) GStart
                          else free_text S0
              | [] => GErr
              end
     | [] => GErr
     end).
Proof.
  intros s. induction s as [|c r IH]; intros ps -> Hv Hps.
  - rewrite app_nil_r in *. apply (gives_le _ _ _ 1); [lia|]. apply gives_err. cbn [sw_step]. unfold sw_alpha.
    pose proof Hv as Hv1. rewrite <- (app_nil_r ps) in Hv1. apply view_app in Hv1.
    rewrite (view_next_nil _ _ Hv1). reflexivity.
  - pose proof (forallb_weaken _ _ _ cap_safe Hps) as Hsf.
    pose proof (view_app _ _ _ _ Hv) as Hv1. pose proof (sw_alpha_cons inp a _ _ _ Hv1) as Hs.
    cbn [drop_while take_while].
    replace (List.length (c :: r) + 3)%nat with (S (List.length r + 3)) by (simpl; lia).
    destruct (is_capital c) eqn:Ec.
    + assert (Ecd : cap_or_digit c = true) by (unfold cap_or_digit; now rewrite Ec). rewrite Ecd.
      eapply gives_goto; [exact Hs|]. specialize (IH (ps ++ [c])). rewrite <- app_assoc in IH.
      assert (Hps' : forallb is_capital (ps ++ [c]) = true) by (rewrite forallb_app, Hps; simpl; now rewrite Ec).
      specialize (IH eq_refl Hv Hps').
      rewrite len_app in IH. change (len [c]) with 1 in IH. rewrite Z.add_assoc in IH.
      rewrite app_length in IH. simpl (List.length [c]) in IH. cbn [app List.length] in *.
      replace (List.length ps + S (List.length (take_while is_capital r)))%nat
        with (List.length ps + 1 + List.length (take_while is_capital r))%nat by lia.
      replace (List.length ps + S (List.length (take_while cap_or_digit r)))%nat
        with (List.length ps + 1 + List.length (take_while cap_or_digit r))%nat by lia.
      exact IH.
    + destruct (beq c b_cr) eqn:Ecr.
      * destruct (class_facts c) as (_ & _ & _ & F & _). destruct (F Ecr) as (Ed & _ & _). rewrite Ed in Hs.
        simpl (List.length []). rewrite Nat.add_0_r. apply (gives_le _ _ _ 1); [lia|].
        apply gives_emit; [exact Hv|rewrite app_length; lia|exact Hs].
      * change (cap_or_digit c) with (is_capital c || is_digit c). rewrite Ec. cbn [orb].
        destruct (is_digit c) eqn:Ed; cbn [andb].
        { eapply gives_goto; [exact Hs|].
          pose proof (char_gives inp a (ps ++ c :: r) r (ps ++ [c])) as K. rewrite <- app_assoc in K.
          specialize (K eq_refl Hv (safe_snoc _ _ Hsf (digit_safe _ Ed))).
          rewrite len_app in K. change (len [c]) with 1 in K. rewrite Z.add_assoc in K.
          rewrite app_length in K. simpl (List.length [c]) in K. cbn [List.length].
          replace (List.length ps + S (List.length (take_while cap_or_digit r)))%nat
            with (List.length ps + 1 + List.length (take_while cap_or_digit r))%nat by lia.
          eapply gives_le; [|exact K]. lia. }
        destruct (beq c b_nul) eqn:En.
        { rewrite (free_text_nul _ _ _ Hsf En). apply (gives_le _ _ _ 1); [lia|]. now apply gives_err. }
        assert (Hc : safe c = true) by (unfold safe; rewrite Ecr, En; reflexivity).
        eapply gives_goto; [exact Hs|].
        pose proof (free_gives inp a (ps ++ [c]) r) as F. rewrite <- app_assoc in F.
        specialize (F Hv (safe_snoc _ _ Hsf Hc)). rewrite len_app in F. change (len [c]) with 1 in F.
        rewrite Z.add_assoc in F. eapply gives_le; [|exact F]. lia.
Qed.

(** ** Digits *)
Lemma digits_safe ds : forallb is_digit ds = true -> forallb safe ds = true.
Proof. apply forallb_weaken. exact digit_safe. Qed.
Lemma drop_cd_digits ds r : forallb is_digit ds = true ->
  drop_while cap_or_digit (ds ++ r) = drop_while cap_or_digit r /\
  take_while cap_or_digit (ds ++ r) = ds ++ take_while cap_or_digit r.
Proof.
  induction ds as [|d ds IH]; intros H; [split; reflexivity|]. simpl in H. apply andb_true_iff in H.
  destruct H as [H1 H2]. destruct (IH H2) as [I1 I2]. cbn [app drop_while take_while].
  assert (E : cap_or_digit d = true) by (unfold cap_or_digit; now rewrite H1, orb_true_r).
  rewrite E, I1, I2. split; reflexivity.
Qed.
Lemma ne_last (ds : bytes) : ds <> [] -> exists u d, ds = u ++ [d].
Proof. intros H. destruct (exists_last H) as (u & d & ->). now exists u, d. Qed.

Lemma last_digit u d : forallb is_digit (u ++ [d]) = true -> is_digit d = true.
Proof.
  rewrite forallb_app. intros H. apply andb_true_iff in H. destruct H as [_ H].
  cbn [forallb] in H. now apply andb_true_iff in H.
Qed.
Lemma comma_beq c : beq b_comma c = beq c b_comma.
Proof. destruct c; reflexivity. Qed.

Lemma digit_gives inp a c s : view inp a (c :: s) -> is_digit c = true ->
  gives inp a (c :: s) (List.length s + 4) SwDigit (a + 1) (value (c :: s)).
Proof.
  intros Hv Hc. pose proof (view_adv _ _ _ _ Hv) as Hv1.
  unfold value. rewrite take_while_digits, drop_while_digits.
  cbn [take_digits drop_digits]. rewrite Hc.
  pose proof (take_drop s) as Hsp. pose proof (take_digits_all s) as Hall.
  set (ds := take_digits s) in *. 
  assert (Hrun : l_accept_run (loop_fuel inp) inp is_digit (a + 1) =
     Some (Ok (match drop_digits s with [] => a + 1 + len ds - 1 | _ => a + 1 + len ds end))).
  { apply (accept_run_view _ _ _ s Hv1). eapply fuel_ok; eassumption. }
  assert (HallC : forallb is_digit (c :: ds) = true) by (simpl; now rewrite Hc).
  destruct (drop_digits s) as [|x r'] eqn:Er.
  - (* only digits to the end of the input *)
    rewrite app_nil_r in Hsp.
    destruct (ne_last (c :: ds) ltac:(discriminate)) as (u & d & Hu).
    assert (Hlen : a + 1 + len ds - 1 = a + len u).
    { assert (L : len (c :: ds) = len (u ++ [d])) by (now rewrite Hu). autorewrite with len in L. lia. }
    assert (Hvu : view inp (a + len u) (d :: [])).
    { apply (view_app inp a u [d]). rewrite <- Hu, Hsp. exact Hv. }
    assert (Hd : is_digit d = true).
    { rewrite Hu in HallC. exact (last_digit _ _ HallC). }
    assert (Hus : forallb safe (u ++ [d]) = true) by (rewrite <- Hu; now apply digits_safe).
    replace (List.length s + 4)%nat with (S (List.length s + 3)) by lia.
    eapply gives_goto.
    { cbn [sw_step]. unfold sw_digit. rewrite Hrun, Hlen, (accept_cons _ _ _ _ _ Hvu), comma_beq.
      destruct (class_facts d) as (F & _). destruct (F Hd) as (_ & E1 & _ & E2 & _). rewrite E2.
      rewrite (boundary_view _ _ _ Hvu) by discriminate. reflexivity. }
    assert (Hu' : u ++ [d] = c :: s) by (rewrite <- Hu, Hsp; reflexivity).
    pose proof (char_gives inp a (c :: s) [d] u (eq_sym Hu') Hv) as K.
    rewrite forallb_app in Hus. apply andb_true_iff in Hus. destruct Hus as [Hus _].
    specialize (K Hus). cbn [drop_while] in K. unfold cap_or_digit in K at 1. rewrite Hd, orb_true_r in K.
    cbn [drop_while] in K. eapply gives_le; [|exact K]. simpl. lia.
  - assert (Hvx : view inp (a + 1 + len ds) (x :: r')).
    { apply view_app. rewrite Hsp. exact Hv1. }
    assert (Hnd : is_digit x = false) by (eapply drop_digits_head; exact Er).
    assert (Hstep : sw_step inp SwDigit a (a + 1) =
       if beq x b_comma then
         match drop_digits r' with
         | y :: _ => if beq y b_cr then l_emit inp TS_DECIMAL SwStart a (a + Z.of_nat (List.length (c :: ds) + 1 + List.length (take_digits r')))
                     else LGoto SwAlnum a (a + len (c :: ds ++ x :: take_digits r'))
         | [] => LGoto SwAlnum a (a + len (c :: ds ++ x :: take_digits r') - 1)
         end
       else if boundary (x :: r') then l_emit inp TS_NUMERIC SwStart a (a + Z.of_nat (List.length (c :: ds)))
            else LGoto SwCharacter a (a + len (c :: ds))).
    { cbn [sw_step]. unfold sw_digit. rewrite Hrun, (accept_cons _ _ _ _ _ Hvx), comma_beq.
      assert (Hp : a + 1 + len ds = a + len (c :: ds)) by (autorewrite with len; lia).
      destruct (beq x b_comma) eqn:Ex.
      - pose proof (view_adv _ _ _ _ Hvx) as Hvr.
        rewrite (accept_run_view _ _ _ r' Hvr) by (eapply fuel_ok; eassumption).
        pose proof (take_drop r') as Hsp2. pose proof (take_digits_all r') as Hall2.
        destruct (drop_digits r') as [|y t] eqn:Ey.
        + rewrite app_nil_r in Hsp2.
          destruct (ne_last (x :: take_digits r') ltac:(discriminate)) as (u & d & Hu).
          assert (Hl2 : a + 1 + len ds + 1 + len (take_digits r') - 1 = a + 1 + len ds + len u).
          { assert (L : len (x :: take_digits r') = len (u ++ [d])) by (now rewrite Hu). autorewrite with len in L. lia. }
          assert (Hvu : view inp (a + 1 + len ds + len u) (d :: [])).
          { apply view_app. rewrite <- Hu, Hsp2. exact Hvx. }
          rewrite Hl2, (peek_cons _ _ _ _ Hvu).
          assert (Hdcr : beq d b_cr = false).
          { destruct u as [|u0 u1].
            - simpl in Hu. injection Hu as Hu _. rewrite <- Hu. apply beq_true in Ex. now rewrite Ex.
            - cbn in Hu. injection Hu as _ Hu. rewrite Hu in Hall2.
              destruct (class_facts d) as (F & _). apply F. exact (last_digit _ _ Hall2). }
          rewrite Hdcr. f_equal. rewrite <- Hl2. autorewrite with len. lia.
        + assert (Hvy : view inp (a + 1 + len ds + 1 + len (take_digits r')) (y :: t)).
          { apply view_app. rewrite Hsp2. exact Hvr. }
          rewrite (peek_cons _ _ _ _ Hvy).
          destruct (beq y b_cr); f_equal; autorewrite with len; unfold len; cbn [List.length]; lia.
      - rewrite (boundary_view _ _ _ Hvx) by discriminate.
        destruct (boundary (x :: r')); f_equal; autorewrite with len; unfold len; cbn [List.length]; lia. }
    assert (HS : c :: s = (c :: ds) ++ x :: r') by (cbn [app]; now rewrite Hsp).
    destruct (beq x b_comma) eqn:Ex.
    + rewrite take_while_digits, drop_while_digits.
      pose proof (take_drop r') as Hsp2. pose proof (take_digits_all r') as Hall2.
      assert (Hxs : safe x = true) by (apply beq_true in Ex; now rewrite Ex).
      destruct (drop_digits r') as [|y t] eqn:Ey.
      * rewrite app_nil_r in Hsp2.
        replace (List.length s + 4)%nat with (S (List.length s + 3)) by lia.
        eapply gives_goto; [exact Hstep|].
        destruct (ne_last (x :: take_digits r') ltac:(discriminate)) as (u & d & Hu).
        assert (HS2 : c :: s = ((c :: ds) ++ u) ++ [d]).
        { rewrite HS, <- app_assoc, <- Hu, Hsp2. reflexivity. }
        assert (Hl2 : a + len (c :: ds ++ x :: take_digits r') - 1 = a + len ((c :: ds) ++ u)).
        { change (c :: ds ++ x :: take_digits r') with ((c :: ds) ++ x :: take_digits r').
          rewrite Hu. autorewrite with len. lia. }
        rewrite Hl2.
        assert (Hsafe : forallb safe (((c :: ds) ++ u) ++ [d]) = true).
        { rewrite <- app_assoc, <- Hu, forallb_app, (digits_safe _ HallC). cbn [forallb andb].
          rewrite Hxs, (digits_safe _ Hall2). reflexivity. }
        assert (Hsafe2 : forallb safe ((c :: ds) ++ u) = true).
        { rewrite forallb_app in Hsafe. now apply andb_true_iff in Hsafe. }
        rewrite HS2 in Hv |- *.
        pose proof (free_gives inp a _ _ Hv Hsafe2) as K.
        assert (Hf : free_text (((c :: ds) ++ u) ++ [d]) = GErr).
        { unfold free_text. rewrite <- (app_nil_r (((c :: ds) ++ u) ++ [d])), (free_length_safe _ _ Hsafe). reflexivity. }
        rewrite Hf in K. eapply gives_le; [|exact K]. simpl. lia.
      * destruct (beq y b_cr) eqn:Eyc.
        { apply (gives_le _ _ _ 1); [lia|]. apply gives_emit; [exact Hv| |exact Hstep].
          assert (L1 : List.length s = (List.length ds + S (List.length r'))%nat) by (rewrite <- Hsp, app_length; reflexivity).
          pose proof (take_digits_length r'). cbn [List.length]. lia. }
        replace (List.length s + 4)%nat with (S (List.length s + 3)) by lia.
        eapply gives_goto; [exact Hstep|].
        assert (HS2 : c :: s = (c :: ds ++ x :: take_digits r') ++ y :: t).
        { rewrite HS. cbn [app]. rewrite <- app_assoc. cbn [app]. now rewrite Hsp2. }
        rewrite HS2 in Hv |- *.
        assert (Hsafe : forallb safe (c :: ds ++ x :: take_digits r') = true).
        { change (c :: ds ++ x :: take_digits r') with ((c :: ds) ++ x :: take_digits r').
          rewrite forallb_app, (digits_safe _ HallC). cbn [forallb andb].
          rewrite Hxs, (digits_safe _ Hall2). reflexivity. }
        pose proof (free_gives inp a _ _ Hv Hsafe) as K. eapply gives_le; [|exact K].
        assert (L : List.length (c :: s) = List.length ((c :: ds ++ x :: take_digits r') ++ y :: t)) by (now rewrite HS2).
        rewrite app_length in L. simpl in L |- *. lia.
    + destruct (boundary (x :: r')).
      * apply (gives_le _ _ _ 1); [lia|]. apply gives_emit; [exact Hv| |exact Hstep].
        cbn [List.length]. rewrite <- Hsp, app_length. lia.
      * replace (List.length s + 4)%nat with (S (List.length s + 3)) by lia.
        eapply gives_goto; [exact Hstep|].
        pose proof (char_gives inp a (c :: s) (x :: r') (c :: ds) HS Hv (digits_safe _ HallC)) as K.
        destruct (drop_cd_digits (c :: ds) (x :: r') HallC) as [D1 D2]. rewrite <- HS in D1, D2. rewrite D1, D2.
        rewrite app_length. eapply gives_le; [|exact K].
        rewrite <- Hsp, app_length. lia.
Qed.

(** ** One token *)
Lemma colon_beq c : beq b_colon c = beq c b_colon.
Proof. destruct c; reflexivity. Qed.
Lemma cr_beq c : beq b_cr c = beq c b_cr.
Proof. destruct c; reflexivity. Qed.
Lemma lf_beq c : beq b_lf c = beq c b_lf.
Proof. destruct c; reflexivity. Qed.

Lemma start_gives inp a s : view inp a s -> gives inp a s (List.length s + 4) SwStart a (next_token GStart s).
Proof.
  intros Hv. destruct s as [|c r].
  - cbn [next_token gives]. apply (ends_le _ 1); [lia|]. apply ends_done. cbn [sw_step]. unfold sw_start.
    rewrite (view_next_nil _ _ Hv). change (is_digit b_nul) with false. change (is_capital b_nul) with false.
    change (beq b_nul b_cr) with false. change (beq b_nul b_nul) with true. cbv iota. unfold l_emit_eof.
    pose proof (view_slice _ _ _ 0 Hv ltac:(simpl; lia)) as H. simpl Z.of_nat in H. rewrite Z.add_0_r in H.
    now rewrite H.
  - assert (Hstep : sw_step inp SwStart a a =
      if is_digit c then LGoto SwDigit a (a + 1) else if is_capital c then LGoto SwAlpha a (a + 1)
      else if beq c b_cr then LGoto SwSymbol a a else if beq c b_nul then l_emit_eof inp a (a + 1)
      else LGoto SwAlnum a (a + 1)).
    { cbn [sw_step]. unfold sw_start. rewrite (view_next_cons _ _ _ _ Hv). unfold l_backup.
      now replace (a + 1 - 1) with a by lia. }
    pose proof (class_facts c) as (F1 & F2 & F3 & F4 & F5 & _). cbn [next_token].
    replace (List.length (c :: r) + 4)%nat with (S (List.length r + 4)) by (simpl; lia).
    destruct (is_digit c) eqn:Ed.
    { destruct (F1 eq_refl) as (_ & -> & -> & _). eapply gives_goto; [exact Hstep|]. now apply digit_gives. }
    destruct (is_capital c) eqn:Ec.
    { destruct (F2 eq_refl) as (_ & -> & -> & Hsf & _). eapply gives_goto; [exact Hstep|].
      pose proof (alpha_gives inp a (c :: r) r [c] eq_refl Hv ltac:(simpl; now rewrite Ec)) as K.
      change (len [c]) with 1 in K.
      unfold value. cbn [take_while drop_while]. rewrite Ed, Ec.
      assert (Ecd : cap_or_digit c = true) by (unfold cap_or_digit; now rewrite Ec). rewrite Ecd.
      cbn [List.length Nat.add] in K |- *. eapply gives_le; [|exact K]. lia. }
    destruct (beq c b_cr) eqn:Ecr.
    { destruct (F4 eq_refl) as (_ & _ & ->). eapply gives_goto; [exact Hstep|].
      apply (gives_le _ _ _ 1); [lia|].
      pose proof (view_adv _ _ _ _ Hv) as Hv1.
      destruct r as [|d r1].
      { apply gives_err. cbn [sw_step]. unfold sw_symbol. rewrite (accept_cons _ _ _ _ _ Hv), cr_beq, Ecr.
        unfold l_accept. rewrite (view_next_nil _ _ Hv1). reflexivity. }
      pose proof (view_adv _ _ _ _ Hv1) as Hv2.
      destruct (beq d b_lf) eqn:Ed2.
      2:{ destruct r1 as [|e r2]; cbn [negb orb]; apply gives_err; cbn [sw_step]; unfold sw_symbol;
          rewrite (accept_cons _ _ _ _ _ Hv), cr_beq, Ecr, (accept_cons _ _ _ _ _ Hv1), lf_beq, Ed2; reflexivity. }
      destruct r1 as [|e r2].
      { apply gives_err. cbn [sw_step]. unfold sw_symbol.
        rewrite (accept_cons _ _ _ _ _ Hv), cr_beq, Ecr, (accept_cons _ _ _ _ _ Hv1), lf_beq, Ed2.
        unfold l_peek. rewrite (view_next_nil _ _ Hv2). reflexivity. }
      assert (Hsym : sw_step inp SwSymbol a a = if beq e b_nul then l_errorf a
        else if beq e b_dash then l_emit inp TS_MESSAGE_SEPARATOR SwStart a (a + 3)
        else l_emit inp TS_TAG_SEPARATOR SwTag a (a + 2)).
      { cbn [sw_step]. unfold sw_symbol.
        rewrite (accept_cons _ _ _ _ _ Hv), cr_beq, Ecr, (accept_cons _ _ _ _ _ Hv1), lf_beq, Ed2.
        rewrite (peek_cons _ _ _ _ Hv2), (view_next_cons _ _ _ _ Hv2).
        replace (a + 1 + 1 + 1) with (a + 3) by lia. replace (a + 1 + 1) with (a + 2) by lia. reflexivity. }
      cbn [negb orb]. destruct (beq e b_nul); [now apply gives_err|].
      destruct (beq e b_dash); (apply gives_emit; [exact Hv|simpl; lia|exact Hsym]). }
    destruct (beq c b_nul) eqn:En.
    { cbn [gives]. apply (ends_le _ 1); [lia|]. apply ends_done. rewrite Hstep. unfold l_emit_eof.
      pose proof (view_slice _ _ _ 1 Hv ltac:(simpl; lia)) as H. simpl Z.of_nat in H. now rewrite H. }
    eapply gives_goto; [exact Hstep|].
    assert (Hc : forallb safe [c] = true) by (simpl; unfold safe; now rewrite Ecr, En).
    pose proof (free_gives inp a [c] r Hv Hc) as K. change (len [c]) with 1 in K.
    unfold value. cbn [take_while drop_while]. rewrite Ed, Ec. eapply gives_le; [|exact K]. lia.
Qed.

Lemma entry_gives inp a s : view inp a s -> gives inp a s 1 SwEntry a (next_token GEntry s).
Proof.
  intros Hv. destruct s as [|c r].
  { apply gives_err. cbn [sw_step]. unfold sw_entry, l_accept. now rewrite (view_next_nil _ _ Hv). }
  pose proof (view_adv _ _ _ _ Hv) as Hv1. cbn [next_token].
  destruct (beq c b_cr) eqn:Ec.
  2:{ destruct r; cbn [andb]; apply gives_err; cbn [sw_step]; unfold sw_entry;
      rewrite (accept_cons _ _ _ _ _ Hv), cr_beq, Ec; reflexivity. }
  destruct r as [|d r].
  { apply gives_err. cbn [sw_step]. unfold sw_entry. rewrite (accept_cons _ _ _ _ _ Hv), cr_beq, Ec.
    unfold l_accept. now rewrite (view_next_nil _ _ Hv1). }
  cbn [andb]. destruct (beq d b_lf) eqn:Ed.
  - apply gives_emit; [exact Hv|simpl; lia|]. cbn [sw_step]. unfold sw_entry.
    rewrite (accept_cons _ _ _ _ _ Hv), cr_beq, Ec, (accept_cons _ _ _ _ _ Hv1), lf_beq, Ed.
    simpl Z.of_nat. now replace (a + 1 + 1) with (a + 2) by lia.
  - apply gives_err. cbn [sw_step]. unfold sw_entry.
    now rewrite (accept_cons _ _ _ _ _ Hv), cr_beq, Ec, (accept_cons _ _ _ _ _ Hv1), lf_beq, Ed.
Qed.

(** behind the optional ':' *)
Lemma tag_rest inp a p s : view inp p s -> s <> [] ->
  match l_accept inp is_digit p with
  | Ok (true, p1) =>
      match l_accept_run (loop_fuel inp) inp is_digit p1 with
      | Some (Ok p2) =>
          match l_peek inp p2 with
          | Ok (c, p3) =>
              match (if is_capital c then l_next inp p3 else Ok (c, p3)) with
              | Ok (_, p4) =>
                  match l_accept inp (beq b_colon) p4 with
                  | Ok (true, p5) => l_emit inp TS_TAG SwStart a p5
                  | Ok (false, _) => l_errorf a
                  | _ => LPanic
                  end
              | _ => LPanic
              end
          | _ => LPanic
          end
      | None => LFuel
      | _ => LPanic
      end
  | Ok (false, _) => l_errorf a
  | _ => LPanic
  end =
  match take_digits s with
  | [] => l_errorf a
  | ds =>
      match drop_digits s with
      | c :: r =>
          if beq c b_colon then l_emit inp TS_TAG SwStart a (p + len ds + 1)
          else if is_capital c then
            match r with
            | d :: _ => if beq d b_colon then l_emit inp TS_TAG SwStart a (p + len ds + 2) else l_errorf a
            | [] => l_errorf a
            end
          else l_errorf a
      | [] => l_errorf a
      end
  end.
Proof.
  intros Hv Hs. destruct s as [|c s]; [congruence|]. clear Hs.
  rewrite (accept_cons _ _ _ _ _ Hv). cbn [take_digits drop_digits].
  destruct (is_digit c) eqn:Ec; [|reflexivity].
  pose proof (view_adv _ _ _ _ Hv) as Hv1.
  rewrite (accept_run_view _ _ _ s Hv1) by (eapply fuel_ok; eassumption).
  pose proof (take_drop s) as Hsp. pose proof (take_digits_all s) as Hall. set (ds := take_digits s) in *.
  destruct (drop_digits s) as [|x r] eqn:Er.
  - rewrite app_nil_r in Hsp.
    destruct (ne_last (c :: ds) ltac:(discriminate)) as (u & d & Hu).
    assert (Hlen : p + 1 + len ds - 1 = p + len u).
    { assert (L : len (c :: ds) = len (u ++ [d])) by (now rewrite Hu). autorewrite with len in L. lia. }
    assert (Hvu : view inp (p + len u) (d :: [])).
    { apply (view_app inp p u [d]). rewrite <- Hu, Hsp. exact Hv. }
    assert (Hd : is_digit d = true).
    { assert (HallC : forallb is_digit (c :: ds) = true) by (simpl; now rewrite Ec).
      rewrite Hu in HallC. exact (last_digit _ _ HallC). }
    destruct (class_facts d) as (F & _). destruct (F Hd) as (E1 & _ & _ & _ & _ & E2).
    rewrite Hlen, (peek_cons _ _ _ _ Hvu), E1, (accept_cons _ _ _ _ _ Hvu), colon_beq, E2. reflexivity.
  - assert (Hvx : view inp (p + 1 + len ds) (x :: r)).
    { apply view_app. rewrite Hsp. exact Hv1. }
    rewrite (peek_cons _ _ _ _ Hvx).
    destruct (beq x b_colon) eqn:Ex.
    + destruct (class_facts x) as (_ & _ & _ & _ & _ & F). destruct (F Ex) as [_ ->].
      rewrite (accept_cons _ _ _ _ _ Hvx), colon_beq, Ex. f_equal. autorewrite with len. lia.
    + destruct (is_capital x).
      * rewrite (view_next_cons _ _ _ _ Hvx). pose proof (view_adv _ _ _ _ Hvx) as Hvr.
        destruct r as [|y r].
        { unfold l_accept. rewrite (view_next_nil _ _ Hvr). reflexivity. }
        rewrite (accept_cons _ _ _ _ _ Hvr), colon_beq. destruct (beq y b_colon); [|reflexivity].
        f_equal. autorewrite with len. lia.
      * rewrite (accept_cons _ _ _ _ _ Hvx), colon_beq, Ex. reflexivity.
Qed.

Lemma index_snoc (u : bytes) (b : byte) : l_next (u ++ [b]) (len (u ++ [b]) - 1) = Ok (b, len (u ++ [b])).
Proof.
  rewrite len_app. change (len [b]) with 1. replace (len u + 1 - 1) with (len u) by lia.
  apply (view_next_cons _ _ _ []). exists u. split; reflexivity.
Qed.

(** At the end of the input lexTagID looks at the byte before. *)
Lemma tag_gives inp a s : view inp a s -> (s = [] -> exists u, inp = u ++ [b_lf]) ->
  gives inp a s 1 SwTag a (next_token GTag s).
Proof.
  intros Hv He. cbn [next_token]. unfold tag_length. destruct s as [|c s].
  - destruct (He eq_refl) as [u Hu]. cbn [take_while]. apply gives_err. cbn [sw_step]. unfold sw_tag, l_accept at 1.
    rewrite (view_next_nil _ _ Hv). cbn [obind]. change (beq b_colon b_nul) with false. cbv iota.
    pose proof (view_range _ _ _ Hv) as [_ Hr]. rewrite len_nil, Z.add_0_r in Hr. subst a inp.
    unfold l_accept at 1, l_backup at 1. rewrite index_snoc. reflexivity.
  - assert (Hgen : forall n0 p s0, view inp p s0 -> s0 <> [] -> a + Z.of_nat n0 = p ->
      (n0 + List.length s0 = List.length (c :: s))%nat ->
      l_accept inp (beq b_colon) a = Ok (if beq c b_colon then (true, p) else (false, p)) ->
      gives inp a (c :: s) 1 SwTag a
        match match take_while is_digit s0 with
          | [] => None
          | ds => match drop_while is_digit s0 with
                  | c0 :: r => if beq c0 b_colon then Some (n0 + List.length ds + 1)%nat
                      else if is_capital c0 then
                        match r with d :: _ => if beq d b_colon then Some (n0 + List.length ds + 2)%nat else None | [] => None end
                      else None
                  | [] => None
                  end
          end with Some n => GTok TS_TAG n GStart | None => GErr end).
    { intros n0 p s0 Hv0 Hne Hp Hl Hacc. rewrite take_while_digits, drop_while_digits.
      pose proof (tag_rest inp a p s0 Hv0 Hne) as T.
      assert (Hstep : sw_step inp SwTag a a = match take_digits s0 with
        | [] => l_errorf a
        | ds =>
            match drop_digits s0 with
            | c :: r =>
                if beq c b_colon then l_emit inp TS_TAG SwStart a (p + len ds + 1)
                else if is_capital c then
                  match r with
                  | d :: _ => if beq d b_colon then l_emit inp TS_TAG SwStart a (p + len ds + 2) else l_errorf a
                  | [] => l_errorf a
                  end
                else l_errorf a
            | [] => l_errorf a
            end
        end).
      { rewrite <- T. cbn [sw_step]. unfold sw_tag. rewrite Hacc. destruct (beq c b_colon); reflexivity. }
      pose proof (take_drop s0) as Hsp.
      assert (Hlen : List.length s0 = (List.length (take_digits s0) + List.length (drop_digits s0))%nat).
      { rewrite <- Hsp at 1. apply app_length. }
      destruct (take_digits s0) as [|d0 ds]; [now apply gives_err|].
      destruct (drop_digits s0) as [|x r]; [now apply gives_err|].
      cbn [List.length] in Hlen, Hl.
      destruct (beq x b_colon).
      { apply gives_emit; [exact Hv|cbn [List.length]; lia|]. rewrite Hstep. cbv zeta. cbn [st]. f_equal. unfold len. cbn [List.length]. lia. }
      destruct (is_capital x); [|now apply gives_err].
      destruct r as [|y r]; [now apply gives_err|]. cbn [List.length] in Hlen.
      destruct (beq y b_colon); [|now apply gives_err].
      apply gives_emit; [exact Hv|cbn [List.length]; lia|]. rewrite Hstep. cbv zeta. cbn [st]. f_equal. unfold len. cbn [List.length]. lia. }
    destruct (beq c b_colon) eqn:Ec.
    + destruct s as [|d s].
      { cbn [take_while]. apply gives_err. cbn [sw_step]. unfold sw_tag.
        rewrite (accept_cons _ _ _ _ _ Hv), colon_beq, Ec.
        pose proof (view_adv _ _ _ _ Hv) as Hv1. unfold l_accept at 1. rewrite (view_next_nil _ _ Hv1). reflexivity. }
      apply (Hgen 1%nat (a + 1)); [now apply (view_adv _ _ _ _ Hv)|discriminate|reflexivity|reflexivity|].
      now rewrite (accept_cons _ _ _ _ _ Hv), colon_beq, Ec.
    + apply (Hgen 0%nat a); [exact Hv|discriminate|simpl; lia|reflexivity|].
      now rewrite (accept_cons _ _ _ _ _ Hv), colon_beq, Ec.
Qed.
