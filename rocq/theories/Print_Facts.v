(** * Facts about the layout of tables *)
From Coq Require Import Lia ZifyBool ZifyNat.
From Verif Require Import Base BaseFacts Print_Model Print_Spec.
Open Scope nat_scope.

(** ** Runs *)
Lemma runs_concat c ls : flat_map snd (runs c ls) = ls.
Proof.
  induction ls as [|l r IH]; [reflexivity|]. cbn [runs]. destruct (runs c r) as [|[b g] rest] eqn:E.
  - cbn in *. now rewrite <- IH.
  - destruct (Bool.eqb b (has_column c l)); cbn [flat_map snd app] in *; now rewrite IH.
Qed.
Lemma runs_same c ls : Forall (fun r : bool * list line => snd r <> [] /\ Forall (fun l => has_column c l = fst r) (snd r)) (runs c ls).
Proof.
  induction ls as [|l r IH]; [constructor|]. cbn [runs]. destruct (runs c r) as [|[b g] rest] eqn:E.
  - constructor; [|constructor]. cbn. split; [discriminate|]. repeat constructor.
  - destruct (Bool.eqb b (has_column c l)) eqn:Eb.
    + apply Bool.eqb_prop in Eb. inversion IH as [|x y [H1 H2] H3]; subst. constructor; [|exact H3]. cbn [snd fst] in *. split; [discriminate|].
      constructor; [reflexivity|exact H2].
    + constructor; [|exact IH]. cbn. split; [discriminate|]. repeat constructor.
Qed.
Lemma runs_alternate c ls : forall r1 b g b' g' r2, runs c ls = r1 ++ (b, g) :: (b', g') :: r2 -> b' = negb b.
Proof.
  induction ls as [|l r IH]; intros r1 b g b' g' r2 H; cbn [runs] in H.
  - destruct r1; discriminate H.
  - destruct (runs c r) as [|[b0 g0] rest] eqn:E.
    + destruct r1 as [|x [|y r1]]; cbn in H; discriminate H.
    + destruct (Bool.eqb b0 (has_column c l)) eqn:Eb.
      * destruct r1 as [|x r1].
        -- cbn [app] in H. injection H as -> _ ->. eapply (IH [] b g0 b' g' r2). reflexivity.
        -- cbn [app] in H. injection H as _ H. eapply (IH ((b0, g0) :: r1)). cbn. now rewrite H.
      * destruct r1 as [|x r1].
        -- cbn [app] in H. injection H as X1 X2 X3 X4 X5. subst b b0. destruct b', (has_column c l); first [reflexivity|discriminate Eb].
        -- cbn [app] in H. injection H as _ H. eapply (IH r1). exact H.
Qed.

Lemma nth_error_flat_map {A C} (f : A -> list C) l i x : nth_error (flat_map f l) i = Some x ->
  exists l1 a l2 k, l = l1 ++ a :: l2 /\ i = List.length (flat_map f l1) + k /\ nth_error (f a) k = Some x.
Proof.
  revert i. induction l as [|a l IH]; intros i H; cbn in H.
  - destruct i; discriminate H.
  - destruct (Nat.ltb_spec i (List.length (f a))) as [Hi|Hi].
    + rewrite nth_error_app1 in H by exact Hi. exists [], a, l, i. repeat split; [exact H].
    + rewrite nth_error_app2 in H by exact Hi. destruct (IH _ H) as (l1&a'&l2&k&->&E&K).
      exists (a :: l1), a', l2, k. split; [reflexivity|]. split; [|exact K]. cbn. rewrite app_length. lia.
Qed.

(** ** The widths every line is printed with *)
Section Placed.
  Variable cfg : layout.
  Fixpoint placed (fuel : nat) (ws : list nat) (ls : list line) : list (list nat * line) :=
    match fuel with
    | O => map (pair ws) ls
    | S fuel => flat_map (fun r : bool * list line => let (b, g) := r in
                  if b then placed fuel (ws ++ [block_width cfg (List.length ws) g]) g else map (pair ws) g) (runs (List.length ws) ls)
    end.
  Lemma flat_map_map {A C D} (f : A -> C) (g : C -> list D) l : flat_map g (map f l) = flat_map (fun x => g (f x)) l.
  Proof. induction l as [|a l IH]; [reflexivity|]. cbn. now rewrite IH. Qed.
  Lemma flat_map_flat_map {A C D} (f : A -> list C) (g : C -> list D) l : flat_map g (flat_map f l) = flat_map (fun x => flat_map g (f x)) l.
  Proof. induction l as [|a l IH]; [reflexivity|]. cbn. now rewrite flat_map_app, IH. Qed.
  Lemma format_placed fuel : forall ws ls, format cfg fuel ws ls = flat_map (fun p => write_line cfg (fst p) (snd p)) (placed fuel ws ls).
  Proof.
    induction fuel as [|fuel IH]; intros ws ls; cbn [format placed].
    - unfold write_lines. now rewrite flat_map_map.
    - cbv zeta. rewrite flat_map_flat_map. apply flat_map_ext. intros [[|] g]; [apply IH|]. unfold write_lines. now rewrite flat_map_map.
  Qed.
  Lemma map_snd_pair {A C} (a : A) (l : list C) : map snd (map (pair a) l) = l.
  Proof. induction l as [|x l IH]; [reflexivity|]. cbn. now rewrite IH. Qed.
  Lemma map_flat_map {A C D} (f : A -> list C) (g : C -> D) l : map g (flat_map f l) = flat_map (fun x => map g (f x)) l.
  Proof. induction l as [|a l IH]; [reflexivity|]. cbn. now rewrite map_app, IH. Qed.
  Lemma placed_lines fuel : forall ws ls, map snd (placed fuel ws ls) = ls.
  Proof.
    induction fuel as [|fuel IH]; intros ws ls; cbn [placed]; [apply map_snd_pair|].
    rewrite map_flat_map. rewrite <- (runs_concat (List.length ws) ls) at 2. apply flat_map_ext.
    intros [[|] g]; [apply IH|apply map_snd_pair].
  Qed.

  (** Rows of lines, as in the specification. *)
  Definition has (c : nat) (l : line) : Prop := c + 1 < List.length (fst l).
  Definition tied (ls : list line) (j i k : nat) : Prop :=
    forall n, i <= n <= k \/ k <= n <= i -> exists l, nth_error ls n = Some l /\ has j l.
  Definition wide_at (ls : list line) (k j : nat) : nat := match nth_error ls k with Some l => cell_width j l | None => 0 end.
  Definition line_width (ls : list line) (i j w : nat) : Prop :=
    minwidth cfg <= w /\ (forall k, tied ls j i k -> wide_at ls k j <= w) /\
    (w = minwidth cfg \/ exists k, tied ls j i k /\ wide_at ls k j = w).

  (** Lines [g] within [pre ++ g ++ post] that nothing outside is tied to. *)
  Lemma line_width_inner pre g post j i w : i < List.length g ->
    (forall k, tied (pre ++ g ++ post) j (List.length pre + i) k -> List.length pre <= k < List.length pre + List.length g) ->
    (line_width g i j w <-> line_width (pre ++ g ++ post) (List.length pre + i) j w).
  Proof.
    intros Hi Hc.
    assert (N : forall n, n < List.length g -> nth_error (pre ++ g ++ post) (List.length pre + n) = nth_error g n).
    { intros n Hn. rewrite nth_error_app2 by lia. rewrite nth_error_app1 by lia. f_equal. lia. }
    assert (T : forall k, k < List.length g -> (tied (pre ++ g ++ post) j (List.length pre + i) (List.length pre + k) <-> tied g j i k)).
    { intros k Hk. split; intros Ht n Hn.
      - destruct (Ht (List.length pre + n) ltac:(lia)) as (l&E&Hl). exists l. split; [|exact Hl]. rewrite N in E by lia. exact E.
      - destruct (Ht (n - List.length pre) ltac:(lia)) as (l&E&Hl). exists l. split; [|exact Hl].
        rewrite <- E, <- N by lia. f_equal. lia. }
    assert (B : forall k, tied g j i k -> k < List.length g).
    { intros k Ht. destruct (Ht k ltac:(lia)) as (l&E&_). apply nth_error_Some. congruence. }
    split; intros (H1&H2&H3); (split; [exact H1|]); split.
    - intros k Ht. pose proof (Hc k Ht) as Hk. replace k with (List.length pre + (k - List.length pre)) in * by lia.
      apply T in Ht; [|lia]. apply H2 in Ht. unfold wide_at in *. now rewrite N by lia.
    - destruct H3 as [H3|(k&Ht&Ek)]; [now left|]. right. pose proof (B _ Ht) as Hk.
      exists (List.length pre + k). split; [now apply T|]. unfold wide_at in *. now rewrite N by lia.
    - intros k Ht. pose proof (B _ Ht) as Hk. apply T in Ht; [|exact Hk]. apply H2 in Ht. unfold wide_at in *. now rewrite N in Ht by lia.
    - destruct H3 as [H3|(k&Ht&Ek)]; [now left|]. right. pose proof (Hc k Ht) as Hk. replace k with (List.length pre + (k - List.length pre)) in * by lia.
      exists (k - List.length pre). split; [apply T; [lia|exact Ht]|]. unfold wide_at in *. now rewrite N in Ek by lia.
  Qed.

  Lemma has_column_spec c l : has_column c l = true <-> has c l.
  Proof. unfold has_column, has. lia. Qed.
  Lemma block_width_spec c : forall g w0, let w := fold_left (fun w l => Nat.max w (cell_width c l)) g w0 in
    w0 <= w /\ (forall l, In l g -> cell_width c l <= w) /\ (w = w0 \/ exists l, In l g /\ cell_width c l = w).
  Proof.
    induction g as [|l g IH]; intros w0 w; cbn in w.
    - subst w. split; [lia|]. split; [intros l []|now left].
    - destruct (IH (Nat.max w0 (cell_width c l))) as (H1&H2&H3). fold w in H1, H2, H3. split; [lia|]. split.
      + intros x [<-|Hx]; [lia|now apply H2].
      + destruct H3 as [H3|(x&Hx&E)]; [|right; exists x; split; [now right|exact E]].
        destruct (Nat.max_spec w0 (cell_width c l)) as [[M E]|[M E]]; [right; exists l; split; [now left|lia]|left; lia].
  Qed.
  Lemma block_line_width c g i : Forall (has c) g -> i < List.length g -> line_width g i c (block_width cfg c g).
  Proof.
    intros Hg Hi. destruct (block_width_spec c g (minwidth cfg)) as (H1&H2&H3). fold (block_width cfg c g) in *.
    assert (T : forall k, k < List.length g -> tied g c i k).
    { intros k Hk n Hn. destruct (nth_error g n) as [l|] eqn:E; [|apply nth_error_None in E; lia].
      exists l. split; [reflexivity|]. rewrite Forall_forall in Hg. apply Hg. eapply nth_error_In; eauto. }
    split; [exact H1|]. split.
    - intros k _. unfold wide_at. destruct (nth_error g k) as [l|] eqn:E; [|lia]. apply H2. eapply nth_error_In; eauto.
    - destruct H3 as [H3|(l&Hl&E)]; [now left|]. right. apply In_nth_error in Hl. destruct Hl as [k Ek].
      exists k. split; [apply T; apply nth_error_Some; congruence|]. unfold wide_at. now rewrite Ek.
  Qed.

  Lemma nth_error_map_pair {A C} (a : A) (l : list C) i x : nth_error (map (pair a) l) i = Some x -> exists y, x = (a, y) /\ nth_error l i = Some y.
  Proof. rewrite nth_error_map. destruct (nth_error l i) as [y|]; [|discriminate]. intros [= <-]. exists y. now split. Qed.

  Lemma runs_split c ls r1 b g r2 : runs c ls = r1 ++ (b, g) :: r2 ->
    ls = flat_map snd r1 ++ g ++ flat_map snd r2 /\ g <> [] /\ Forall (fun l => has_column c l = b) g /\
    (r1 = [] \/ exists q l, flat_map snd r1 = q ++ [l] /\ has_column c l = negb b) /\
    (r2 = [] \/ exists l q, flat_map snd r2 = l :: q /\ has_column c l = negb b).
  Proof.
    intros E. pose proof (runs_concat c ls) as C. pose proof (runs_same c ls) as S. rewrite E in C, S.
    rewrite flat_map_app in C. cbn [flat_map snd] in C. split; [now symmetry|].
    apply Forall_app in S. destruct S as [S1 S2]. inversion S2 as [|x y [G1 G2] S3]; subst x y. cbn [fst snd] in *.
    split; [exact G1|]. split; [exact G2|]. split.
    - destruct r1 as [|a r1] using rev_ind; [now left|]. right. clear IHr1. destruct a as [b' g'].
      apply Forall_app in S1. destruct S1 as [_ S1]. inversion S1 as [|x y [K1 K2] _]; subst x y. cbn [fst snd] in *.
      destruct g' as [|l g'] using rev_ind; [now destruct K1|]. clear IHg'. exists (flat_map snd r1 ++ g'), l.
      rewrite flat_map_app. cbn [flat_map snd]. rewrite app_nil_r, app_assoc. split; [reflexivity|].
      apply Forall_app in K2. destruct K2 as [_ K2]. inversion K2 as [|x y K3 _]; subst x y. rewrite K3.
      rewrite <- app_assoc in E. cbn [app] in E. apply runs_alternate in E. rewrite E. now rewrite Bool.negb_involutive.
    - destruct r2 as [|[b' g'] r2]; [now left|]. right. inversion S3 as [|x y [K1 K2] _]; subst x y. cbn [fst snd] in *.
      destruct g' as [|l g']; [now destruct K1|]. exists l, (g' ++ flat_map snd r2). split; [reflexivity|].
      inversion K2 as [|x y K3 _]; subst x y. rewrite K3. apply runs_alternate in E. exact E.
  Qed.
  Lemma tied_mono ls j j' i k : j' <= j -> tied ls j i k -> tied ls j' i k.
  Proof. intros H T n Hn. destruct (T n Hn) as (l&E&Hl). exists l. split; [exact E|]. unfold has in *. lia. Qed.

  Lemma placed_length fuel ws ls : List.length (placed fuel ws ls) = List.length ls.
  Proof. rewrite <- (placed_lines fuel ws ls) at 2. now rewrite map_length. Qed.
  Lemma run_length fuel ws (r1 : list (bool * list line)) :
    List.length (flat_map (fun r : bool * list line => let (b, g) := r in
      if b then placed fuel (ws ++ [block_width cfg (List.length ws) g]) g else map (pair ws) g) r1) = List.length (flat_map snd r1).
  Proof.
    induction r1 as [|[b g] r1 IH]; [reflexivity|]. cbn [flat_map snd]. rewrite !app_length, IH. f_equal.
    destruct b; [apply placed_length|apply map_length].
  Qed.

  Lemma placed_widths fuel : forall ws ls, Forall (fun l => List.length ws <= List.length (fst l) - 1) ls ->
    Forall (fun l => List.length (fst l) <= fuel + List.length ws + 1) ls ->
    forall i v l, nth_error (placed fuel ws ls) i = Some (v, l) ->
      exists more, v = ws ++ more /\ List.length v = List.length (fst l) - 1 /\
        forall k w, nth_error more k = Some w -> line_width ls i (List.length ws + k) w.
  Proof.
    induction fuel as [|fuel IH]; intros ws ls H1 H2 i v l H; cbn [placed] in H.
    - apply nth_error_map_pair in H. destruct H as (y&E&Hy). injection E as -> ->. exists []. rewrite app_nil_r.
      split; [reflexivity|]. apply nth_error_In in Hy. rewrite Forall_forall in H1, H2. pose proof (H1 _ Hy). pose proof (H2 _ Hy).
      split; [lia|]. intros [|k] w Hk; discriminate Hk.
    - apply nth_error_flat_map in H. destruct H as (r1&[b g]&r2&k&E&->&Hk). rewrite run_length.
      destruct (runs_split _ _ _ _ _ _ E) as (El&Hg&Hb&Hpre&Hpost). set (c := List.length ws) in *.
      assert (Kg : k < List.length g).
      { assert (Some (v, l) <> None) as Q by discriminate. rewrite <- Hk in Q. apply nth_error_Some in Q. destruct b; [now rewrite placed_length in Q|now rewrite map_length in Q]. }
      assert (Sub : forall P : line -> Prop, Forall P ls -> Forall P g).
      { intros P HP. rewrite El in HP. apply Forall_app in HP. destruct HP as [_ HP]. now apply Forall_app in HP. }
      destruct b.
      + assert (Hhas : Forall (has c) g). { eapply Forall_impl; [|exact Hb]. intros a Ha. now apply has_column_spec. }
        assert (Closed : forall j k', c <= j -> tied (flat_map snd r1 ++ g ++ flat_map snd r2) j (List.length (flat_map snd r1) + k) k' ->
          List.length (flat_map snd r1) <= k' < List.length (flat_map snd r1) + List.length g).
        { intros j k' Hj Ht. apply (tied_mono _ _ _ _ _ Hj) in Ht. split.
          - destruct (Nat.le_gt_cases (List.length (flat_map snd r1)) k') as [G|G]; [exact G|exfalso].
            destruct Hpre as [->|(q&l'&Eq&Hl')]; [cbn in G; lia|].
            destruct (Ht (List.length q)) as (l2&E2&Hl2); [rewrite Eq, app_length in G |- *; cbn in *; lia|].
            rewrite Eq in E2. rewrite <- app_assoc in E2. rewrite nth_error_app2 in E2 by lia. rewrite Nat.sub_diag in E2. cbn in E2. injection E2 as ->.
            apply has_column_spec in Hl2. cbn [negb] in Hl'. congruence.
          - destruct (Nat.lt_ge_cases k' (List.length (flat_map snd r1) + List.length g)) as [G|G]; [exact G|exfalso].
            destruct (Ht (List.length (flat_map snd r1) + List.length g)) as (l2&E2&Hl2); [lia|].
            rewrite app_assoc in E2. rewrite nth_error_app2 in E2 by (rewrite app_length; lia). rewrite app_length, Nat.sub_diag in E2.
            destruct Hpost as [->|(l'&q&Eq&Hl')]; [discriminate E2|]. rewrite Eq in E2. cbn in E2. injection E2 as ->.
            apply has_column_spec in Hl2. cbn [negb] in Hl'. congruence. }
        destruct (IH (ws ++ [block_width cfg c g]) g) with (i := k) (v := v) (l := l) as (more&->&Hv&Hm).
        * eapply Forall_impl; [|exact Hhas]. intros a Ha. unfold has in Ha. rewrite app_length. cbn. fold c. lia.
        * eapply Forall_impl; [|apply Sub; exact H2]. intros a Ha. cbn beta in Ha. rewrite app_length. cbn. fold c. lia.
        * exact Hk.
        * exists (block_width cfg c g :: more). rewrite <- app_assoc in *. cbn [app] in *. split; [reflexivity|]. split; [exact Hv|].
          intros n w Hn. rewrite El. apply line_width_inner; [exact Kg|intros k' Ht; apply (Closed (c + n) k'); [lia|exact Ht]|].
          destruct n as [|n].
          -- cbn in Hn. injection Hn as <-. rewrite Nat.add_0_r. now apply block_line_width.
          -- cbn in Hn. apply Hm in Hn. rewrite app_length in Hn. cbn [List.length] in Hn. fold c in Hn. now replace (c + S n) with (c + 1 + n) by lia.
      + apply nth_error_map_pair in Hk. destruct Hk as (y&Ey&Hy). injection Ey as -> ->. exists []. rewrite app_nil_r. split; [reflexivity|].
        apply nth_error_In in Hy. pose proof (Sub _ H1) as H1'. rewrite Forall_forall in H1', Hb. pose proof (H1' _ Hy) as G1. pose proof (Hb _ Hy) as G2.
        unfold has_column in G2. fold c in G1 |- *. split; [cbn beta in G1; lia|]. intros [|n] w Hn; discriminate Hn.
  Qed.
  Lemma format_all_placed ls : exists ps, format_all cfg ls = flat_map (fun p => write_line cfg (fst p) (snd p)) ps /\ map snd ps = ls /\
    forall i v l, nth_error ps i = Some (v, l) -> List.length v = List.length (fst l) - 1 /\ forall j w, nth_error v j = Some w -> line_width ls i j w.
  Proof.
    exists (placed (longest ls) [] ls). split; [apply format_placed|]. split; [apply placed_lines|]. intros i v l H.
    destruct (placed_widths (longest ls) [] ls) with (i := i) (v := v) (l := l) as (more&->&Hv&Hm); [| |exact H|].
    - apply Forall_forall. intros x _. cbn. lia.
    - apply Forall_forall. intros x Hx. cbn. assert (List.length (fst x) <= longest ls); [|lia].
      clear - Hx. induction ls as [|y ls IH]; [destruct Hx|]. cbn. destruct Hx as [->|Hx]; [lia|]. apply IH in Hx. unfold longest in *. lia.
    - split; [exact Hv|]. intros j w Hj. exact (Hm j w Hj).
  Qed.
End Placed.
