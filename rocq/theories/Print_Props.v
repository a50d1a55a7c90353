(** * C69: the printed tables *)
From Coq Require Import Lia ZifyBool ZifyNat.
From Verif Require Import Base BaseFacts Codec_Model Time_Model Seg_Model Mt940_Model Print_Model Print_Spec Print_Facts Print_Facts2.
Open Scope nat_scope.

(** ** The layout of any rows *)
Definition numbered (rows : list row) : list (nat * row) := combine (seq 0 (List.length rows)) rows.

Lemma rows_tied rows open e j i k :
  tied (map line_of rows ++ [(cells_of open, e)]) j i k <-> together (rows ++ [open]) j i k.
Proof.
  assert (N : forall n l, nth_error (map line_of rows ++ [(cells_of open, e)]) n = Some l ->
            exists r, nth_error (rows ++ [open]) n = Some r /\ fst l = cells_of r).
  { intros n l H. destruct (Nat.lt_ge_cases n (List.length rows)) as [G|G].
    - rewrite nth_error_app1 in H by (rewrite map_length; exact G). rewrite nth_error_map in H. rewrite nth_error_app1 by exact G.
      destruct (nth_error rows n) as [r|]; [|discriminate H]. injection H as <-. exists r. now split.
    - rewrite nth_error_app2 in H by (rewrite map_length; exact G). rewrite map_length in H. rewrite nth_error_app2 by exact G.
      destruct (n - List.length rows) as [|m]; [|destruct m; discriminate H]. injection H as <-. exists open. now split. }
  assert (N2 : forall n r, nth_error (rows ++ [open]) n = Some r ->
            exists l, nth_error (map line_of rows ++ [(cells_of open, e)]) n = Some l /\ fst l = cells_of r).
  { intros n r H. destruct (Nat.lt_ge_cases n (List.length rows)) as [G|G].
    - rewrite nth_error_app1 in H by exact G. rewrite nth_error_app1 by (rewrite map_length; exact G). rewrite nth_error_map, H. eexists. now split.
    - rewrite nth_error_app2 in H by exact G. rewrite nth_error_app2 by (rewrite map_length; exact G). rewrite map_length.
      destruct (n - List.length rows) as [|m]; [|destruct m; discriminate H]. injection H as <-. eexists. now split. }
  assert (L : forall r, List.length (cells_of r) = List.length r) by (intros; apply map_length).
  split; intros H n Hn.
  - destruct (H n Hn) as (l&E&Hl). destruct (N n l E) as (r&Er&Fr). exists r. split; [exact Er|]. unfold has, aligned in *. now rewrite Fr, L in Hl.
  - destruct (H n Hn) as (r&E&Hr). destruct (N2 n r E) as (l&El&Fl). exists l. split; [exact El|]. unfold has, aligned in *. now rewrite Fl, L.
Qed.
Lemma rows_width cfg rows open e i j w :
  line_width cfg (map line_of rows ++ [(cells_of open, e)]) i j w -> column_width (minwidth cfg) (rows ++ [open]) i j w.
Proof.
  assert (W : forall k, wide_at (map line_of rows ++ [(cells_of open, e)]) k j = width_at (rows ++ [open]) k j).
  { intros k. assert (C : forall r, cell_width j (cells_of r, true) = rune_count (nth j r [])).
    { intros r. unfold cell_width, cells_of. cbn [fst]. rewrite nth_error_map. destruct (nth_error r j) as [t|] eqn:E; cbn.
      - f_equal. symmetry. exact (nth_error_nth _ _ [] E).
      - apply nth_error_None in E. change 0 with (rune_count []). f_equal. symmetry. now apply nth_overflow. }
    unfold wide_at, width_at. destruct (Nat.lt_ge_cases k (List.length rows)) as [G|G].
    - rewrite nth_error_app1 by (rewrite map_length; exact G). rewrite nth_error_map. replace (nth k (rows ++ [open]) []) with (nth k rows []) by (symmetry; now apply app_nth1).
      destruct (nth_error rows k) as [r|] eqn:E; [|apply nth_error_None in E; lia]. cbn [option_map].
      replace (nth k rows []) with r by (symmetry; exact (nth_error_nth _ _ [] E)). apply C.
    - rewrite nth_error_app2 by (rewrite map_length; exact G). rewrite map_length. replace (nth k (rows ++ [open]) []) with (nth (k - List.length rows) [open] []) by (symmetry; now apply app_nth2).
      destruct (k - List.length rows) as [|m]; [apply C|]. cbn. destruct m; now destruct j. }
  intros (H1&H2&H3). split; [exact H1|]. split.
  - intros k Hk. rewrite <- W. apply H2. now apply rows_tied.
  - destruct H3 as [H3|(k&Hk&E)]; [now left|]. right. exists k. split; [now apply (rows_tied rows open e)|]. now rewrite <- W.
Qed.

(** Whatever rows are written: every row is printed in order, its cells complete and in
    order, each one filled up to the width of its column. *)
Theorem C69_layout : forall cfg rows open, Forall clean_row rows -> clean_row open ->
  exists w : nat -> nat -> nat,
    (forall i j r, nth_error (rows ++ [open_row open]) i = Some r -> aligned j r ->
       column_width (minwidth cfg) (rows ++ [open_row open]) i j (w i j)) /\
    tabulate cfg (written rows open) =
      let one i r := laid (if debug cfg then [x7c] else []) (fun lead n cw => write_padding cfg n cw lead) (w i) 0 (tab_indent cfg) r in
      flat_map (fun p => one (fst p) (snd p) ++ [x0a]) (numbered rows) ++ one (List.length rows) (open_row open).
Proof.
  intros cfg rows open Hr Ho. unfold tabulate, new_writer. rewrite scan_rows by assumption. cbn [app].
  destruct (emit_placed cfg rows [] [] (cells_of (open_row open)) (or_introl eq_refl)) as (ps&E&M&W). cbn [app List.length Nat.add] in M, W.
  exists (fun i j => nth j (nth i (map fst ps) []) 0). rewrite E. split.
  - intros i j r Hi Ha. assert (Ip : exists v l, nth_error ps i = Some (v, l)).
    { destruct (nth_error ps i) as [[v l]|] eqn:Ep; [now exists v, l|]. apply nth_error_None in Ep.
      assert (Some r <> None) as Q by discriminate. rewrite <- Hi in Q. apply nth_error_Some in Q. rewrite app_length in Q. cbn in Q.
      rewrite <- (map_length snd ps), M, app_length, map_length in Ep. cbn in Ep. lia. }
    destruct Ip as (v&l&Ep). destruct (W i v l Ep) as [Wl Ww].
    assert (Ev : nth i (map fst ps) [] = v) by (apply nth_error_nth; rewrite nth_error_map, Ep; reflexivity). rewrite Ev.
    assert (Fl : fst l = cells_of r).
    { assert (El : nth_error (map snd ps) i = Some l) by (rewrite nth_error_map, Ep; reflexivity). rewrite M in El.
      destruct (Nat.lt_ge_cases i (List.length rows)) as [G|G].
      - rewrite nth_error_app1 in El by (rewrite map_length; exact G). rewrite nth_error_app1 in Hi by exact G. rewrite nth_error_map, Hi in El. now injection El as <-.
      - rewrite nth_error_app2 in El by (rewrite map_length; exact G). rewrite nth_error_app2 in Hi by exact G. rewrite map_length in El.
        destruct (i - List.length rows) as [|m]; [|destruct m; discriminate Hi]. injection Hi as <-. now injection El as <-. }
    apply (rows_width cfg rows (open_row open) false). apply Ww. rewrite Fl in Wl. unfold cells_of in Wl. rewrite map_length in Wl. unfold aligned in Ha.
    destruct (nth_error v j) as [x|] eqn:Ex; [now rewrite (nth_error_nth _ _ 0 Ex)|]. apply nth_error_None in Ex. lia.
  - cbv zeta. unfold numbered.
    assert (G : forall rows k ps0 ps, List.length ps0 = k -> map snd ps = map line_of rows ++ [(cells_of (open_row open), false)] ->
      (forall i v l, nth_error ps i = Some (v, l) -> List.length v = List.length (fst l) - 1) ->
      flat_map (fun p => write_line cfg (fst p) (snd p)) ps =
      flat_map (fun p => laid (if debug cfg then [x7c] else []) (fun lead n cw => write_padding cfg n cw lead)
        (fun j => nth j (nth (fst p) (map fst (ps0 ++ ps)) []) 0) 0 (tab_indent cfg) (snd p) ++ [x0a]) (combine (seq k (List.length rows)) rows) ++
      laid (if debug cfg then [x7c] else []) (fun lead n cw => write_padding cfg n cw lead)
        (fun j => nth j (nth (k + List.length rows) (map fst (ps0 ++ ps)) []) 0) 0 (tab_indent cfg) (open_row open)).
    { clear. induction rows as [|r rows IH]; intros k ps0 ps Lk M W.
      - destruct ps as [|[v l] [|p2 ps]]; cbn in M; [discriminate M| |destruct p2; discriminate M]. injection M as ->. cbn [flat_map fst snd List.length seq combine app].
        rewrite write_line_laid by (rewrite (W 0 v _ eq_refl); cbn [fst]; unfold cells_of; now rewrite map_length).
        rewrite !app_nil_r, Nat.add_0_r. subst k. rewrite map_app, app_nth2 by (rewrite map_length; lia). rewrite map_length, Nat.sub_diag. reflexivity.
      - destruct ps as [|[v l] ps]; cbn [map app] in M; [discriminate M|]. cbn [snd] in M. injection M as -> M. cbn [flat_map fst snd List.length seq combine].
        unfold line_of at 1. rewrite write_line_laid by (rewrite (W 0 v _ eq_refl); cbn [fst]; unfold line_of, cells_of; cbn [fst]; now rewrite map_length).
        rewrite <- !app_assoc. f_equal.
        + subst k. rewrite map_app, app_nth2 by (rewrite map_length; lia). rewrite map_length, Nat.sub_diag. reflexivity.
        + cbn [app]. f_equal. rewrite (IH (S k) (ps0 ++ [(v, line_of r)]) ps).
          * rewrite <- app_assoc. cbn [app]. now replace (k + S (List.length rows)) with (S k + List.length rows) by lia.
          * rewrite app_length. cbn. lia.
          * exact M.
          * intros i v' l' Hi. exact (W (S i) v' l' Hi). }
    rewrite (G rows 0 [] ps eq_refl M (fun i v l H => proj1 (W i v l H))). reflexivity.
Qed.
Print Assumptions C69_layout.

(** ** Tables: rows whose columns are not interrupted *)
Definition alignedb (j : nat) (r : row) : bool := j + 1 <? List.length r.
(** A column, once it has ended, does not begin again. *)
Definition connected (rows : list row) : Prop :=
  forall j i n k r1 r r2, i <= n <= k -> nth_error rows i = Some r1 -> nth_error rows n = Some r -> nth_error rows k = Some r2 ->
    aligned j r1 -> aligned j r2 -> aligned j r.

Lemma alignedb_iff j r : alignedb j r = true <-> aligned j r.
Proof. unfold alignedb, aligned. lia. Qed.
Lemma column_widest least rows i j w r : connected rows -> nth_error rows i = Some r -> aligned j r ->
  column_width least rows i j w <-> widest least j (filter (alignedb j) rows) w.
Proof.
  intros C Hi Ha.
  assert (T : forall k, together rows j i k <-> exists r, nth_error rows k = Some r /\ aligned j r).
  { intros k. split; [intros H; apply H; lia|]. intros (r2&Hk&Ha2) n [Hn|Hn].
    - assert (n < List.length rows) as L by (assert (nth_error rows k <> None) as Q by congruence; apply nth_error_Some in Q; lia).
      destruct (nth_error rows n) as [x|] eqn:E; [|apply nth_error_None in E; lia]. exists x. split; [reflexivity|]. exact (C j i n k r x r2 Hn Hi E Hk Ha Ha2).
    - assert (n < List.length rows) as L by (assert (nth_error rows i <> None) as Q by congruence; apply nth_error_Some in Q; lia).
      destruct (nth_error rows n) as [x|] eqn:E; [|apply nth_error_None in E; lia]. exists x. split; [reflexivity|]. exact (C j k n i r2 x r Hn Hk E Hi Ha2 Ha). }
  assert (N : forall k x, nth_error rows k = Some x -> nth k rows [] = x) by (intros k x E; exact (nth_error_nth _ _ [] E)).
  unfold column_width, widest, width_at. split; intros (H1&H2&H3); (split; [exact H1|split]).
  - intros x Hx. apply filter_In in Hx. destruct Hx as [Hx Ax]. apply alignedb_iff in Ax. apply In_nth_error in Hx. destruct Hx as (k&Hk).
    specialize (H2 k). rewrite (N k x Hk) in H2. apply H2. apply T. now exists x.
  - destruct H3 as [H3|(k&Hk&E)]; [now left|right]. apply T in Hk. destruct Hk as (x&Hk&Ax). exists x. rewrite (N k x Hk) in E. split; [|exact E].
    apply filter_In. split; [exact (nth_error_In _ _ Hk)|]. now apply alignedb_iff.
  - intros k Hk. apply T in Hk. destruct Hk as (x&Hk&Ax). rewrite (N k x Hk). apply H2. apply filter_In. split; [exact (nth_error_In _ _ Hk)|]. now apply alignedb_iff.
  - destruct H3 as [H3|(x&Hx&E)]; [now left|right]. apply filter_In in Hx. destruct Hx as [Hx Ax]. apply alignedb_iff in Ax. apply In_nth_error in Hx. destruct Hx as (k&Hk).
    exists k. split; [apply T; now exists x|]. now rewrite (N k x Hk).
Qed.
Lemma widest_unique least j rows w w' : widest least j rows w -> widest least j rows w' -> w = w'.
Proof.
  intros (A1&A2&A3) (B1&B2&B3). assert (w <= w').
  { destruct A3 as [->|(r&Hr&<-)]; [exact B1|exact (B2 r Hr)]. }
  assert (w' <= w); [|lia]. destruct B3 as [->|(r&Hr&<-)]; [exact A1|exact (A2 r Hr)].
Qed.
Lemma laid_ext bar gap w w' r : forall j lead, (forall k, j <= k -> k + 1 < j + List.length r -> w k = w' k) ->
  laid bar gap w j lead r = laid bar gap w' j lead r.
Proof.
  induction r as [|t r IH]; intros j lead H; [reflexivity|]. destruct r as [|t2 r]; [reflexivity|]. cbn [laid].
  assert (Hj : w j = w' j) by (apply H; [lia|cbn; lia]). rewrite Hj. do 3 f_equal. apply IH. intros k Hk L. apply H; [lia|]. cbn in *. lia.
Qed.
Lemma numbered_map (f : nat * row -> bytes) g rows : (forall i r, nth_error rows i = Some r -> f (i, r) = g r) -> flat_map f (numbered rows) = flat_map g rows.
Proof.
  unfold numbered. assert (G : forall rows k, (forall i r, nth_error rows i = Some r -> f (k + i, r) = g r) ->
    flat_map f (combine (seq k (List.length rows)) rows) = flat_map g rows).
  { clear. induction rows as [|r rows IH]; intros k H; [reflexivity|]. cbn [List.length seq combine flat_map].
    rewrite <- (H 0 r eq_refl), Nat.add_0_r. f_equal. apply IH. intros i x Hx. rewrite <- (H (S i) x Hx). now rewrite Nat.add_succ_r. }
  intros H. apply G. exact H.
Qed.
(** The first row with a cell in a column. *)
Fixpoint first_with (j : nat) (rows : list row) : nat :=
  match rows with [] => 0 | r :: rest => if alignedb j r then 0 else S (first_with j rest) end.
Lemma first_with_spec j rows : (exists r, In r rows /\ aligned j r) -> exists r, nth_error rows (first_with j rows) = Some r /\ aligned j r.
Proof.
  induction rows as [|x rows IH]; intros (r&Hr&Ar); [easy|]. cbn [first_with]. destruct (alignedb j x) eqn:E.
  - exists x. split; [reflexivity|]. now apply alignedb_iff.
  - destruct Hr as [->|Hr]; [apply alignedb_iff in Ar; congruence|]. apply IH. now exists r.
Qed.

(** A table: every column has one width, that of its longest cell. *)
Theorem C69_table : forall cfg rows open, Forall clean_row rows -> clean_row open -> connected (rows ++ [open_row open]) ->
  exists w : nat -> nat,
    (forall j, (exists r, In r (rows ++ [open_row open]) /\ aligned j r) ->
       widest (minwidth cfg) j (filter (alignedb j) (rows ++ [open_row open])) (w j)) /\
    tabulate cfg (written rows open) =
      let one := laid (if debug cfg then [x7c] else []) (fun lead n cw => write_padding cfg n cw lead) w 0 (tab_indent cfg) in
      lines one rows ++ one (open_row open).
Proof.
  intros cfg rows open Hr Ho Hc. destruct (C69_layout cfg rows open Hr Ho) as (w&Hw&E).
  set (all := rows ++ [open_row open]) in *.
  assert (A : forall j i r, nth_error all i = Some r -> aligned j r -> w i j = w (first_with j all) j).
  { intros j i r Hi Ha. destruct (first_with_spec j all) as (r0&H0&A0); [exists r; split; [exact (nth_error_In _ _ Hi)|exact Ha]|].
    apply (widest_unique (minwidth cfg) j (filter (alignedb j) all)).
    - exact (proj1 (column_widest _ _ _ _ _ _ Hc Hi Ha) (Hw i j r Hi Ha)).
    - exact (proj1 (column_widest _ _ _ _ _ _ Hc H0 A0) (Hw _ j r0 H0 A0)). }
  exists (fun j => w (first_with j all) j). split.
  - intros j Hj. destruct (first_with_spec j all Hj) as (r0&H0&A0). exact (proj1 (column_widest _ _ _ _ _ _ Hc H0 A0) (Hw _ j r0 H0 A0)).
  - rewrite E. cbv zeta. unfold lines. f_equal.
    + apply numbered_map. intros i r Hi. cbn [fst snd]. f_equal. apply laid_ext. intros k _ Hk. apply A with r.
      * unfold all. rewrite nth_error_app1; [exact Hi|]. apply nth_error_Some. congruence.
      * unfold aligned. lia.
    + apply laid_ext. intros k _ Hk. apply A with (open_row open).
      * unfold all. rewrite nth_error_app2, Nat.sub_diag by lia. reflexivity.
      * unfold aligned. lia.
Qed.
Print Assumptions C69_table.
