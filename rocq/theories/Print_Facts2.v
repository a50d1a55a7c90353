(** * Facts about the layout of rows of texts *)
From Coq Require Import Lia ZifyBool ZifyNat.
From Verif Require Import Base BaseFacts Print_Model Print_Spec Print_Facts.
Open Scope nat_scope.

Definition cells_of (r : row) : list cell := map (fun t => mkCell t (rune_count t)) r.
Definition line_of (r : row) : line := (cells_of r, true).

Section Write.
  Variable cfg : layout.
  Notation bar := (if debug cfg then [b_bar] else []).
  Notation gap := (fun lead n w => write_padding cfg n w lead).

  Lemma write_cells_laid : forall r v j use, j + List.length r - 1 = List.length v ->
    write_cells cfg v j use (cells_of r) = laid bar gap (fun j => nth j v 0) j use r.
  Proof.
    induction r as [|t r IH]; intros v j use H; [reflexivity|]. cbn [cells_of map write_cells c_text c_width laid].
    destruct r as [|t2 r].
    - cbn [List.length] in H. assert (E : nth_error v j = None) by (apply nth_error_None; lia). rewrite E. cbn [cells_of map write_cells].
      replace (if debug cfg && (0 <? j) then [b_bar] else []) with (if j =? 0 then [] else bar) by (destruct j, (debug cfg); reflexivity).
      destruct t; cbn [app]; now rewrite ?app_nil_r.
    - fold (cells_of (t2 :: r)). set (rest := t2 :: r) in *. assert (Hr : 0 < List.length rest) by (cbn; lia). clearbody rest. cbn [List.length] in H.
      replace (if debug cfg && (0 <? j) then [b_bar] else []) with (if j =? 0 then [] else bar) by (destruct j, (debug cfg); reflexivity).
      destruct (nth_error v j) as [w|] eqn:E; [|apply nth_error_None in E; lia].
      rewrite (nth_error_nth _ _ 0 E). f_equal. cbv zeta. destruct t as [|b t].
      + rewrite Bool.andb_true_r. cbn [app]. f_equal. apply IH. lia.
      + rewrite Bool.andb_false_r. cbn [app]. f_equal. f_equal. f_equal. apply IH. lia.
  Qed.
  Lemma write_line_laid r v e : List.length v = List.length r - 1 ->
    write_line cfg v (cells_of r, e) = laid bar gap (fun j => nth j v 0) 0 (tab_indent cfg) r ++ (if e then [x0a] else []).
  Proof. intros H. unfold write_line. cbn [fst snd]. now rewrite write_cells_laid by lia. Qed.

  (** ** Reading rows *)
  Lemma clean_cons b t : clean (b :: t) -> (b <> x09 /\ b <> x0a /\ b <> x0b /\ b <> x0c /\ b <> xff) /\ clean t.
  Proof. intros H. inversion H; subst. now split. Qed.
  Lemma beq_ne a b : a <> b -> beq a b = false.
  Proof. intros H. destruct (beq_spec a b); [contradiction|reflexivity]. Qed.
  Lemma scan_text : forall t out ls cs p, clean t ->
    fold_left (write_byte cfg) t (mkWriter out ls cs no_cell p false) = mkWriter out ls cs no_cell (p ++ t) false.
  Proof.
    induction t as [|b t IH]; intros out ls cs p H; cbn [fold_left]; [now rewrite app_nil_r|].
    apply clean_cons in H. destruct H as ((H1&H2&H3&H4&H5)&H).
    unfold write_byte at 2. cbn [w_escape w_out w_lines w_cells w_cell w_piece]. unfold b_tab, b_nl, b_vt, b_ff, b_escape.
    rewrite !beq_ne by assumption. cbn [orb]. rewrite IH by exact H. now rewrite <- app_assoc.
  Qed.
  Lemma extend_no_cell t : extend no_cell t = mkCell t (rune_count t).
  Proof. reflexivity. Qed.
  Lemma join_cons (s : bytes) a b r : join s (a :: b :: r) = a ++ s ++ join s (b :: r).
  Proof. reflexivity. Qed.
  Lemma cells_of_app a b : cells_of (a ++ b) = cells_of a ++ cells_of b.
  Proof. apply map_app. Qed.
  Lemma scan_row : forall r out ls cs, clean_row r ->
    exists front t, r = front ++ [t] /\
    fold_left (write_byte cfg) (join [x09] r) (mkWriter out ls cs no_cell [] false) = mkWriter out ls (cs ++ cells_of front) no_cell t false.
  Proof.
    induction r as [|t r IH]; intros out ls cs [H1 H2]; [now destruct H1|]. inversion H2 as [|x y Ht Hr]; subst x y.
    destruct r as [|t2 r].
    - exists [], t. split; [reflexivity|]. cbn [join cells_of map]. rewrite scan_text by exact Ht. now rewrite app_nil_r.
    - rewrite join_cons. rewrite !fold_left_app. rewrite scan_text by exact Ht. cbn [fold_left].
      unfold write_byte at 2. cbn [w_escape w_out w_lines w_cells w_cell w_piece app]. cbn [beq orb].
      change (beq x09 b_tab) with true. cbn [orb]. rewrite extend_no_cell.
      destruct (IH out ls (cs ++ [mkCell t (rune_count t)])) as (front&t'&E&F); [split; [discriminate|exact Hr]|].
      exists (t :: front), t'. split; [now rewrite E|]. rewrite F. cbn [cells_of map]. now rewrite <- app_assoc.
  Qed.
  Lemma scan_line r out ls : clean_row r ->
    fold_left (write_byte cfg) (join [x09] r ++ [x0a]) (mkWriter out ls [] no_cell [] false) =
    if List.length r =? 1
    then mkWriter (out ++ format_all cfg (ls ++ [line_of r] ++ [([], false)])) [] [] no_cell [] false
    else mkWriter out (ls ++ [line_of r]) [] no_cell [] false.
  Proof.
    intros H. rewrite fold_left_app. destruct (scan_row r out ls [] H) as (front&t&->&->). cbn [fold_left app].
    unfold write_byte. cbn [w_escape w_out w_lines w_cells w_cell w_piece].
    change (beq x0a b_tab) with false. change (beq x0a b_vt) with false. change (beq x0a b_nl) with true. change (beq x0a b_ff) with false.
    cbn [orb andb]. rewrite extend_no_cell. replace (cells_of front ++ [mkCell t (rune_count t)]) with (cells_of (front ++ [t])) by apply cells_of_app.
    fold (line_of (front ++ [t])). assert (L : List.length (cells_of (front ++ [t])) = List.length (front ++ [t])) by apply map_length. rewrite L.
    destruct (List.length (front ++ [t]) =? 1); [|reflexivity]. now rewrite !app_nil_r, <- app_assoc.
  Qed.

  (** What is printed from the pending lines, the rows to come and the open row. *)
  Fixpoint emit (ls : list line) (rows : list row) (open : list cell) : bytes :=
    match rows with
    | [] => format_all cfg (ls ++ [(open, false)])
    | r :: rows => if List.length r =? 1 then format_all cfg (ls ++ [line_of r] ++ [([], false)]) ++ emit [] rows open
                   else emit (ls ++ [line_of r]) rows open
    end.
  Lemma scan_rows open : clean_row open -> forall rows out ls, Forall clean_row rows ->
    flush cfg (fold_left (write_byte cfg) (written rows open) (mkWriter out ls [] no_cell [] false)) =
    out ++ emit ls rows (cells_of (open_row open)).
  Proof.
    intros Ho. induction rows as [|r rows IH]; intros out ls H.
    - cbn [written flat_map app]. destruct (scan_row open out ls [] Ho) as (front&t&->&->). unfold flush.
      cbn [w_escape w_out w_lines w_cells w_cell w_piece emit app]. rewrite extend_no_cell. cbn [c_text].
      unfold open_row. rewrite rev_unit. destruct t as [|b t]; [rewrite rev_involutive; now rewrite app_nil_r|].
      rewrite cells_of_app. reflexivity.
    - inversion H as [|x y Hr Hrs]; subst x y. unfold written. cbn [flat_map]. rewrite <- app_assoc. rewrite fold_left_app.
      rewrite scan_line by exact Hr. cbn [emit]. destruct (List.length r =? 1).
      + fold (written rows open). rewrite IH by exact Hrs. now rewrite <- app_assoc.
      + fold (written rows open). now rewrite IH by exact Hrs.
  Qed.

  (** ** Flushing in between makes no difference *)
  Definition lone (l : line) : Prop := List.length (fst l) <= 1.
  Lemma emit_placed : forall rows ls pre open, (pre = [] \/ exists q l, pre = q ++ [l] /\ lone l) ->
    let all := pre ++ ls ++ map line_of rows ++ [(open, false)] in
    exists ps, emit ls rows open = flat_map (fun p => write_line cfg (fst p) (snd p)) ps /\
      map snd ps = ls ++ map line_of rows ++ [(open, false)] /\
      forall i v l, nth_error ps i = Some (v, l) -> List.length v = List.length (fst l) - 1 /\
        forall j w, nth_error v j = Some w -> line_width cfg all (List.length pre + i) j w.
  Proof.
    assert (Left : forall (pre rest : list line) j i k, (pre = [] \/ exists q l, pre = q ++ [l] /\ lone l) -> List.length pre <= i ->
      tied (pre ++ rest) j i k -> List.length pre <= k).
    { intros pre rest j i k Hp Hi Ht. destruct (Nat.le_gt_cases (List.length pre) k) as [G|G]; [exact G|exfalso].
      destruct Hp as [->|(q&l&->&Hl)]; [cbn in G; lia|]. rewrite app_length in *. cbn [List.length] in *.
      destruct (Ht (List.length q) ltac:(lia)) as (l'&E&Hl'). rewrite <- app_assoc in E. rewrite nth_error_app2 in E by lia.
      rewrite Nat.sub_diag in E. cbn in E. injection E as <-. unfold lone, has in *. lia. }
    induction rows as [|r rows IH]; intros ls pre open Hp all.
    - destruct (format_all_placed cfg (ls ++ [(open, false)])) as (ps&E&M&W). exists ps. split; [exact E|]. split; [exact M|].
      intros i v l Hi. destruct (W i v l Hi) as [Wl Ww]. split; [exact Wl|]. intros j w Hw. unfold all. cbn [map app].
      assert (Li : i < List.length (ls ++ [(open, false)])).
      { rewrite <- M, map_length. apply nth_error_Some. congruence. }
      pose proof (line_width_inner cfg pre (ls ++ [(open, false)]) [] j i w Li) as T. rewrite app_nil_r in T. apply T; [|exact (Ww j w Hw)].
      intros k Ht. split; [eapply Left; [exact Hp| |exact Ht]; lia|]. destruct (Ht k ltac:(lia)) as (l'&E'&_).
      assert (Q : k < List.length (pre ++ ls ++ [(open, false)])) by (apply nth_error_Some; congruence). rewrite app_length in Q. exact Q.
    - cbn [emit]. destruct (List.length r =? 1) eqn:Er.
      + set (g := ls ++ [line_of r]).
        assert (Hp' : pre ++ g = [] \/ exists q l, pre ++ g = q ++ [l] /\ lone l).
        { right. exists (pre ++ ls), (line_of r). unfold g. split; [now rewrite app_assoc|]. unfold lone, line_of. cbn [fst].
          assert (L : List.length (cells_of r) = List.length r) by apply map_length. rewrite L. lia. }
        destruct (IH [] (pre ++ g) open Hp') as (ps2&E2&M2&W2).
        destruct (format_all_placed cfg (ls ++ [line_of r] ++ [([], false)])) as (ps1&E1&M1&W1).
        assert (S1 : exists ps v, ps1 = ps ++ [(v, ([], false))] /\ map snd ps = g).
        { destruct ps1 as [|[v l] ps _] using rev_ind; [destruct ls; discriminate M1|]. rewrite map_app in M1. cbn [map snd] in M1.
          rewrite app_assoc in M1. apply app_inj_tail in M1. destruct M1 as [M1 Ml]. subst l. exists ps, v. now split. }
        destruct S1 as (ps&v0&->&M). exists (ps ++ ps2). split; [|split].
        * rewrite E1, E2, !flat_map_app. cbn [flat_map]. rewrite !app_nil_r. unfold write_line at 2. cbn [fst snd write_cells app]. reflexivity.
        * transitivity (g ++ map line_of rows ++ [(open, false)]); [etransitivity; [apply map_app|]; f_equal; [exact M|exact M2]|]. unfold g. cbn [map app]. now rewrite <- app_assoc.
        * assert (Lg : List.length ps = List.length g) by (rewrite <- M; now rewrite map_length).
          assert (All : all = pre ++ g ++ map line_of rows ++ [(open, false)]) by (unfold all, g; cbn [map]; now rewrite <- app_assoc).
          intros i v l Hi. destruct (Nat.lt_ge_cases i (List.length ps)) as [Ci|Ci].
          -- rewrite nth_error_app1 in Hi by exact Ci. destruct (W1 i v l) as [Wl Ww]; [now rewrite nth_error_app1|]. split; [exact Wl|].
             intros j w Hw. specialize (Ww j w Hw). rewrite app_assoc in Ww. fold g in Ww.
             assert (Lone : forall (pre post : list line) k, tied (pre ++ g ++ post) j (List.length pre + i) k -> k < List.length pre + List.length g).
             { intros pre' post k Ht. destruct (Nat.lt_ge_cases k (List.length pre' + List.length g)) as [G|G]; [exact G|exfalso].
               destruct (Ht (List.length pre' + List.length ls)) as (l'&E&Hl'); [unfold g in *; rewrite app_length in *; cbn [List.length] in *; lia|].
               rewrite nth_error_app2 in E by lia. unfold g in E. rewrite <- app_assoc in E. rewrite nth_error_app2 in E by lia.
               replace (List.length pre' + List.length ls - List.length pre' - List.length ls) with 0 in E by lia. cbn in E. injection E as <-.
               unfold has, line_of in Hl'. cbn [fst] in Hl'. assert (L : List.length (cells_of r) = List.length r) by apply map_length. rewrite L in Hl'. lia. }
             apply (line_width_inner cfg [] g [([], false)] j i w) in Ww; [|lia|].
             ++ rewrite All. apply line_width_inner; [lia| |exact Ww]. intros k Ht. split; [eapply Left; [exact Hp| |exact Ht]; lia|eapply Lone; exact Ht].
             ++ intros k Ht. split; [cbn; lia|]. eapply (Lone []); exact Ht.
          -- rewrite nth_error_app2 in Hi by exact Ci. destruct (W2 _ v l Hi) as [Wl Ww]. split; [exact Wl|]. intros j w Hw. specialize (Ww j w Hw).
             rewrite All. cbn [app] in Ww. rewrite <- app_assoc in Ww. rewrite app_length in Ww.
             replace (List.length pre + i) with (List.length pre + List.length g + (i - List.length ps)) by lia. exact Ww.
      + destruct (IH (ls ++ [line_of r]) pre open Hp) as (ps&E&M&W). exists ps. split; [exact E|]. rewrite <- app_assoc in M. split; [exact M|].
        intros i v l Hi. destruct (W i v l Hi) as [Wl Ww]. split; [exact Wl|]. intros j w Hw. specialize (Ww j w Hw).
        unfold all. cbn [map]. rewrite <- !app_assoc in Ww. exact Ww.
  Qed.
End Write.
