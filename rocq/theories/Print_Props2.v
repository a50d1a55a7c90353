(** * Tables: separators and escapes (C69) *)
From Coq Require Import Lia.
From Verif Require Import Base BaseFacts Lexer_Model Mt940_Model Print_Model Print_Spec Print_Facts2 Print_Tables.
Open Scope nat_scope.

Definition no_escape (t : bytes) : Prop := ~ In xff t.

(** A vertical tab in a text is printed as a tab would be. *)
Definition tab_for_vt (b : byte) : byte := match b with x0b => x09 | _ => b end.
Lemma write_vt cfg w b : b <> xff -> w_escape w = false -> w_escape (write_byte cfg w b) = false /\ write_byte cfg w (tab_for_vt b) = write_byte cfg w b.
Proof.
  intros N E. unfold write_byte. rewrite E. split.
  - destruct (beq b b_tab || beq b b_vt); [reflexivity|]. destruct (beq b b_nl || beq b b_ff).
    + cbv zeta. destruct (beq b b_ff || _); reflexivity.
    + destruct (beq b b_escape) eqn:Q; [|reflexivity]. apply beq_true in Q. now subst.
  - destruct b; reflexivity.
Qed.
Theorem C69_vertical_tabs : forall cfg t, no_escape t -> tabulate cfg (map tab_for_vt t) = tabulate cfg t.
Proof.
  intros cfg t N. unfold tabulate. f_equal. assert (E : w_escape new_writer = false) by reflexivity. revert E. generalize new_writer. 
  induction t as [|b t IH]; intros w E; [reflexivity|]. cbn [map fold_left].
  destruct (write_vt cfg w b) as (E'&->); [intros ->; apply N; now left|exact E|]. apply IH; [intro H; apply N; now right|exact E'].
Qed.
Print Assumptions C69_vertical_tabs.

(** The byte 255, which is in no UTF-8 text, starts and ends an escape: what is between has no
    tabs and line ends for the table, all of it is printed and it is as wide as its
    characters. *)
Lemma decode_end s : s <> [] -> exists r, decode_rune s = Some r /\ decode_rune (s ++ [xff]) = Some r /\ 1 <= r_width r <= List.length s.
Proof.
  intros N. destruct s as [|a s]; [easy|]. clear N. cbn [app].
  assert (C : is_cont xff = false) by reflexivity.
  assert (C2 : in_range 160 191 xff = false /\ in_range 128 159 xff = false /\ in_range 144 191 xff = false /\ in_range 128 143 xff = false) by now cbn.
  destruct C2 as (C2&C3&C4&C5).
  unfold decode_rune. destruct (Z.ltb (zb a) 128); [eexists; repeat split; cbn; lia|].
  destruct s as [|b s]; cbn [app].
  { rewrite C, andb_false_r. eexists; repeat split; cbn; lia. }
  destruct (in_range 194 223 a && is_cont b); [eexists; repeat split; cbn; lia|].
  destruct s as [|c s]; cbn [app].
  { rewrite C, andb_false_r. eexists; repeat split; cbn; lia. }
  destruct (_ && is_cont c); [eexists; repeat split; cbn; lia|].
  destruct s as [|d s]; cbn [app].
  { rewrite C, !andb_false_r. eexists; repeat split; cbn; lia. }
  destruct (_ && is_cont d); eexists; repeat split; cbn; lia.
Qed.
Lemma rune_count_end s : rune_count (s ++ [xff]) = rune_count s + 1.
Proof.
  unfold rune_count. rewrite app_length. replace (List.length s + List.length [xff]) with (S (List.length s)) by (cbn; lia). remember (List.length s) as n eqn:L.
  assert (H : List.length s <= n) by lia. clear L. revert s H. induction n as [n IH] using lt_wf_ind. intros s H.
  destruct s as [|a s].
  - cbn [app]. destruct n; reflexivity.
  - destruct n as [|n]; [cbn in H; lia|]. destruct (decode_end (a :: s) ltac:(discriminate)) as (r&D&D'&W1&W2). 
    change (rune_count_ (S (S n)) ((a :: s) ++ [xff])) with (match decode_rune ((a :: s) ++ [xff]) with None => O | Some r => S (rune_count_ (S n) (skipn (r_width r) ((a :: s) ++ [xff]))) end).
    change (rune_count_ (S n) (a :: s)) with (match decode_rune (a :: s) with None => O | Some r => S (rune_count_ n (skipn (r_width r) (a :: s))) end).
    rewrite D, D'. rewrite skipn_app. replace (r_width r - List.length (a :: s)) with 0 by lia. cbn [skipn].
    cbn [Nat.add]. f_equal. rewrite IH; [lia|lia|]. rewrite skipn_length. lia.
Qed.
Lemma rune_count_begin s : rune_count (xff :: s) = S (rune_count s).
Proof.
  unfold rune_count. cbn [List.length].
  assert (D : decode_rune (xff :: s) = Some rune_error) by (destruct s as [|b [|c [|d s]]]; reflexivity).
  change (rune_count_ (S (List.length s)) (xff :: s)) with (match decode_rune (xff :: s) with None => O | Some r => S (rune_count_ (List.length s) (skipn (r_width r) (xff :: s))) end).
  now rewrite D.
Qed.
Theorem C69_escaped : forall cfg w t, w_escape w = false -> no_escape t ->
  let w' := fold_left (write_byte cfg) ([xff] ++ t ++ [xff]) w in
  w_out w' = w_out w /\ w_lines w' = w_lines w /\ w_cells w' = w_cells w /\ w_piece w' = [] /\ w_escape w' = false /\
  c_text (w_cell w') = c_text (w_cell w) ++ w_piece w ++ [xff] ++ t ++ [xff] /\
  c_width (w_cell w') = c_width (w_cell w) + rune_count (w_piece w) + rune_count t.
Proof.
  intros cfg w t E N. cbv zeta. rewrite !fold_left_app. cbn [fold_left].
  assert (F : write_byte cfg w xff = mkWriter (w_out w) (w_lines w) (w_cells w) (extend (w_cell w) (w_piece w)) [xff] true).
  { unfold write_byte. now rewrite E. }
  rewrite F.
  assert (G : forall t p c, no_escape t -> fold_left (write_byte cfg) t (mkWriter (w_out w) (w_lines w) (w_cells w) c p true) =
                            mkWriter (w_out w) (w_lines w) (w_cells w) c (p ++ t) true).
  { clear. intros t. induction t as [|b t IH]; intros p c N; cbn [fold_left]; [now rewrite app_nil_r|].
    replace (write_byte cfg _ b) with (mkWriter (w_out w) (w_lines w) (w_cells w) c (p ++ [b]) true).
    - rewrite IH by (intro H; apply N; now right). now rewrite <- app_assoc.
    - unfold write_byte. cbn [w_escape w_out w_lines w_cells w_cell w_piece]. replace (beq b b_escape) with false; [reflexivity|].
      symmetry. apply beq_false. intros ->. apply N. now left. }
  rewrite G by exact N. unfold write_byte. cbn [w_escape w_out w_lines w_cells w_cell w_piece]. change (beq xff b_escape) with true. cbv iota zeta.
  cbn [w_escape w_out w_lines w_cells w_cell w_piece extend c_text c_width]. repeat split.
  - now rewrite <- !app_assoc.
  - change ((([xff] ++ t) ++ [xff])) with (xff :: (t ++ [xff])). rewrite rune_count_begin, rune_count_end. lia.
Qed.
Print Assumptions C69_escaped.

Example C69_escaped_demo :
  tabulate narrow ([x0a] ++ join [x09] [B "A"; B "B"] ++ [x0a] ++ join [x09] [[xff] ++ [x09] ++ B "1234567890123456789" ++ [xff]; B "2"] ++ [x0a]) =
  [x0a] ++ B "A                   B" ++ [x0a] ++ [xff] ++ [x09] ++ B "1234567890123456789" ++ [xff] ++ B "2" ++ [x0a].
Proof. vm_compute. reflexivity. Qed.
