(** * Facts on merging *)
From Coq Require Import Lia ZifyBool Sorting.Permutation Sorting.Sorted.
From Verif Require Import Base Merge_Model.
Open Scope Z_scope.

Lemma insert_perm x l : Permutation (x :: l) (insert_mt x l).
Proof.
  induction l as [|y l IH]; cbn [insert_mt]; [reflexivity|]. destruct (mt_time x <? mt_time y); [reflexivity|].
  rewrite perm_swap. constructor. exact IH.
Qed.
Lemma insert_sorted x l : StronglySorted mt_le l -> StronglySorted mt_le (insert_mt x l).
Proof.
  induction 1 as [|y l S IH F]; cbn [insert_mt].
  - repeat constructor.
  - destruct (mt_time x <? mt_time y) eqn:E.
    + constructor; [constructor; assumption|]. constructor; [unfold mt_le; lia|].
      eapply Forall_impl; [|exact F]. unfold mt_le. intros; lia.
    + constructor; [exact IH|]. eapply Permutation_Forall; [apply insert_perm|].
      constructor; [unfold mt_le; lia|exact F].
Qed.
Lemma insertion_sort_is_sort : go_sort insertion_sort.
Proof.
  intros l. unfold insertion_sort.
  assert (G : forall acc, StronglySorted mt_le acc ->
    Permutation (l ++ acc) (fold_left (fun acc x => insert_mt x acc) l acc) /\
    StronglySorted mt_le (fold_left (fun acc x => insert_mt x acc) l acc)).
  { induction l as [|x l IH]; intros acc S; [split; [reflexivity|exact S]|]. cbn [fold_left app].
    destruct (IH _ (insert_sorted x acc S)) as [P Q]. split; [|exact Q]. rewrite <- P. rewrite <- insert_perm.
    apply Permutation_middle. }
  destruct (G [] (SSorted_nil _)) as [P Q]. rewrite app_nil_r in P. auto.
Qed.

(** With distinct times there is only one sorted order. *)
Lemma sorted_unique l1 : forall l2,
  Permutation l1 l2 -> NoDup (map mt_time l1) ->
  StronglySorted mt_le l1 -> StronglySorted mt_le l2 -> l1 = l2.
Proof.
  induction l1 as [|x l1 IH]; intros l2 P N S1 S2.
  - symmetry. apply Permutation_nil. exact P.
  - destruct l2 as [|y l2]; [apply Permutation_sym, Permutation_nil in P; discriminate|].
    inversion S1 as [|? ? S1' F1]; subst. inversion S2 as [|? ? S2' F2]; subst.
    assert (E : x = y).
    { assert (I1 : In x (y :: l2)). { eapply Permutation_in; [exact P|left; reflexivity]. }
      assert (I2 : In y (x :: l1)). { eapply Permutation_in; [apply Permutation_sym; exact P|left; reflexivity]. }
      destruct I1 as [I1|I1]; [auto|]. destruct I2 as [I2|I2]; [auto|].
      rewrite Forall_forall in F1, F2. specialize (F1 _ I2). specialize (F2 _ I1). unfold mt_le in *.
      exfalso. inversion N as [|? ? N1 N2]; subst. apply N1.
      replace (mt_time x) with (mt_time y) by lia. apply in_map. exact I2. }
    subst y. f_equal. apply IH; [eapply Permutation_cons_inv; exact P| |assumption|assumption].
    inversion N; assumption.
Qed.
Lemma sort_ordered sort l : go_sort sort ->
  StronglySorted (fun a b => mt_time a < mt_time b) l -> forall l', Permutation l l' -> sort l' = l.
Proof.
  intros HS S l' P. destruct (HS l') as [P' S']. symmetry. apply sorted_unique.
  - rewrite P. exact P'.
  - clear - S. induction S as [|x l S IH F]; constructor; [|exact IH].
    intros K. apply in_map_iff in K. destruct K as [y [E I]]. rewrite Forall_forall in F. specialize (F _ I). lia.
  - clear - S. induction S as [|x l S IH F]; constructor; [exact IH|]. eapply Forall_impl; [|exact F]. unfold mt_le. intros; lia.
  - exact S'.
Qed.
