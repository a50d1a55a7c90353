(** * C36: merging keeps all data, in the order of time *)
From Coq Require Import Lia ZifyBool Sorting.Permutation Sorting.Sorted.
From Verif Require Import Base Merge_Model Merge_Proofs.
Open Scope Z_scope.

(** For every sort.Sort and every collection: the merged data is that of all the
    given messages, each exactly once, whole, and ordered by their times. *)
Theorem C36_nothing_lost : forall sort now ms, go_sort sort ->
  exists ordered, Permutation ms ordered /\
    StronglySorted (fun a b => mt_time a <= mt_time b) ordered /\
    mt_data (merge sort now ms) = List.concat (map mt_data ordered).
Proof. intros sort now ms H. exists (sort ms). destruct (H ms). auto. Qed.
Print Assumptions C36_nothing_lost.

(** If no two messages have the same time, the order of the arguments does not
    matter and the result is the chronological one. *)
Theorem C36_chronological : forall sort now ms ordered, go_sort sort ->
  Permutation ms ordered -> StronglySorted (fun a b => mt_time a < mt_time b) ordered ->
  mt_data (merge sort now ms) = List.concat (map mt_data ordered).
Proof.
  intros sort now ms ordered H P S. cbn. rewrite (sort_ordered sort ordered H S ms); [reflexivity|].
  apply Permutation_sym. exact P.
Qed.
Print Assumptions C36_chronological.

(** Merging the result of a merge with messages that came before it puts them in
    front of it, whatever the order of the arguments. *)
Theorem C36_nested : forall sort now now' earlier later, go_sort sort ->
  Forall (fun m => mt_time m < now) earlier -> StronglySorted (fun a b => mt_time a < mt_time b) earlier ->
  mt_data (merge sort now' (merge sort now later :: earlier)) =
  List.concat (map mt_data earlier) ++ mt_data (merge sort now later).
Proof.
  intros sort now now' earlier later H F S.
  rewrite (C36_chronological sort now' _ (earlier ++ [merge sort now later]) H).
  - rewrite map_app, concat_app. cbn [map List.concat]. rewrite app_nil_r. reflexivity.
  - apply Permutation_cons_append.
  - induction S as [|x l S IH F']; cbn [app]; [repeat constructor|].
    inversion F; subst. constructor; [apply IH; assumption|].
    apply Forall_app. split; [exact F'|]. constructor; [cbn; assumption|constructor].
Qed.
Print Assumptions C36_nested.

Example C36_example :
  mt_data (merge insertion_sort 9 [mkMt (B "c") 3; mkMt (B "a") 1; mkMt (B "b") 2]) = B "abc".
Proof. vm_compute. reflexivity. Qed.
Example C36_sort_exists : go_sort insertion_sort.
Proof. exact insertion_sort_is_sort. Qed.
