(** * Model of swift/unmarshal.go: collections of MT940 messages and their merge *)
From Coq Require Import Sorting.Permutation Sorting.Sorted.
From Verif Require Import Base.
Open Scope Z_scope.

(** swift/unmarshal.go:19-22 MT940Messages: data and the time of its creation in
    nanoseconds (time.Now().UnixNano(), line 15). *)
Record mt := mkMt { mt_data : bytes; mt_time : Z }.

(** swift/unmarshal.go:12-17 NewMT940Messages, called at the time [now]. *)
Definition new_mt (now : Z) (data : bytes) : mt := mkMt data now.

(** swift/unmarshal.go:59-61 Less, as the order sort.Sort works with. *)
Definition mt_le (a b : mt) : Prop := mt_time a <= mt_time b.
(** sort.Sort (standard library): some function that returns a permutation ordered
    by Less.  It is not stable, so nothing else is known about it. *)
Definition go_sort (f : list mt -> list mt) : Prop :=
  forall l, Permutation l (f l) /\ StronglySorted mt_le (f l).

(** swift/unmarshal.go:24-35 MergeMT940Messages at the time [now], for non-nil
    arguments.  Simplification: sort.Sort also reorders the caller's slice. *)
Definition merge (sort : list mt -> list mt) (now : Z) (ms : list mt) : mt :=
  mkMt (List.concat (map mt_data (sort ms))) now.

(** Insertion sort as sort.Sort does it for up to twelve elements
    (zsortinterface.go insertionSort): each element moves left past greater ones. *)
Fixpoint insert_mt (x : mt) (l : list mt) : list mt :=
  match l with
  | [] => [x]
  | y :: r => if mt_time x <? mt_time y then x :: l else y :: insert_mt x r
  end.
Definition insertion_sort (l : list mt) : list mt := fold_left (fun acc x => insert_mt x acc) l [].
