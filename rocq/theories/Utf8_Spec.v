(** * What a character set middleware should do *)
From Verif Require Import Base Codec_Model Codec_Spec.
Open Scope Z_scope.

(** The beginning of a character whose end is missing. *)
Definition unfinished (s : bytes) : Prop :=
  s <> [] /\ exists cp rest, unicode cp /\ rest <> [] /\ utf8_enc cp = s ++ rest.
(** A text of characters up to U+00FF, perhaps with an unfinished one at its end. *)
Definition latin1_body (body : bytes) (cps : list Z) (tail : bytes) : Prop :=
  Forall latin1_char cps /\ body = string_of cps ++ tail /\ (tail = [] \/ unfinished tail).
