(** * What the parameters of a bank say *)
From Verif Require Import Base Codec_Model Wire_Model Message_Model.
Open Scope Z_scope.

(** The first and the last entry of a job in a list of jobs. *)
Definition first_flag (l : list (bytes * bool)) (id : bytes) (b : bool) : Prop :=
  exists pre post, l = pre ++ (id, b) :: post /\ ~ In id (map fst pre).
Definition last_flag (l : list (bytes * bool)) (id : bytes) (b : bool) : Prop :=
  exists pre post, l = pre ++ (id, b) :: post /\ ~ In id (map fst post).

(** The segments that offer a job: those with an ID of more than five letters. *)
Definition offers (h : seg_header) : Prop := (5 < List.length (sh_id h))%nat.
(** [offered segs l]: the IDs and versions of the segments that offer a job, in order. *)
Inductive offered : list bytes -> list (bytes * Z) -> Prop :=
| offered_none : offered [] []
| offered_job s h segs l : extract_header s = Ok h -> offers h -> offered segs l -> offered (s :: segs) ((sh_id h, sh_version h) :: l)
| offered_other s h segs l : extract_header s = Ok h -> ~ offers h -> offered segs l -> offered (s :: segs) l.

(** [first_readable others segs id h s]: s, with header h, is the first segment of an ID
    among those go-hbci has a reader for. *)
Definition first_readable {P} (others : bytes -> Z -> option (bytes -> outcome P)) (segs : list bytes) (id : bytes) (h : seg_header) (s : bytes) : Prop :=
  exists pre post, segs = pre ++ s :: post /\ extract_header s = Ok h /\ sh_id h = id /\ known others id (sh_version h) <> None /\
    forall t, In t pre -> forall k, extract_header t = Ok k -> sh_id k = id -> known others id (sh_version k) = None.
