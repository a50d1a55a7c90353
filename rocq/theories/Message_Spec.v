(** * Specification vocabulary for messages *)
From Verif Require Import Base Lexer_Model Lexer_Spec Codec_Model Codec_Spec Wire_Model Wire_Spec Message_Model.
Open Scope Z_scope.

(** The segments behind the non-nil pointers of a list. *)
Fixpoint pointees (ps : list sptr) (heap : nat -> seg) : list seg :=
  match ps with
  | Ptr a :: r => heap a :: pointees r heap
  | _ :: r => pointees r heap
  | [] => []
  end.
Fixpoint addresses (ps : list sptr) : list nat :=
  match ps with
  | Ptr a :: r => a :: addresses r
  | _ :: r => addresses r
  | [] => []
  end.
Definition optlist {A} (o : option A) : list A := match o with Some x => [x] | None => [] end.

(** What is between message header and message end. *)
Definition content (m : message) : list seg :=
  optlist (m_sigbegin m) ++
  match m_body m with Some ps => pointees ps (m_heap m) | None => [] end ++
  optlist (m_sigend m).
(** All segments of a message in the order in which they are transmitted. *)
Definition transmitted (m : message) : list seg :=
  optlist (option_map header_seg (m_header m)) ++ content m ++ optlist (option_map end_seg (m_end m)).
(** No segment object is in the message twice. *)
Definition distinct_body (m : message) : Prop :=
  match m_body m with Some ps => NoDup (addresses ps) | None => True end.
(** 1, 2, ..., n *)
Definition one_to (n : nat) : list Z := map Z.of_nat (seq 1 n).
(** Two segments that differ at most in their position. *)
Definition same_but_pos (a b : seg) : Prop :=
  sg_id a = sg_id b /\ sg_version a = sg_version b /\ sg_ref a = sg_ref b /\ sg_elems a = sg_elems b.

(** [after m m']: m' may come about from m by any sequence of calls, assignments
    to exported fields and changes of the segments; only MarshalHBCI writes the
    unexported field marshaledContent. *)
Inductive after : message -> message -> Prop :=
| after_refl m : after m m
| after_change m m1 m2 : after m m1 -> m_cache m2 = m_cache m1 -> after m m2
| after_marshal m m1 m2 r : after m m1 -> marshal_msg m1 = (m2, r) -> after m m2.

(** A segment whose wire form a receiver can take apart. *)
Definition safe_seg (s : seg) : Prop :=
  wire_safe (segment_header (sg_id s) (sg_pos s) (sg_version s) (sg_ref s)) /\
  Forall opt_safe (sg_elems s) /\
  forall h bs, marshal_de (segment_header (sg_id s) (sg_pos s) (sg_version s) (sg_ref s)) = Ok h ->
    all_ok marshal_opt (sg_elems s) = Ok bs -> ~ ends_with b_plus (last_present (h :: bs)).

(** Letters and digits. *)
Definition alnum (c : byte) : bool :=
  is_digit c || ((65 <=? zb c) && (zb c <=? 90)) || ((97 <=? zb c) && (zb c <=? 122)).

(** Latin-1 text without syntax characters and NUL that is not mistaken for a
    malformed number. *)
Definition plain (v : bytes) : Prop :=
  latin1_string v /\ forallb (fun c => negb (is_syntax c) && negb (beq c b_nul)) v = true /\
  malformed_float v = false.

(** An acknowledgement as a bank composes it. *)
Record bank_ack := mkBA { ba_code : Z; ba_elem : bytes; ba_text : bytes; ba_params : list bytes }.
(** element/acknowledgement.go:19-28, 88-95 NewAcknowledgement: the data element group. *)
Definition ack_group (a : bank_ack) : delem :=
  DEG [Some (DE (EDigit 4 (ba_code a))); Some (DE (EText (ba_elem a))); Some (DE (EText (ba_text a)));
       Some (DEG (map (fun p => Some (DE (EText p))) (ba_params a)))].
Definition plain_ack (a : bank_ack) : Prop :=
  0 <= ba_code a < 10000 /\ plain (ba_elem a) /\ plain (ba_text a) /\ ba_text a <> [] /\
  Forall plain (ba_params a) /\ last (ba_params a) (B "-") <> [].
Definition delivered (formsg : bool) (refmsg : bytes * Z) (refseg : Z) (a : bank_ack) : ack :=
  mkAck (ba_code a) (ba_elem a) (ba_text a) (ba_params a) formsg refmsg refseg.

(** A segment of a bank's message: HIRMG, HIRMS or anything else. *)
Inductive bank_seg :=
| BMsgAcks (pos : Z) (ref : option Z) (l : list bank_ack)
| BSegAcks (pos : Z) (ref : option Z) (l : list bank_ack)
| BOther (w : bytes).
Definition bank_wire (s : bank_seg) (w : bytes) : Prop :=
  match s with
  | BMsgAcks pos ref l => marshal_seg (mkSeg (B "HIRMG") pos 2 ref (map (fun a => Some (ack_group a)) l)) = Ok w
  | BSegAcks pos ref l => marshal_seg (mkSeg (B "HIRMS") pos 2 ref (map (fun a => Some (ack_group a)) l)) = Ok w
  | BOther x => w = x
  end.

(** Is the raw segment one with this ID and version? *)
Definition is_seg (id : bytes) (version : Z) (s : bytes) : bool :=
  match extract_header s with
  | Ok h => bytes_eqb (sh_id h) id && (sh_version h =? version)
  | _ => false
  end.
(** The acknowledgements in one raw segment. *)
Definition acks_in (formsg : bool) (s : bytes) : list ack :=
  match unmarshal_acks formsg s with Ok l => l | _ => [] end.

(** What Acknowledgements() is to return for a message of these segments. *)
Fixpoint message_acks (refmsg : bytes * Z) (l : list bank_seg) : list ack :=
  match l with
  | [] => []
  | BMsgAcks _ ref acks :: _ =>
      map (delivered true refmsg (match ref with Some r => r | None => 0 end)) acks
  | _ :: r => message_acks refmsg r
  end.
Fixpoint segment_acks (l : list bank_seg) : list ack :=
  match l with
  | [] => []
  | BSegAcks _ ref acks :: r =>
      map (delivered false ([], 0) (match ref with Some p => p | None => -1 end)) acks ++ segment_acks r
  | _ :: r => segment_acks r
  end.
Definition position_ok (z : Z) : Prop := 0 <= z <= 999.
Definition ref_ok (ref : option Z) : Prop := match ref with Some r => position_ok r | None => True end.
