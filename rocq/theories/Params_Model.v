(** * The bank parameters a dialog keeps *)
From Verif Require Import Base Codec_Model Wire_Model Message_Model.
Open Scope Z_scope.

(** domain/bank_parameter_data.go:25-37 NeedsTan: the flag of the first entry of the job,
    and whether there is one *)
Definition needs_tan (id : bytes) (l : list (bytes * bool)) : bool * bool :=
  match find (fun e => bytes_eqb (fst e) id) l with
  | None => (false, false)
  | Some e => (snd e, true)
  end.
(** A Go map as the list of its entries, each key once: m[k] = v and v, ok = m[k] *)
Fixpoint map_set {V} (m : list (bytes * V)) (k : bytes) (v : V) : list (bytes * V) :=
  match m with
  | [] => [(k, v)]
  | (k', v') :: r => if bytes_eqb k' k then (k', v) :: r else (k', v') :: map_set r k v
  end.
Definition map_val {V} (m : list (bytes * V)) (k : bytes) : option V :=
  option_map snd (find (fun e => bytes_eqb (fst e) k) m).

Section Params.
  (** Segments other than acknowledgements are a type [P]: the version in the header, and
      what the segment says if it is one of common bank parameters (segment/
      common_bank_parameter_data.go) or of PIN/TAN jobs (segment/pin_bpd.go); getting it may
      crash for a missing element. *)
  Context {P Common : Type} (version : P -> Z) (common : P -> option (outcome Common))
          (pins : P -> option (outcome (list (bytes * bool)))).
  (** The version of acknowledgements is 2 (segment/acknowledgement.go:16, 82). *)
  Definition pversion (p : parsed P) : Z := match p with POther q => version q | _ => 2 end.
  (** dialog/bank_parameter_data.go:8-16 *)
  Record bank_params := mkParams {
    bp_common : Common; bp_pins : option (list (bytes * bool)); bp_supported : list ((bytes * Z) * option (parsed P)) }.
  (** decryptedMessage.FindSegment *)
  Definition first_segment (m : bank_message P) (id : bytes) : option (parsed P) :=
    match segments_by_id id (bm_segments m) with [] => None | p :: _ => Some p end.
  (** dialog/dialog.go:553-562: the loop over the supported segments *)
  Definition attach (m : bank_message P) (s : bytes * Z) : (bytes * Z) * option (parsed P) :=
    (s, match first_segment m (fst s) with
        | Some p => if pversion p =? snd s then Some p else None
        | None => None
        end).
  (** dialog/dialog.go:543-552 *)
  Definition parse_pins (m : bank_message P) : outcome (option (list (bytes * bool))) :=
    match first_segment m (B "HIPINS") with
    | None => Ok None
    | Some (POther q) =>
        match pins q with
        | Some l => do l <- l; Ok (Some (fold_left (fun m e => map_set m (fst e) (snd e)) l []))
        | None => Panic
        end
    | Some _ => Panic
    end.
  (** dialog/dialog.go:530-564 parseBankParameterData; after an error or a crash there is no state *)
  Definition parse_params (m : bank_message P) (old : bank_params) : outcome bank_params :=
    match first_segment m (B "HIBPA") with
    | None => Ok old
    | Some (POther q) =>
        match common q with
        | Some c => do c <- c; do t <- parse_pins m; Ok (mkParams c t (map (attach m) (supported_segments m)))
        | None => Err
        end
    | Some _ => Err
    end.
End Params.
