(** * PIN and TAN as an element (element/pin.go) *)
From Verif Require Import Base Codec_Model Wire_Model Message_Model Dialog_Model Seg_Model Request_Model.
Open Scope Z_scope.

(** element/pin.go:14-26, 34-43, 54-59: NewCustomSignature and NewPinTan (which differ only in
    the maximal lengths, see `Valid_Model.v`); without a TAN the second part is a nil pointer. *)
Definition signature_de (pin tan : bytes) : option delem :=
  Some (DEG [text_de pin; match tan with [] => None | _ => text_de tan end]).
(** element/pin.go:47-51: the element after UnmarshalHBCI, nil for an empty part. *)
Record pin_element := mkPE { pe_pin : option bytes; pe_tan : option bytes }.
(** element/pin.go:62-86 *)
Definition read_pin_tan (w : bytes) : outcome pin_element :=
  do es <- group_extract w;
  if (List.length es <? 2)%nat then Err
  else do pin <- field 0 text es; do tan <- field 1 text es; Ok (mkPE pin tan).
