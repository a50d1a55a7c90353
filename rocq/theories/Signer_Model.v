(** * Who signed, and when (element/signature.go:10-163) *)
From Verif Require Import Base Codec_Model Wire_Model Message_Model Dialog_Model Time_Model Seg_Model Request_Model.
Open Scope Z_scope.

(** element/signature.go:19-34, 80-86 NewRDHSecurityIdentification: the constructor panics for
    another holder than the constants of 11-16; the card's CID is a nil pointer. *)
Definition new_security_id (holder system : bytes) : outcome (option delem) :=
  do h <- (if bytes_eqb holder (B "MS") then Ok (B "1") else if bytes_eqb holder (B "MR") then Ok (B "2") else Panic);
  Ok (Some (DEG [text_de h; None; text_de system])).
(** element/signature.go:36-43: after UnmarshalHBCI, nil for an empty part *)
Record id_element := mkIdE { id_holder : option bytes; id_cid : option bytes; id_system : option bytes }.
(** element/signature.go:46-77 *)
Definition read_security_id (w : bytes) : outcome id_element :=
  do es <- group_extract w;
  if (List.length es <? 3)%nat then Err
  else do holder <- field 0 text es; do cid <- field 1 unmarshal_binary es; do system <- field 2 text es;
       Ok (mkIdE holder cid system).
(** element/signature.go:96-112, 123-129 NewSecurityDate with the constants of 88-93; the moment
    as its date and time of day *)
Definition new_security_date (kind : bytes) (at_ : date * tod) : outcome (option delem) :=
  do k <- (if bytes_eqb kind (B "STS") then Ok (B "1") else if bytes_eqb kind (B "CRT") then Ok (B "6") else Panic);
  Ok (Some (DEG [text_de k; Some (DE (EDate (fst at_))); Some (DE (ETime (snd at_)))])).
(** element/signature.go:115-120 *)
Record stamp_element := mkSE { se_kind : option bytes; se_date : option date; se_time : option tod }.
(** element/signature.go:132-163 *)
Definition read_security_date (w : bytes) : outcome stamp_element :=
  do es <- group_extract w;
  if (List.length es <? 1)%nat then Err
  else do kind <- field 0 text es; do d <- field 1 unmarshal_date es; do t <- field 2 unmarshal_time es;
       Ok (mkSE kind d t).
