(** * Reading the name of a key (element/signature.go) *)
From Verif Require Import Base Codec_Model Wire_Model Message_Model Dialog_Model Seg_Model Request_Model Key_Model.
Open Scope Z_scope.

(** element/signature.go:322-331: the element as it is after UnmarshalHBCI; the parts are
    pointers, nil for a part which was empty. *)
Record name_element := mkNE {
  ne_bank : option (option Z * bytes); ne_user : option bytes; ne_type : option bytes;
  ne_number : option Z; ne_version : option Z }.
(** element/signature.go:358-403 UnmarshalHBCI *)
Definition read_key_name (w : bytes) : outcome name_element :=
  do es <- group_extract w;
  if (List.length es <? 6)%nat then Err
  else do bank <- opt_parse (fun _ => unmarshal_bank (join [b_colon] (firstn 2 es))) (nonempty_nth 0 es);
       do user <- field 2 text es;
       do type_ <- field 3 text es;
       do number <- field 4 unmarshal_int es;
       do version <- field 5 unmarshal_int es;
       Ok (mkNE bank user type_ number version).
(** element/signature.go:334-344 Val: a nil part panics. *)
Definition name_val (e : name_element) : outcome key_name :=
  do b <- deref (ne_bank e);
  do bank <- bank_val b;
  do user <- deref (ne_user e);
  do type_ <- deref (ne_type e);
  do number <- deref (ne_number e);
  do version <- deref (ne_version e);
  Ok (mkKN bank user type_ number version).
