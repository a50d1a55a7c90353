(** * What the name of a key is on the wire *)
From Verif Require Import Base Lexer_Spec Message_Spec Seg_Model Seg_Spec Request_Spec Key_Model.
Open Scope Z_scope.

(** The name of a key: the bank with its country, the user, the type of the key (S or V),
    number and version.  Texts are Latin-1 characters. *)
Record named := mkNamed {
  nd_country : Z; nd_bank : bytes; nd_user : bytes; nd_type : bytes; nd_number : Z; nd_version : Z }.
Definition named_items (k : named) : list item :=
  [TDigits 3 (nd_country k); TText (nd_bank k); TText (nd_user k); TText (nd_type k); TNumber (nd_number k); TNumber (nd_version k)].
(** The domain value with these texts. *)
Definition named_value (k : named) : key_name :=
  mkKN (mkBank (nd_country k) (utf8 (nd_bank k))) (utf8 (nd_user k)) (utf8 (nd_type k)) (nd_number k) (nd_version k).
(** The same with the bank code as it is on the wire, release characters included. *)
Definition named_as_read (k : named) : key_name :=
  mkKN (mkBank (nd_country k) (utf8 (escaped (nd_bank k)))) (utf8 (nd_user k)) (utf8 (nd_type k)) (nd_number k) (nd_version k).
(** Numbers fit, no text has a NUL, a '+' or a ''', and there is a bank code. *)
Definition named_ok (k : named) : Prop := group_ok (named_items k) /\ nd_bank k <> [].
