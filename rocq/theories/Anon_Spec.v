(** * What the caller of an anonymous client may expect

    The messages are given with the encoder of Request_Spec. *)
From Verif Require Import Base Lexer_Model Codec_Model Codec_Spec Wire_Spec Dialog_Model Client_Model Time_Model Seg_Model Seg_Spec
  Request_Model Request_Spec Anon_Model.
Open Scope Z_scope.

(** A bank as the caller gives it: country and bank code, a Latin-1 text. *)
Record institute := mkInst { is_country : Z; is_code : bytes }.
Definition institute_value (i : institute) : bank_ref := mkBank (is_country i) (utf8 (is_code i)).
Definition institute_items (i : institute) : list item := [TDigits 3 (is_country i); TText (is_code i)].

(** The three messages of the conversation. *)
Definition hello (x : who) (bpd upd : Z) (size : Z) : bytes :=
  anonymous_message x (B "0") 1 size [identification x (B "9999999999") (B "0") false; preparation x bpd upd].
Definition question (x : who) (dialog : bytes) (from to : institute) (max : Z) (size : Z) : bytes :=
  anonymous_message x dialog 2 size [mkPart (B "HKKOM") 3 [institute_items from; institute_items to; [TNumber max]]].
Definition goodbye (x : who) (dialog : bytes) (size : Z) : bytes :=
  anonymous_message x dialog 3 size [mkPart (B "HKEND") 1 [[TText dialog]]].
(** [bs] is a message [m], announcing its own size. *)
Definition is_message (bs : bytes) (m : Z -> bytes) : Prop := len bs < 10 ^ 12 -> bs = m (len bs).

(** The caller's texts: a bank code, and no text that ends in ':' or '+'. *)
Definition caller_ok (x : who) : Prop :=
  wh_bank x <> [] /\ clean_text (wh_bank x) /\ clean_text (wh_product x) /\ clean_text (wh_product_version x).

(** Two clients that differ in nothing but who uses them: user ID, PIN, client system ID, security function, ... *)
Definition same_setup (a b : settings) : Prop :=
  st_version a = st_version b /\ st_bank a = st_bank b /\ st_product a = st_product b /\ st_product_version a = st_product_version b.
(** ... and know the same versions of the bank's and the user's parameters. *)
Definition same_versions {Acc} (a b : dstate Acc) : Prop :=
  d_bpd_version a = d_bpd_version b /\ upd_version (d_upd a) = upd_version (d_upd b).
