(** * What the log of a dialog may show

    What a caller's data has to be like for the library's own reader to take a request
    apart, and what somebody who reads the log sees. *)
From Verif Require Import Base Lexer_Spec Codec_Model Codec_Spec Wire_Spec Dialog_Model Client_Model Time_Model Seg_Model Seg_Spec
  Message_Model Wire_Model Request_Spec Log_Model.
Open Scope Z_scope.

(** ** Requests of proper values *)
(** A text without NUL that does not look like a number with needless zeros before a comma. *)
Definition proper_text (t : bytes) : Prop := item_ok (TText t).
Definition account_numbers (w : wish) : list Z :=
  match w with
  | WBalances _ a _ | WTransactions _ a _ _ _ | WInformation _ a _ => [na_country a]
  | WSepaBalances _ a _ | WSepaTransactions _ a _ _ _ => match in_bank a with Some (c, _) => [c] | None => [] end
  | WStatus _ _ _ n => [n]
  end.
Definition wish_version (w : wish) : Z :=
  match w with
  | WBalances v _ _ | WSepaBalances v _ _ | WTransactions v _ _ _ _ | WSepaTransactions v _ _ _ _ | WInformation v _ _
  | WStatus v _ _ _ => v
  end.
Definition ask_numbers (a : ask) : list Z :=
  match a with
  | QInit _ _ bpd upd => [bpd; upd]
  | QJob w _ => account_numbers w
  | _ => []
  end.
Definition proper_who (x : who) : Prop :=
  (wh_version x = 220 \/ wh_version x = 300) /\ number_ok (wh_country x) /\ Forall proper_text (who_texts x).
Definition proper_ask (dialog : bytes) (a : ask) : Prop :=
  dialog <> [] /\ proper_text dialog /\ Forall proper_text (ask_texts dialog a) /\ Forall number_ok (ask_numbers a) /\
  match a with QJob w _ => 0 <= wish_version w <= 99 | _ => True end.

(** ** The lines of the log *)
Definition marked (s : bytes) : log_entry := Line (B ">>" ++ s ++ [nl]).
Definition indented (s : bytes) : log_entry := Line (b_tab :: s ++ [nl]).
Definition entry_bytes (e : log_entry) : bytes := match e with Note t => t | Line w => w end.
(** [t] stands somewhere in the log. *)
Definition shows (l : list log_entry) (t : bytes) : Prop := exists e before after, In e l /\ entry_bytes e = before ++ t ++ after.

(** ** Callers and requests *)
(** Whose requests are taken apart: texts that do not end in ':' or '+' (C56), are proper, and
    a PIN that is not empty. *)
Definition good_caller (x : who) : Prop := wh_bank x <> [] /\ proper_who x /\ Forall clean_text (who_texts x).
Definition good_secret (s : secret) : Prop :=
  sc_pin s <> [] /\ Forall proper_text (secret_texts s) /\ Forall clean_text (secret_texts s).
Definition good_ask (today : date) (dialog : bytes) (number : Z) (a : ask) : Prop :=
  ask_ok a /\ proper_ask dialog a /\ Forall clean_text (ask_texts dialog a) /\ Forall real_date (ask_dates a) /\
  real_date today /\ 1 <= d_year today /\ number_ok number.
(** The segments of a signed message: header, envelope header, the envelope with everything
    else - the PIN as well - in the clear, end. *)
Definition sent_segments (x : who) (dialog : bytes) (number size : Z) (c : secret) (at_ : date * tod) (l : list part) : list bytes :=
  [segment_wire (B "HNHBK") 1 3 None [[TDigits 12 size]; [TNumber (wh_version x)]; [TText dialog]; [TNumber number]];
   segment_wire (B "HNVSK") 998 (pt_version (envelope_header x c at_)) None (pt_fields (envelope_header x c at_));
   segment_wire (B "HNVSD") 999 1 None [[TBinary (numbered 2 l)]];
   segment_wire (B "HNHBS") (parts_end l) 1 None [[TNumber number]]].

(** ** The lines about one message *)
(** A message the reader understands is shown as its header and its segments (those of the
    decrypted message if it came in an envelope); one it does not understand as its raw
    segments; one that has none as it is. *)
Inductive displayed {P} (others : bytes -> Z -> option (bytes -> outcome P)) (header_text : msg_header -> bytes) (raw : bytes) : list log_entry -> Prop :=
| displayed_read m : read_response others raw = Ok m ->
    displayed others header_text raw (indented (header_text (bm_header m)) :: map indented (bm_raw m))
| displayed_raw segs : read_response others raw = Err -> message_extract raw = Ok segs ->
    displayed others header_text raw (map marked segs)
| displayed_garbage : read_response others raw = Err -> message_extract raw = Err ->
    displayed others header_text raw [Note (raw ++ [nl])].
