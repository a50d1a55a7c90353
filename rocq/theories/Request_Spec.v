(** * The messages a client is to send, byte by byte

    What the HBCI specification (and its PIN/TAN extension) asks of a client's
    messages, written with the encoder of Seg_Spec and without the definitions of
    the request model; and what the caller of the library has to provide for it. *)
From Verif Require Import Base Codec_Model Codec_Spec Wire_Spec Dialog_Model Client_Model Time_Model Seg_Model Seg_Spec
  Request_Model.
Open Scope Z_scope.

(** ** The caller's data, texts as Latin-1 characters *)
Record who := mkWho {
  wh_version : Z; wh_country : Z; wh_bank : bytes; wh_user : bytes; wh_product : bytes; wh_product_version : bytes }.
Definition settings_for (x : who) : settings :=
  mkSettings (wh_version x) (mkBank (wh_country x) (utf8 (wh_bank x))) (utf8 (wh_user x)) (utf8 (wh_product x))
    (utf8 (wh_product_version x)).
(** PIN, client system ID and security function. *)
Record secret := mkSecret { sc_pin : bytes; sc_system : bytes; sc_function : bytes }.
Definition provider_for (s : secret) : provider := mkPv (utf8 (sc_pin s)) (utf8 (sc_system s)) (utf8 (sc_function s)).

(** What is asked for; a timeframe may lack either end. *)
Inductive wish :=
| WBalances (version : Z) (a : national) (all_accounts : bool)
| WSepaBalances (version : Z) (a : international) (all_accounts : bool)
| WTransactions (version : Z) (a : national) (from to : option date) (all_accounts : bool)
| WSepaTransactions (version : Z) (a : international) (from to : option date) (all_accounts : bool)
| WInformation (version : Z) (a : national) (all_accounts : bool)
| WStatus (version : Z) (from to : date) (max_entries : Z).
Definition given (o : option date) : date := match o with Some d => d | None => mkDate 1 1 1 end.
(** The job of the client's method for a wish and a continuation mark. *)
Definition job_for (w : wish) (mark : bytes) : Client_Model.job args :=
  match w with
  | WBalances v a all => Client_Model.mkJob TBalances v (AAccount (national_value a) all) (utf8 mark)
  | WSepaBalances v a all => Client_Model.mkJob TSepaBalances v (ASepa (international_value a) all) (utf8 mark)
  | WTransactions v a from to all =>
      Client_Model.mkJob TTransactions v (ARange (national_value a) (mkTf (given from) (given to)) all) (utf8 mark)
  | WSepaTransactions v a from to all =>
      Client_Model.mkJob TSepaTransactions v (ASepaRange (international_value a) (mkTf (given from) (given to)) all) (utf8 mark)
  | WInformation v a all => Client_Model.mkJob TInformation v (AAccount (national_value a) all) (utf8 mark)
  | WStatus v from to n => Client_Model.mkJob TStatus v (AStatus from to n) (utf8 mark)
  end.
Inductive ask :=
| QSync (client : bytes)
| QInit (client system : bytes) (bpd upd : Z)
| QJob (w : wish) (mark : bytes)
| QEnd.
Definition kind_for (dialog : bytes) (a : ask) : kind (Client_Model.job args) :=
  match a with
  | QSync client => KSync (utf8 client)
  | QInit client system bpd upd => KInit (utf8 client) (utf8 system) bpd upd
  | QJob w mark => KJob (job_for w mark)
  | QEnd => KEnd (utf8 dialog)
  end.

(** ** The segments: ID, version, data elements *)
Record part := mkPart { pt_id : bytes; pt_version : Z; pt_fields : list (list item) }.
Definition text (s : string) : item := TText (B s).
Definition or_default (l : bytes) (s : string) : item := TText (match l with [] => B s | _ => l end).
Definition bank_items (x : who) : list item := [TDigits 3 (wh_country x); TText (wh_bank x)].
Definition stamp_items (at_ : date * tod) : list item := [text "1"; TDate (fst at_); TTime (snd at_)].
Definition sender_items (system : bytes) : list item := [text "1"; text ""; TText system].
Definition key_items (x : who) (use : string) : list item :=
  bank_items x ++ [TText (wh_user x); text use; TNumber 0; TNumber 0].
(** From version 300 on messages name the security profile: PIN with one step, or
    with two for any other function than 999. *)
Definition one_step (s : secret) : bool := if list_eq_dec byte_eq_dec (sc_function s) (B "999") then true else false.
Definition profile_field (x : who) (s : secret) : list (list item) :=
  if wh_version x =? 300 then [[text "PIN"; TNumber (if one_step s then 1 else 2)]] else [].
Definition signature_header (x : who) (s : secret) (reference : bytes) (at_ : date * tod) : part :=
  mkPart (B "HNSHK") (if wh_version x =? 300 then 4 else 3)
    (profile_field x s ++
     [[TText (sc_function s)]; [TText reference]; [text "1"]; [text "1"]; sender_items (sc_system s); [TNumber 0];
      stamp_items at_; [text "1"; text "999"; text "1"]; [text "6"; text "10"; text "16"]; key_items x "S"]).
Definition signature_end (x : who) (s : secret) (reference : bytes) : part :=
  mkPart (B "HNSHA") (if wh_version x =? 300 then 2 else 1) [[TText reference]; []; [TText (sc_pin s)]].
Definition envelope_header (x : who) (s : secret) (at_ : date * tod) : part :=
  mkPart (B "HNVSK") (if wh_version x =? 300 then 3 else 2)
    (profile_field x s ++
     [[text "998"]; [text "1"]; sender_items (sc_system s); stamp_items at_;
      [text "2"; text "2"; text "13"; TBinary (repeat b_nul 8); text "5"; text "1"]; key_items x "V"; [text "0"]]).
Definition identification (x : who) (client system : bytes) (with_system : bool) : part :=
  mkPart (B "HKIDN") 2 [bank_items x; [TText client]; [TText system]; [TNumber (if with_system then 1 else 0)]].
Definition preparation (x : who) (bpd upd : Z) : part :=
  mkPart (B "HKVVB") 3 [[TNumber bpd]; [TNumber upd]; [TNumber 1]; [or_default (wh_product x) "5A624F86A785F4024DD914404"];
                        [or_default (wh_product_version x) "0.3.2"]].
Definition tan_request : part := mkPart (B "HKTAN") 6 [[text "4"]; [text "HKIDN"]].
Definition synchronisation (x : who) : part := mkPart (B "HKSYN") (if wh_version x =? 300 then 3 else 2) [[TNumber 0]].

(** An international account without a bank is sent with country 000. *)
Definition international_sent (a : international) : list item :=
  [TText (in_iban a); TText (in_bic a); TText (in_account a); TText (in_sub a)] ++
  match in_bank a with Some (c, b) => [TDigits 3 c; TText b] | None => [TDigits 3 0] end.
(** As many days after the first of the month before as today is after the first
    of this month. *)
Definition a_month_ago (d : date) : date :=
  Nat.iter (Z.to_nat (d_day d - 1)) next_day
    (if d_month d =? 1 then mkDate (d_year d - 1) 12 1 else mkDate (d_year d) (d_month d - 1) 1).
Definition from_or (today : date) (o : option date) : date := match o with Some d => d | None => a_month_ago today end.
Definition to_or (today : date) (o : option date) : date := match o with Some d => d | None => today end.
Definition mark_field (mark : bytes) : list (list item) := [[]; [TText mark]].
Definition wish_part (today : date) (w : wish) (mark : bytes) : part :=
  match w with
  | WBalances v a all => mkPart (B "HKSAL") v ([national_group a; [TFlag all]] ++ mark_field mark)
  | WSepaBalances v a all => mkPart (B "HKSAL") v ([international_sent a; [TFlag all]] ++ mark_field mark)
  | WTransactions v a from to all =>
      mkPart (B "HKKAZ") v ([national_group a; [TFlag all]; [TDate (from_or today from)]; [TDate (to_or today to)]] ++ mark_field mark)
  | WSepaTransactions v a from to all =>
      mkPart (B "HKKAZ") v ([international_sent a; [TFlag all]; [TDate (from_or today from)]; [TDate (to_or today to)]] ++ mark_field mark)
  | WInformation v a all => mkPart (B "HKKIF") v ([national_group a; [TFlag all]] ++ mark_field mark)
  | WStatus v from to n => mkPart (B "HKPRO") v [[TDate from]; [TDate to]; [TNumber n]; [TText mark]]
  end.
Definition body_parts (x : who) (today : date) (dialog : bytes) (signed : bool) (a : ask) : list part :=
  match a with
  | QSync client => [identification x client (B "0") true; preparation x 0 0; tan_request; synchronisation x]
  | QInit client system bpd upd =>
      [identification x client system signed; preparation x bpd upd] ++ (if signed then [tan_request] else [])
  | QJob w mark => [tan_request; wish_part today w mark]
  | QEnd => [mkPart (B "HKEND") 1 [[TText dialog]]]
  end.

(** ** Messages *)
Definition part_wire (n : Z) (p : part) : bytes := segment_wire (pt_id p) n (pt_version p) None (pt_fields p).
(** The segments one after the other, numbered from [n] on. *)
Fixpoint numbered (n : Z) (l : list part) : bytes :=
  match l with [] => [] | p :: r => part_wire n p ++ numbered (n + 1) r end.
(** Message header and message end around [content]; [last] is the position of the end. *)
Definition framed (x : who) (dialog : bytes) (number size last : Z) (content : bytes) : bytes :=
  segment_wire (B "HNHBK") 1 3 None [[TDigits 12 size]; [TNumber (wh_version x)]; [TText dialog]; [TNumber number]] ++
  content ++
  segment_wire (B "HNHBS") last 1 None [[TNumber number]].
Definition parts_end (l : list part) : Z := 2 + Z.of_nat (List.length l).
Definition anonymous_message (x : who) (dialog : bytes) (number size : Z) (l : list part) : bytes :=
  framed x dialog number size (parts_end l) (numbered 2 l).
(** The content goes into an envelope that leaves it readable; the segments of the
    envelope have fixed positions. *)
Definition enveloped_message (x : who) (dialog : bytes) (number size : Z) (s : secret) (at_ : date * tod) (l : list part) : bytes :=
  framed x dialog number size (parts_end l)
    (part_wire 998 (envelope_header x s at_) ++ part_wire 999 (mkPart (B "HNVSD") 1 [[TBinary (numbered 2 l)]])).
Definition signed_parts (x : who) (today : date) (dialog : bytes) (s : secret) (reference : bytes) (at_ : date * tod) (a : ask) : list part :=
  signature_header x s reference at_ :: body_parts x today dialog true a ++ [signature_end x s reference].

(** ** What can be sent *)

(** Values of the library's types that have a representation: any Latin-1 text,
    any number, dates and times of the calendar. *)
Definition sendable (i : item) : Prop :=
  match i with
  | TMoney _ _ => False
  | TDate d => real_date d
  | TTime t => real_time t
  | _ => True
  end.
(** No data element ends in an escaped ':', no segment in an escaped '+': these are cut off
    together with the separators of what is absent at the end. *)
Definition tidy_field (g : list item) : Prop := ~ ends_with ":"%byte (last_present (map item_wire g)).
Definition tidy (p : part) : Prop :=
  Forall (Forall sendable) (pt_fields p) /\ Forall tidy_field (pt_fields p) /\
  ~ ends_with "+"%byte (last_present (map group_wire (pt_fields p))).
(** A wish with explicit ends: none of them is the zero date, which stands for an absent end. *)
Definition wish_ok (w : wish) : Prop :=
  match w with
  | WTransactions _ _ from to _ | WSepaTransactions _ _ from to _ => from <> Some (mkDate 1 1 1) /\ to <> Some (mkDate 1 1 1)
  | _ => True
  end.
Definition ask_ok (a : ask) : Prop := match a with QJob w _ => wish_ok w | _ => True end.
Definition who_ok (x : who) : Prop := wh_bank x <> [] /\ ~ ends_with ":"%byte (wh_bank x).

(** A simpler condition on the caller's texts: none ends in ':' or '+'. *)
Definition clean_text (t : bytes) : Prop := ~ ends_with ":"%byte t /\ ~ ends_with "+"%byte t.
Definition wish_texts (w : wish) : list bytes :=
  match w with
  | WBalances _ a _ | WTransactions _ a _ _ _ | WInformation _ a _ => [na_account a; na_sub a; na_bank a]
  | WSepaBalances _ a _ | WSepaTransactions _ a _ _ _ =>
      [in_iban a; in_bic a; in_account a; in_sub a] ++ match in_bank a with Some (_, b) => [b] | None => [] end
  | WStatus _ _ _ _ => []
  end.
Definition wish_dates (w : wish) : list date :=
  match w with
  | WTransactions _ _ from to _ | WSepaTransactions _ _ from to _ =>
      match from with Some d => [d] | None => [] end ++ match to with Some d => [d] | None => [] end
  | WStatus _ from to _ => [from; to]
  | _ => []
  end.
Definition ask_texts (dialog : bytes) (a : ask) : list bytes :=
  match a with
  | QSync client => [client]
  | QInit client system _ _ => [client; system]
  | QJob w mark => mark :: wish_texts w
  | QEnd => [dialog]
  end.
Definition ask_dates (a : ask) : list date := match a with QJob w _ => wish_dates w | _ => [] end.
Definition who_texts (x : who) : list bytes := [wh_bank x; wh_user x; wh_product x; wh_product_version x].
Definition secret_texts (s : secret) : list bytes := [sc_pin s; sc_system s; sc_function s].
Definition real_moment (t : date * tod) : Prop := real_date (fst t) /\ real_time (snd t).
(** Eight hexadecimal digits. *)
Definition hex_word (r : bytes) : Prop := List.length r = 8%nat /\ Forall (fun c => In c (B "0123456789abcdef")) r.
