(** * Model of how the requests to the bank are composed

    The client's and the dialog's requests down to the bytes: segment/dialog.go,
    identification.go, sync.go, tan.go, account_balance.go, account_transaction.go,
    account_information.go, status_protocol.go, signature_header.go,
    signature_end.go, encryption_header.go, hbci220.go, fints300.go;
    element/signature.go, signature_fints3.go, encryption.go, pin.go,
    group_data_element_group.go; message/signature.go, message/crypto.go,
    message/sync.go, message/dialog.go; domain/key.go.  For the card based (RDH)
    providers and dialogs see Key_Model.v. *)
From Verif Require Import Base Lexer_Model Codec_Model Wire_Model Message_Model Dialog_Model Merge_Model
  Client_Model Time_Model Seg_Model.
Open Scope Z_scope.

(** What the dialog of a client is created with: dialog/pin_tan_dialog.go:16-24.
    [st_version] is 220 or 300 (segment/hbci_version.go:42-45). *)
Record settings := mkSettings {
  st_version : Z; st_bank : bank_ref; st_user : bytes; st_product : bytes; st_product_version : bytes }.

(** ** Elements *)
Definition text_de (v : bytes) : option delem := Some (DE (EText v)).
Definition number_de (n : Z) : option delem := Some (DE (ENumber n)).
(** element/group_data_element_group.go:71-78, 96-101, element/data_element.go:674-678 *)
Definition bank_de (b : bank_ref) : option delem :=
  Some (DEG [Some (DE (EDigit 3 (bank_country b))); text_de (bank_code b)]).
(** element/group_data_element_group.go:123-132, 144-151 *)
Definition connection_de (a : account_connection) : option delem :=
  Some (DEG [text_de (ac_account a); text_de (ac_sub a); Some (DE (EDigit 3 (ac_country a))); text_de (ac_bank a)]).
(** element/group_data_element_group.go:187-197, 210-218 *)
Definition intl_de (a : intl_connection) : option delem :=
  Some (DEG [text_de (ic_iban a); text_de (ic_bic a); text_de (ic_account a); text_de (ic_sub a); bank_de (ic_bank a)]).
(** element/signature.go:19-34, 80-86, for the message's sender *)
Definition security_id_de (system : bytes) : option delem :=
  Some (DEG [text_de (B "1"); None; text_de system]).
(** element/signature.go:96-112, 123-129, for a time stamp; the moment as the
    machine's local date and time of day *)
Definition security_date_de (at_ : date * tod) : option delem :=
  Some (DEG [text_de (B "1"); Some (DE (EDate (fst at_))); Some (DE (ETime (snd at_)))]).
(** element/signature.go:167-175, 191-198 *)
Definition hash_de : option delem := Some (DEG [text_de (B "1"); text_de (B "999"); text_de (B "1"); None]).
(** element/signature.go:242-250, 266-272 *)
Definition sig_algorithm_de : option delem := Some (DEG [text_de (B "6"); text_de (B "10"); text_de (B "16")]).
(** element/signature.go:309-319 with domain/key.go:38-47 *)
Definition key_name_de (st : settings) (type_ : bytes) : option delem :=
  Some (DEG [bank_de (st_bank st); text_de (st_user st); text_de type_; number_de 0; number_de 0]).
(** element/signature_fints3.go:7-14, 45-50 *)
Definition profile_de (fn : bytes) : option delem :=
  Some (DEG [text_de (B "PIN"); number_de (if bytes_eqb fn (B "999") then 1 else 2)]).
(** element/encryption.go:7-18, 53-63, element/pin.go:10: eight NUL bytes for a key *)
Definition enc_algorithm_de : option delem :=
  Some (DEG [text_de (B "2"); text_de (B "2"); text_de (B "13"); Some (DE (EBinary (repeat b_nul 8)));
             text_de (B "5"); text_de (B "1"); None]).
(** element/pin.go:14-26, 34-43, 54-59; the dialog never has a TAN
    (message/signature.go:87) *)
Definition pin_tan_de (pin : bytes) : option delem := Some (DEG [text_de pin; None]).
Definition opt_text (v : bytes) : option delem := match v with [] => None | _ => text_de v end.

(** ** hash/crc32 with the IEEE polynomial, and "%x" of the four bytes *)
Definition crc_shift (c : N) : N :=
  if N.odd c then N.lxor (N.shiftr c 1) 0xEDB88320 else N.shiftr c 1.
Definition crc_byte (c : N) (b : byte) : N :=
  let c := N.lxor c (Byte.to_N b) in
  crc_shift (crc_shift (crc_shift (crc_shift (crc_shift (crc_shift (crc_shift (crc_shift c))))))).
Definition crc32 (s : bytes) : N := N.lxor (fold_left crc_byte s 0xFFFFFFFF%N) 0xFFFFFFFF.
Definition hex_digit (n : N) : byte := nth (N.to_nat n) (B "0123456789abcdef") b_nul.
Fixpoint hex (digits : nat) (n : N) : bytes :=
  match digits with O => [] | S k => hex k (n / 16) ++ [hex_digit (n mod 16)] end.
(** message/signature.go:37-47 generateControlReference for the key name of
    dialog/pin_tan_dialog.go:28, 64 *)
Definition control_reference (st : settings) : bytes :=
  hex 8 (crc32 (itoa (bank_country (st_bank st)) ++ bank_code (st_bank st) ++ st_user st ++ B "S" ++ B "0" ++ B "0")).

(** ** Segments; the position is overwritten before marshaling (message/message.go:111-133)
    where it is not 998 or 999 *)

(** segment/signature_header.go:19-33, 136-150 (version 3), 152-166, 243-258
    (version 4), still without what the provider writes: the elements it sets are
    nil *)
Definition sig_header (st : settings) (at_ : date * tod) : seg :=
  let rest := [text_de (B "1"); text_de (B "1"); None; None; security_date_de at_; hash_de; sig_algorithm_de; None; None] in
  if st_version st =? 300 then mkSeg (B "HNSHK") 2 4 None (None :: None :: None :: rest)
  else mkSeg (B "HNSHK") 2 3 None (None :: None :: rest).
(** message/signature.go:79-85 WriteSignatureHeader with segment/signature_header.go:111-129
    and 213-236: sets profile (version 4), function, control reference, security
    ID, signature ID and key name; the other elements stay *)
Definition write_sig_header (st : settings) (p : provider) (es : list (option delem)) : list (option delem) :=
  let fn := text_de (pv_fn p) in
  let cref := text_de (control_reference st) in
  let sid := security_id_de (pv_system p) in
  let key := key_name_de st (B "S") in
  if st_version st =? 300 then
    match es with
    | [_; _; _; range; role; _; _; at_; hash; alg; _; cert] =>
        [profile_de (pv_fn p); fn; cref; range; role; sid; number_de 0; at_; hash; alg; key; cert]
    | _ => es
    end
  else
    match es with
    | [_; _; range; role; _; _; at_; hash; alg; _; cert] =>
        [fn; cref; range; role; sid; number_de 0; at_; hash; alg; key; cert]
    | _ => es
    end.
(** segment/signature_end.go:11-19, 45-51 (version 1), 64-72, 86-92 (version 2) *)
Definition sig_end (st : settings) : seg :=
  mkSeg (B "HNSHA") (-1) (if st_version st =? 300 then 2 else 1) None [None; None; None].
(** message/signature.go:87-90 WriteSignature with segment/signature_end.go:53-63, 94-104 *)
Definition write_sig_end (st : settings) (p : provider) (es : list (option delem)) : list (option delem) :=
  match es with
  | [_; s; _] => [text_de (control_reference st); s; pin_tan_de (pv_pin p)]
  | _ => es
  end.
(** message/signature.go:75-77 with domain/key.go:122-124: the PIN is the signature,
    and it is not written anywhere *)
Definition pin_sig_provider (st : settings) (p : provider) : sig_provider :=
  mkSP (write_sig_header st p) (fun _ => Ok (pv_pin p)) (fun _ => write_sig_end st p).
(** segment/encryption_header.go:20-36, 89-116 (version 2), 118-135, 169-207
    (version 3), filled in by message/crypto.go:54-59 (WriteEncryptionHeader) *)
Definition enc_header (st : settings) (p : provider) (at_ : date * tod) : seg :=
  let es := [text_de (B "998"); text_de (B "1"); security_id_de (pv_system p); security_date_de at_;
             enc_algorithm_de; key_name_de st (B "V"); text_de (B "0"); None] in
  if st_version st =? 300 then mkSeg (B "HNVSK") 998 3 None (profile_de (pv_fn p) :: es)
  else mkSeg (B "HNVSK") 998 2 None es.

(** segment/identification.go:10-25, 40-47 *)
Definition idn_seg (st : settings) (client system : bytes) (required : bool) : seg :=
  mkSeg (B "HKIDN") 3 2 None [bank_de (st_bank st); text_de client; text_de system; number_de (if required then 1 else 0)].
(** segment/dialog.go:9-10, 56-72, 124-132; language 1 is German (domain/language.go:9),
    which every dialog uses (dialog/dialog.go:51, 161) *)
Definition vvb_seg (st : settings) (bpd upd : Z) : seg :=
  mkSeg (B "HKVVB") 4 3 None
    [number_de bpd; number_de upd; number_de 1;
     text_de (match st_product st with [] => B "5A624F86A785F4024DD914404" | p => p end);
     text_de (match st_product_version st with [] => B "0.3.2" | v => v end)].
(** segment/tan.go:84-95, 113-123 with dialog/dialog.go:163, 352 and client.go:184,
    226, 254, 295, 350: always for the segment HKIDN *)
Definition tan_seg : seg :=
  mkSeg (B "HKTAN") 1 6 None [text_de (B "4"); text_de (B "HKIDN"); None; None; None; None; None].
(** segment/sync.go:20-30, 51-55 (version 2: a number), 57-67, 84-88 (version 3: a
    code), for SyncModeAquireClientID *)
Definition syn_seg (st : settings) : seg :=
  if st_version st =? 300 then mkSeg (B "HKSYN") 5 3 None [text_de (itoa 0)]
  else mkSeg (B "HKSYN") 5 2 None [number_de 0].
(** segment/dialog.go:12-18, 30-34 *)
Definition end_dialog_seg (dialog : bytes) : seg := mkSeg (B "HKEND") 3 1 None [text_de dialog].

(** ** Jobs *)

(** The arguments of the client's methods: AccountBalances and AccountInformation,
    SepaAccountBalances, AccountTransactions, SepaAccountTransactions, Status. *)
Inductive args :=
| AAccount (a : account_connection) (all_accounts : bool)
| ASepa (a : intl_connection) (all_accounts : bool)
| ARange (a : account_connection) (t : timeframe) (all_accounts : bool)
| ASepaRange (a : intl_connection) (t : timeframe) (all_accounts : bool)
| AStatus (from to : date) (max_entries : Z).
(** time.Time.AddDate(0, -1, 0) for a calendar date: the month before; days beyond
    its end run over into the next month (Go package time: Date normalises). *)
Definition month_before (d : date) : date :=
  let '(y, m) := if d_month d =? 1 then (d_year d - 1, 12) else (d_year d, d_month d - 1) in
  let n := days_in m y in
  if n <? d_day d then mkDate (d_year d) (d_month d) (d_day d - n) else mkDate y m (d_day d).
(** segment/account_transaction.go:80-91, 136-147, 192-203 SetTransactionRange,
    with the date of time.Now() (simplification: the same for both ends) *)
Definition range_end (today : date) (t : timeframe) : date :=
  if is_zero (tf_end t) then today else tf_end t.
Definition range_start (today : date) (t : timeframe) : date :=
  if is_zero (tf_start t) then month_before today else tf_start t.
(** segment/account_transaction.go:98-107, 154-163, 210-219 *)
Definition kaz_elems (account : option delem) (all_accounts : bool) (today : date) (t : timeframe) (mark : bytes) : list (option delem) :=
  [account; Some (DE (EBool all_accounts)); Some (DE (EDate (range_start today t))); Some (DE (EDate (range_end today t)));
   None; opt_text mark].
(** segment/account_balance.go:73-80, 108-115, 143-150, 178-185,
    segment/account_information.go:35-42 *)
Definition sal_elems (account : option delem) (all_accounts : bool) (mark : bytes) : list (option delem) :=
  [account; Some (DE (EBool all_accounts)); None; opt_text mark].
(** The request segment of a job (client.go:134-137, 179-182, 224, 246-250, 284-291,
    344-348; segment/status_protocol.go:31-42, 57-77, 92-99); [None]: arguments of
    another method, which Go's types rule out. *)
Definition job_seg (today : date) (j : job args) : option seg :=
  match jb_topic j, jb_args j with
  | TBalances, AAccount a all => Some (mkSeg (B "HKSAL") 1 (jb_version j) None (sal_elems (connection_de a) all (jb_mark j)))
  | TSepaBalances, ASepa a all => Some (mkSeg (B "HKSAL") 1 (jb_version j) None (sal_elems (intl_de a) all (jb_mark j)))
  | TTransactions, ARange a t all => Some (mkSeg (B "HKKAZ") 1 (jb_version j) None (kaz_elems (connection_de a) all today t (jb_mark j)))
  | TSepaTransactions, ASepaRange a t all => Some (mkSeg (B "HKKAZ") 1 (jb_version j) None (kaz_elems (intl_de a) all today t (jb_mark j)))
  | TInformation, AAccount a all => Some (mkSeg (B "HKKIF") 1 (jb_version j) None (sal_elems (connection_de a) all (jb_mark j)))
  | TStatus, AStatus from to n =>
      Some (mkSeg (B "HKPRO") 1 (jb_version j) None [Some (DE (EDate from)); Some (DE (EDate to)); number_de n; opt_text (jb_mark j)])
  | _, _ => None
  end.

(** ** Messages *)

(** HBCISegments(): message/sync.go:35-45, message/dialog.go:32-41, 76-80,
    message/message.go:67-69 with client.go; [None] in the inner list is a nil
    pointer.  The anonymous initialisation (dialog/dialog.go:264-268) has no TAN
    request and asks for no system ID; the one for [signed] has both.  For the
    job of anonymous dialogs see Anon_Model.v. *)
Definition body_segs (st : settings) (today : date) (signed : bool) (k : kind (job args)) : option (list (option seg)) :=
  match k with
  | KSync client => Some [Some (idn_seg st client (B "0") true); Some (vvb_seg st 0 0); Some tan_seg; None; None; None; Some (syn_seg st)]
  | KInit client system bpd upd =>
      Some [Some (idn_seg st client system signed); Some (vvb_seg st bpd upd);
            (if signed then Some tan_seg else None); None; None; None]
  | KJob j => if signed then option_map (fun s => [Some tan_seg; Some s]) (job_seg today j) else None
  | KEnd dialog => Some [Some (end_dialog_seg dialog)]
  end.
(** The segments are distinct objects. *)
Fixpoint pointers (a : nat) (l : list (option seg)) : list sptr :=
  match l with
  | [] => []
  | None :: r => NilPointer :: pointers (S a) r
  | Some _ :: r => Ptr a :: pointers (S a) r
  end.
Definition objects (l : list (option seg)) : nat -> seg :=
  fun a => match nth a l None with Some s => s | None => tan_seg end.
(** dialog/dialog.go:448-454 newBasicMessage *)
Definition basic_message (st : settings) (q : request (job args)) (body : list (option seg)) : message :=
  new_message (new_msg_header (-1) (st_version st) (rq_dialog q) (rq_number q)) (mkME (-1) (Some (rq_number q)))
    (pointers 0 body) (objects body).

Section Compose.
  (** Segment.String(), which enters nothing but the text handed to the PIN
      provider's Sign, that ignores it. *)
  Variable render : seg -> bytes.
  Variable st : settings.
  (** time.Now() when the request segment, the signature header and the envelope
      of the next message are made. *)
  Variable today : list (entry (job args)) -> date.
  Variable signed_at enveloped_at : list (entry (job args)) -> date * tod.

  (** message/message.go:233-256 *)
  Definition signed_message (h : list (entry (job args))) (q : request (job args)) (p : provider) : outcome message :=
    match body_segs st (today h) true (rq_kind q) with
    | None => Panic
    | Some body => sign render (sig_header st (signed_at h)) (sig_end st) (pin_sig_provider st p) (basic_message st q body)
    end.
  (** The Sign calls of dialog/dialog.go:115-118, 166-169, 354-357, 416-419 *)
  Definition request_sign (h : list (entry (job args))) (q : request (job args)) : outcome unit :=
    match rq_sig q with
    | Some p => do _ <- signed_message h q p; Ok tt
    | None => Ok tt
    end.
  (** Sign, Encrypt and MarshalHBCI (dialog/dialog.go:115-124, 166-176, 354-363,
      416-425), or SetSegmentPositions and MarshalHBCI for anonymous messages
      (239-241, 269-271, 315-318).  No message is signed and not enveloped. *)
  Definition request_bytes (h : list (entry (job args))) (q : request (job args)) : outcome bytes :=
    match rq_sig q, rq_crypt q with
    | Some p, Some c =>
        do m <- signed_message h q p;
        do e <- encrypt (pv_pin c) (enc_header st c (enveloped_at h)) m;
        snd (marshal_msg e)
    | None, None =>
        match body_segs st (today h) false (rq_kind q) with
        | None => Panic
        | Some body => do m <- set_positions (basic_message st q body); snd (marshal_msg m)
        end
    | _, _ => Panic
    end.
End Compose.
