(** * Model of messages: composing, signing, enveloping and reading responses

    message/message.go, message/encryption.go, message/decryption.go,
    message/unmarshaler.go, segment/message_header.go, segment/message_end.go,
    segment/encrypted_data.go, segment/acknowledgement.go,
    element/segment_header.go, element/acknowledgement.go,
    domain/acknowledgement.go, and the reading part of dialog/dialog.go and
    transport/transport.go. *)
From Verif Require Import Base Lexer_Model Codec_Model Wire_Model.
Open Scope Z_scope.

(** ** Segments of a client message *)

(** segment/segment.go:79-82 a segment: its header (element/segment_header.go:25-31,
    always with ID, position and version) and the elements() of the concrete
    segment; an element may be nil. *)
Record seg := mkSeg {
  sg_id : bytes; sg_pos : Z; sg_version : Z; sg_ref : option Z;
  sg_elems : list (option delem) }.
(** segment/segment.go:96-117 *)
Definition marshal_seg (s : seg) : outcome bytes :=
  marshal_segment (segment_header (sg_id s) (sg_pos s) (sg_version s) (sg_ref s)) (sg_elems s).
(** segment/segment.go:138-140 SetPosition, element/segment_header.go:39-41 *)
Definition set_pos (p : Z) (s : seg) : seg :=
  mkSeg (sg_id s) p (sg_version s) (sg_ref s) (sg_elems s).

(** segment/message_header.go:29-36: size as width and value, all fields may be nil. *)
Record msg_header := mkMH {
  mh_pos : Z; mh_size : option (nat * Z); mh_hbci : option Z; mh_dialog : option bytes;
  mh_number : option Z; mh_ref : option (bytes * Z) }.
(** segment/message_header.go:16-25 NewMessageHeaderSegment *)
Definition new_msg_header (size hbci : Z) (dialog : bytes) (number : Z) : msg_header :=
  mkMH 1 (Some (12%nat, size)) (Some hbci) (Some dialog) (Some number) None.
(** segment/message_header.go:38-39, 55-63; the reference is the group of
    element/message.go:63-68. *)
Definition header_seg (h : msg_header) : seg :=
  mkSeg (B "HNHBK") (mh_pos h) 3 None
    [option_map (fun x => DE (EDigit (fst x) (snd x))) (mh_size h);
     option_map (fun z => DE (ENumber z)) (mh_hbci h);
     option_map (fun d => DE (EText d)) (mh_dialog h);
     option_map (fun z => DE (ENumber z)) (mh_number h);
     option_map (fun r => DEG [Some (DE (EText (fst r))); Some (DE (ENumber (snd r)))]) (mh_ref h)].
(** segment/message_header.go:65-67 SetSize: writes through the pointer m.Size. *)
Definition set_header_size (size : Z) (h : msg_header) : outcome msg_header :=
  match mh_size h with
  | None => Panic
  | Some _ => Ok (mkMH (mh_pos h) (Some (12%nat, size)) (mh_hbci h) (mh_dialog h) (mh_number h) (mh_ref h))
  end.
(** segment/message_header.go:51-53 *)
Definition set_header_number (n : Z) (h : msg_header) : msg_header :=
  mkMH (mh_pos h) (mh_size h) (mh_hbci h) (mh_dialog h) (Some n) (mh_ref h).
Definition set_header_pos (p : Z) (h : msg_header) : msg_header :=
  mkMH p (mh_size h) (mh_hbci h) (mh_dialog h) (mh_number h) (mh_ref h).

(** segment/message_end.go MessageEndSegment (HNHBS, version 1) *)
Record msg_end := mkME { me_pos : Z; me_number : option Z }.
Definition end_seg (e : msg_end) : seg :=
  mkSeg (B "HNHBS") (me_pos e) 1 None [option_map (fun z => DE (ENumber z)) (me_number e)].

(** ** message/message.go:100-108 BasicMessage *)

(** An entry of HBCISegments(): a ClientSegment interface that is nil itself, that
    holds a nil pointer, or that points to a segment. *)
Inductive sptr := NilInterface | NilPointer | Ptr (a : nat).

(** [m_body = None]: HBCIMessage is nil.  [m_heap] holds the segments the body
    points to.  Simplification: HBCISegments() is taken to return the same
    pointers on every call, as all implementations do; Header, End and the
    signature segments are held by value, because no two of them are aliased
    within one message. *)
Record message := mkMsg {
  m_header : option msg_header; m_end : option msg_end;
  m_sigbegin : option seg; m_sigend : option seg;
  m_body : option (list sptr); m_heap : nat -> seg; m_cache : bytes }.

(** message/message.go:79-87 NewBasicMessageWithHeaderAndEnd *)
Definition new_message (h : msg_header) (e : msg_end) (body : list sptr) (heap : nat -> seg) : message :=
  mkMsg (Some h) (Some e) None None (Some body) heap [].

Definition heap_set (heap : nat -> seg) (a : nat) (s : seg) : nat -> seg :=
  fun x => if Nat.eqb x a then s else heap x.

(** message/message.go:124-128: the loop over the body; reflect.ValueOf(nil).IsNil()
    panics for a nil interface. *)
Fixpoint position_body (n : Z) (ps : list sptr) (heap : nat -> seg) : outcome (Z * (nat -> seg)) :=
  match ps with
  | [] => Ok (n, heap)
  | NilInterface :: _ => Panic
  | NilPointer :: r => position_body n r heap
  | Ptr a :: r => position_body (n + 1) r (heap_set heap a (set_pos (n + 1) (heap a)))
  end.
(** message/message.go:111-133 SetSegmentPositions; n is the counter of the closure. *)
Definition set_positions (m : message) : outcome message :=
  match m_body m, m_header m, m_end m with
  | Some ps, Some h, Some e =>
      let n := 1 in
      let '(sb, n) := match m_sigbegin m with
                      | Some s => (Some (set_pos (n + 1) s), n + 1)
                      | None => (None, n)
                      end in
      do (n, heap) <- position_body n ps (m_heap m);
      let '(se, n) := match m_sigend m with
                      | Some s => (Some (set_pos (n + 1) s), n + 1)
                      | None => (None, n)
                      end in
      Ok (mkMsg (Some (set_header_pos 1 h)) (Some (mkME (n + 1) (me_number e))) sb se (Some ps) heap (m_cache m))
  | _, _, _ => Panic
  end.

(** message/message.go:153-161, 206-214, 271-279 *)
Fixpoint marshal_body (ps : list sptr) (heap : nat -> seg) : outcome bytes :=
  match ps with
  | [] => Ok []
  | NilInterface :: _ => Panic
  | NilPointer :: r => marshal_body r heap
  | Ptr a :: r => do w <- marshal_seg (heap a); do ws <- marshal_body r heap; Ok (w ++ ws)
  end.
Definition marshal_optseg (s : option seg) : outcome bytes :=
  match s with Some s => marshal_seg s | None => Ok [] end.
(** message/message.go:264-286 the content to be enveloped *)
Definition marshal_inner (m : message) : outcome bytes :=
  match m_body m with
  | None => Err
  | Some ps => do a <- marshal_optseg (m_sigbegin m);
               do b <- marshal_body ps (m_heap m);
               do c <- marshal_optseg (m_sigend m);
               Ok (a ++ b ++ c)
  end.
(** message/message.go:140-173, 193-226: header, signature header, body, signature
    end, message end; MarshalHBCI on a nil header or end panics. *)
Definition marshal_parts (m : message) : outcome bytes :=
  match m_body m with
  | None => Err
  | Some ps =>
      match m_header m with
      | None => Panic
      | Some h =>
          do a <- marshal_seg (header_seg h);
          do b <- marshal_optseg (m_sigbegin m);
          do c <- marshal_body ps (m_heap m);
          do d <- marshal_optseg (m_sigend m);
          match m_end m with
          | None => Panic
          | Some e => do f <- marshal_seg (end_seg e); Ok (a ++ b ++ c ++ d ++ f)
          end
      end
  end.
Definition set_header (h : msg_header) (m : message) : message :=
  mkMsg (Some h) (m_end m) (m_sigbegin m) (m_sigend m) (m_body m) (m_heap m) (m_cache m).
Definition set_cache (c : bytes) (m : message) : message :=
  mkMsg (m_header m) (m_end m) (m_sigbegin m) (m_sigend m) (m_body m) (m_heap m) c.
(** message/message.go:136-176 SetSize *)
Definition set_size (m : message) : outcome message :=
  do w <- marshal_parts m;
  match m_header m with
  | None => Panic
  | Some h => do h' <- set_header_size (Z.of_nat (List.length w)) h; Ok (set_header h' m)
  end.
(** message/message.go:184-230 MarshalHBCI: new state and result *)
Definition marshal_msg (m : message) : message * outcome bytes :=
  match set_size m with
  | Err => (m, Err)
  | Panic => (m, Panic)
  | Ok m1 =>
      match m_cache m1 with
      | [] => match marshal_parts m1 with
              | Ok w => (set_cache w m1, Ok w)
              | Err => (m1, Err)
              | Panic => (m1, Panic)
              end
      | c => (m1, Ok c)
      end
  end.
(** message/message.go:179-181 SetMessageNumber *)
Definition set_message_number (n : Z) (m : message) : outcome message :=
  match m_header m with
  | None => Panic
  | Some h => Ok (set_header (set_header_number n h) m)
  end.

(** ** Signing: message/message.go:233-256 *)

(** message/message.go SignatureProvider interface, as far as Sign uses it: what it
    writes into the elements of a signature header, the signature computation,
    and what it writes into the elements of the signature end. *)
Record sig_provider := mkSP {
  sp_write_header : list (option delem) -> list (option delem);
  sp_sign : bytes -> outcome bytes;
  sp_write_sig : bytes -> list (option delem) -> list (option delem) }.
Definition set_elems (f : list (option delem) -> list (option delem)) (s : seg) : seg :=
  mkSeg (sg_id s) (sg_pos s) (sg_version s) (sg_ref s) (f (sg_elems s)).
(** [sb0], [se0]: the empty signature header and end of the HBCI version;
    [render]: Segment.String() (segment/segment.go:84-94), not modelled further. *)
Fixpoint render_body (render : seg -> bytes) (ps : list sptr) (heap : nat -> seg) : bytes :=
  match ps with
  | [] => []
  | Ptr a :: r => render (heap a) ++ render_body render r heap
  | _ :: r => render_body render r heap
  end.
Definition sign (render : seg -> bytes) (sb0 se0 : seg) (p : sig_provider) (m : message) : outcome message :=
  match m_body m with
  | None => Panic
  | Some ps =>
      let m1 := mkMsg (m_header m) (m_end m) (Some (set_elems (sp_write_header p) sb0)) (Some se0)
                      (m_body m) (m_heap m) (m_cache m) in
      do m2 <- set_positions m1;
      let text := match m_sigbegin m2 with Some s => render s | None => [] end ++
                  render_body render ps (m_heap m2) in
      do sg <- sp_sign p text;
      Ok (mkMsg (m_header m2) (m_end m2) (m_sigbegin m2)
                (option_map (set_elems (sp_write_sig p sg)) (m_sigend m2)) (m_body m2) (m_heap m2) (m_cache m2))
  end.

(** ** The PIN/TAN envelope *)

(** message/crypto.go:43-48 Encrypt with domain/key.go:127-132: no PIN, no message;
    otherwise the bytes themselves. *)
Definition pin_encrypt (pin data : bytes) : outcome bytes :=
  match pin with [] => Err | _ => Ok data end.
(** segment/encrypted_data.go:5-29 *)
Definition data_seg (data : bytes) : seg := mkSeg (B "HNVSD") 999 1 None [Some (DE (EBinary data))].
(** message/message.go:259-296 Encrypt, message/encryption.go:22-28, 44-49.
    [enc]: the encryption header HNVSK at position 998 as filled in by the
    provider.  Simplification: the new message gets copies of header and end where
    the code shares the pointers. *)
Definition encrypt (pin : bytes) (enc : seg) (m : message) : outcome message :=
  do inner <- marshal_inner m;
  do data <- pin_encrypt pin inner;
  Ok (mkMsg (m_header m) (m_end m) None None (Some [Ptr 0; Ptr 1])
        (fun a => match a with O => enc | _ => data_seg data end) []).

(** ** Reading *)

(** element/segment_header.go:76-114 SegmentHeader.UnmarshalHBCI *)
Record seg_header := mkSH { sh_id : bytes; sh_pos : Z; sh_version : Z; sh_ref : option Z }.
Definition unmarshal_header (w : bytes) : outcome seg_header :=
  do es <- group_extract w;
  match es with
  | i :: p :: v :: r =>
      do pos <- unmarshal_int p;
      do ver <- unmarshal_int v;
      match r with
      | (_ :: _) as x :: _ => do ref <- unmarshal_int x; Ok (mkSH (unmarshal_text i) pos ver (Some ref))
      | _ => Ok (mkSH (unmarshal_text i) pos ver None)
      end
  | _ => Err
  end.
(** element/segment_header.go:49-54 ReferencingSegment *)
Definition referencing_segment (h : seg_header) : Z := match sh_ref h with Some r => r | None => -1 end.

(** message/unmarshaler.go:144-155 extractSegmentHeader: elements[0] panics if there
    is no element. *)
Definition extract_header (s : bytes) : outcome seg_header :=
  do es <- segment_extract s;
  match es with [] => Panic | e :: _ => unmarshal_header e end.

(** domain/acknowledgement.go:23-46 Acknowledgement; the type is true for message
    acknowledgements, false for segment acknowledgements; ReferencingMessage is
    dialog ID and message number. *)
Record ack := mkAck {
  ack_code : Z; ack_elem : bytes; ack_text : bytes; ack_params : list bytes;
  ack_for_message : bool; ack_ref_msg : bytes * Z; ack_ref_seg : Z }.
(** domain/acknowledgement.go:82-94 *)
Definition is_err (a : ack) : bool := 9000 <=? ack_code a.
Definition is_warning (a : ack) : bool := (3000 <=? ack_code a) && (ack_code a <? 4000).
Definition is_success (a : ack) : bool := (0 <? ack_code a) && (ack_code a <? 1000).

(** element/acknowledgement.go:98-123 UnmarshalHBCI and 66-76 Val; [formsg], [refseg]
    as set by the enclosing segment. *)
Definition unmarshal_ack (formsg : bool) (refseg : Z) (w : bytes) : outcome ack :=
  do chunks <- group_extract w;
  match chunks with
  | c :: r :: t :: ps =>
      do code <- unmarshal_int c;
      Ok (mkAck code (to_utf8 r) (to_utf8 t) (map to_utf8 ps) formsg ([], 0) refseg)
  | _ => Err
  end.
(** segment/acknowledgement.go:21-51 and 87-115 *)
Definition unmarshal_acks (formsg : bool) (s : bytes) : outcome (list ack) :=
  do es <- segment_extract s;
  match es with
  | [] => Err
  | h :: r =>
      do hd <- unmarshal_header h;
      let ref := referencing_segment hd in
      all_ok (unmarshal_ack formsg (if formsg && (ref =? -1) then 0 else ref)) r
  end.
(** segment/acknowledgement.go:57-66 *)
Definition set_ref_msg (ref : bytes * Z) (a : ack) : ack :=
  mkAck (ack_code a) (ack_elem a) (ack_text a) (ack_params a) (ack_for_message a) ref (ack_ref_seg a).

(** segment/message_header_unmarshaler.go:21-74; element/message.go:48-60 for the
    reference (its dialog ID is not unescaped). *)
Definition nonempty_nth (n : nat) (es : list bytes) : option bytes :=
  match nth_error es n with Some [] => None | o => o end.
Definition opt_parse {A} (f : bytes -> outcome A) (o : option bytes) : outcome (option A) :=
  match o with None => Ok None | Some w => do x <- f w; Ok (Some x) end.
Definition unmarshal_ref (w : bytes) : outcome (bytes * Z) :=
  match group_extract w with
  | Panic => Panic
  | Ok [d; n] => do num <- unmarshal_int n; Ok (to_utf8 d, num)
  | _ => Err
  end.
Definition unmarshal_msg_header (s : bytes) : outcome msg_header :=
  do es <- segment_extract s;
  match es with
  | [] => Err
  | h :: _ =>
      do hd <- unmarshal_header h;
      do size <- opt_parse unmarshal_int (nonempty_nth 1 es);
      do ver <- opt_parse unmarshal_int (nonempty_nth 2 es);
      do dlg <- opt_parse (fun w => Ok (unmarshal_text w)) (nonempty_nth 3 es);
      do num <- opt_parse unmarshal_int (nonempty_nth 4 es);
      do ref <- opt_parse (fun _ => unmarshal_ref (join [b_plus] (skipn 5 es))) (nonempty_nth 5 es);
      Ok (mkMH (sh_pos hd) (option_map (fun z => (List.length (nth 1 es []), z)) size) ver dlg num ref)
  end.
(** segment/message_header.go:43-49 ReferencingMessage *)
Definition referencing_message (h : msg_header) : bytes * Z :=
  match mh_ref h with Some r => r | None => ([], 0) end.

(** segment/encrypted_data_unmarshaler.go:21-46; [None]: Data stays nil. *)
Definition unmarshal_data_seg (s : bytes) : outcome (option bytes) :=
  do es <- segment_extract s;
  match es with
  | [] => Err
  | h :: r => do _ <- unmarshal_header h;
              match r with
              | (_ :: _) :: _ => do d <- unmarshal_binary (join [b_plus] r); Ok (Some d)
              | _ => Ok None
              end
  end.

Section Reading.
  (** The unmarshalers of the other segments of segment.KnownSegments
      (segment/segment_index.go:62-68 and the generated init functions), by ID and
      version: [None] if not indexed.  Acknowledgement segments are indexed in
      version 2 only. *)
  Context {P : Type} (others : bytes -> Z -> option (bytes -> outcome P)).

  Inductive parsed := PMsgAcks (l : list ack) | PSegAcks (l : list ack) | POther (p : P).
  Definition known (id : bytes) (version : Z) : option (bytes -> outcome parsed) :=
    if bytes_eqb id (B "HIRMG") then
      if version =? 2 then Some (fun s => omap PMsgAcks (unmarshal_acks true s)) else None
    else if bytes_eqb id (B "HIRMS") then
      if version =? 2 then Some (fun s => omap PSegAcks (unmarshal_acks false s)) else None
    else match others id version with
         | Some f => Some (fun s => omap POther (f s))
         | None => None
         end.
  (** message/unmarshaler.go:43-65: one segment; [None] if it is skipped. *)
  Definition unmarshal_one (s : bytes) : outcome (option (bytes * parsed)) :=
    do h <- extract_header s;
    match known (sh_id h) (sh_version h) with
    | None => Ok None
    | Some f => do p <- f s; Ok (Some (sh_id h, p))
    end.
  Definition somes {A} (l : list (option A)) : list A :=
    flat_map (fun o => match o with Some x => [x] | None => [] end) l.
  (** message/unmarshaler.go:38-67 Unmarshal: the raw segments and the map from IDs to
      unmarshaled segments as the list of its entries in message order. *)
  Definition unmarshal_all (raw : bytes) : outcome (list bytes * list (bytes * parsed)) :=
    do segs <- message_extract raw;
    do os <- all_ok unmarshal_one segs;
    Ok (segs, somes os).
  (** message/unmarshaler.go:101-112 *)
  Definition segments_by_id (id : bytes) (l : list (bytes * parsed)) : list parsed :=
    map snd (filter (fun x => bytes_eqb (fst x) id) l).

  (** message/decryption.go:47-53 decryptedMessage *)
  Record bank_message := mkBM {
    bm_header : msg_header; bm_acks : list ack; bm_segments : list (bytes * parsed);
    bm_raw : list bytes }.
  (** message/decryption.go:24-30: the panic is for a HIRMS segment of another type. *)
  Definition seg_acks (p : parsed) : outcome (list ack) :=
    match p with PSegAcks l => Ok l | _ => Panic end.
  (** message/decryption.go:12-44 NewDecryptedMessage *)
  Definition new_decrypted (h : msg_header) (raw : bytes) : outcome bank_message :=
    do (segs, parsed) <- unmarshal_all raw;
    let acks1 := match segments_by_id (B "HIRMG") parsed with
                 | PMsgAcks l :: _ => map (set_ref_msg (referencing_message h)) l
                 | _ => []
                 end in
    do acks2 <- all_ok seg_acks (segments_by_id (B "HIRMS") parsed);
    match mh_hbci h with
    | None => Panic
    | Some v => if (v =? 220) || (v =? 300)
                then Ok (mkBM h (acks1 ++ List.concat acks2) parsed segs)
                else Err
    end.
  (** transport/transport.go:46-64 ReadResponse, 88-90 IsEncrypted, dialog/dialog.go:603-678:
      from the bytes of the response body to the message; the PIN/TAN provider
      decrypts to the data itself (message/crypto.go:50-52, domain/key.go:135-140). *)
  Definition read_response (raw : bytes) : outcome bank_message :=
    let '(x, r) := se_extract (new_segment_extractor raw) in
    do _ <- r;
    match find_segment x (B "HNHBK") with
    | None => Err
    | Some hs =>
        do h <- unmarshal_msg_header hs;
        match find_segment x (B "HNVSK") with
        | Some _ =>
            match find_segment x (B "HNVSD") with
            | None => Err
            | Some ds => do d <- unmarshal_data_seg ds;
                         match d with
                         | None => Panic
                         | Some data => new_decrypted h data
                         end
            end
        | None => new_decrypted h raw
        end
    end.
  (** message/decryption.go:117-130 SupportedSegments; the segments were taken apart
      before, so that elements[0] exists. *)
  Definition supported_segments (m : bank_message) : list (bytes * Z) :=
    flat_map (fun s => match extract_header s with
                       | Ok h => if (Z.of_nat (List.length (sh_id h)) <=? 5) then [] else [(sh_id h, sh_version h)]
                       | _ => []
                       end) (bm_raw m).
End Reading.
Arguments parsed : clear implicits.
Arguments bank_message : clear implicits.
