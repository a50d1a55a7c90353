(** * The messages of a bank, byte by byte

    A bank's message as the HBCI specification describes it, written with the encoder
    of Seg_Spec and without the definitions of the reading model, and what the client
    should find in it. *)
From Verif Require Import Base Lexer_Spec Codec_Model Codec_Spec Wire_Spec Message_Model Message_Spec Dialog_Model Seg_Model Seg_Spec.
Open Scope Z_scope.

(** ** Return codes *)
(** Four digits, the data element in question, a text and parameters. *)
Record notice := mkNotice { nt_code : Z; nt_element : bytes; nt_text : bytes; nt_params : list bytes }.
Definition notice_items (n : notice) : list item :=
  [TDigits 4 (nt_code n); TText (nt_element n); TText (nt_text n)] ++ map TText (nt_params n).
Definition notice_ok (n : notice) : Prop :=
  0 <= nt_code n <= 9999 /\ group_ok (notice_items n) /\ last (nt_text n :: nt_params n) [] <> [].
(** What is delivered: release characters stay in the texts (C23). *)
Definition notice_value (for_message : bool) (message : bytes * Z) (segment : Z) (n : notice) : ack :=
  mkAck (nt_code n) (utf8 (escaped (nt_element n))) (utf8 (escaped (nt_text n)))
    (map (fun p => utf8 (escaped p)) (nt_params n)) for_message message segment.

(** ** Segments the client keeps as they are *)
Definition reply_items (r : bytes * Z) : list item := [TText (fst r); TNumber (snd r)].
(** An entry of the status protocol (HIPRO): the message and the segment it is about, when
    it was noted, and a return code. *)
Record status_info := mkStatus {
  st_message : option (bytes * Z); st_segment : option Z; st_day : date; st_time : tod; st_notice : notice }.
(** Facts about an account (HIKIF): interest rates, credit line, statements. *)
Record account_facts := mkFacts {
  af_account : national; af_type : option Z; af_texts : bytes * bytes * bytes * bytes; af_opened : option date;
  af_rates : option (N * bytes) * option (N * bytes) * option (N * bytes); af_line : option bank_amount;
  af_reference : option national; af_dispatch : option Z; af_cycle : option Z; af_note : bytes }.
(** The bank's signature (HNSHK). *)
Record signature_info := mkSig {
  sg_method : bytes; sg_method_version : Z; sg_texts : bytes * bytes * bytes * bytes; sg_party : bytes;
  sg_system : bytes; sg_number : Z; sg_day : date; sg_time : tod; sg_hash : bytes * bytes * bytes;
  sg_algorithm : bytes * bytes * bytes; sg_bank : Z * bytes; sg_user : bytes; sg_key : bytes; sg_key_number : Z;
  sg_key_version : Z }.
(** HIPRO, HITAN, HIKIM, HIKIF, DIPINS, HNSHK, HNSHA, and what the bank offers: HIKOM,
    HISHV, HIKPV.  [persons], [certificate], [pin], [ways], [methods] are optional. *)
Inductive kept :=
| KStatus (version : Z) (s : status_info)
| KTan (process : bytes) (hash : option bytes) (reference : bytes) (further : list (list item))
| KNews (subject body : bytes)
| KFacts (a : account_facts) (persons : list (list item))
| KPairs (jobs signatures : Z) (l : list (bytes * bool))
| KSigHead (version : Z) (s : signature_info) (certificate : list item)
| KSigEnd (version : Z) (control : bytes) (signature : option bytes) (pin : option (bytes * bytes))
| KWays (bank : Z * bytes) (language : Z) (ways : list (list item))
| KMethods (mixed : bool) (methods : list (bytes * list Z))
| KPacking (methods : list (list item)).
Definition kept_id (k : kept) : bytes :=
  match k with
  | KStatus _ _ => B "HIPRO" | KTan _ _ _ _ => B "HITAN" | KNews _ _ => B "HIKIM" | KFacts _ _ => B "HIKIF"
  | KPairs _ _ _ => B "DIPINS" | KSigHead _ _ _ => B "HNSHK" | KSigEnd _ _ _ _ => B "HNSHA" | KWays _ _ _ => B "HIKOM"
  | KMethods _ _ => B "HISHV" | KPacking _ => B "HIKPV"
  end.
Definition kept_version (k : kept) : Z :=
  match k with
  | KStatus v _ | KSigHead v _ _ | KSigEnd v _ _ _ => v
  | KTan _ _ _ _ => 6
  | KNews _ _ | KMethods _ _ => 2
  | KWays _ _ _ => 3
  | KFacts _ _ | KPairs _ _ _ | KPacking _ => 1
  end.
Definition text_group (l : bytes) : list item := [TText l].
Definition date_group (d : date) : list item := [TDate d].
Definition money_group (x : N * bytes) : list item := [TMoney (fst x) (snd x)].
Definition bank_items (x : Z * bytes) : list item := [TDigits 3 (fst x); TText (snd x)].
Definition method_items (m : bytes * list Z) : list item := TText (fst m) :: map TNumber (snd m).
Definition three_items (x : bytes * bytes * bytes) : list item :=
  let '(a, b, c) := x in [TText a; TText b; TText c].
Definition pin_items (x : bytes * bytes) : list item := [TText (fst x); TText (snd x)].
Definition binary_group (d : bytes) : list item := [TBinary d].
Definition kept_fields (k : kept) : list (list item) :=
  match k with
  | KStatus _ s => [opt_group reply_items (st_message s); opt_group number_group (st_segment s); [TDate (st_day s)];
                    [TTime (st_time s)]; notice_items (st_notice s)]
  | KTan process hash reference further => [[TText process]; opt_group binary_group hash; [TText reference]] ++ further
  | KNews subject body => [[TText subject]; [TText body]]
  | KFacts a persons =>
      let '(t1, t2, t3, t4) := af_texts a in let '(r1, r2, r3) := af_rates a in
      [national_group (af_account a); opt_group number_group (af_type a); [TText t1]; [TText t2]; [TText t3]; [TText t4];
       opt_group date_group (af_opened a); opt_group money_group r1; opt_group money_group r2; opt_group money_group r3;
       opt_group amount_group (af_line a); opt_group national_group (af_reference a);
       opt_group number_group (af_dispatch a); opt_group number_group (af_cycle a); [TText (af_note a)]] ++ persons
  | KPairs jobs signatures l => [[TNumber jobs]; [TNumber signatures]; flat_map pair_items l]
  | KSigHead v s certificate =>
      let '(t1, t2, t3, t4) := sg_texts s in
      (if v =? 3 then [] else [[TText (sg_method s); TNumber (sg_method_version s)]]) ++
      [[TText t1]; [TText t2]; [TText t3]; [TText t4]; [TText (sg_party s); TText []; TText (sg_system s)];
       [TNumber (sg_number s)]; [TText (B "1"); TDate (sg_day s); TTime (sg_time s)]; three_items (sg_hash s);
       three_items (sg_algorithm s);
       bank_items (sg_bank s) ++
         [TText (sg_user s); TText (sg_key s); TNumber (sg_key_number s); TNumber (sg_key_version s)];
       certificate]
  | KSigEnd _ control signature pin => [[TText control]; opt_group binary_group signature; opt_group pin_items pin]
  | KWays bank language ways => [bank_items bank; [TNumber language]] ++ ways
  | KMethods mixed methods => [TFlag mixed] :: map method_items methods
  | KPacking methods => methods
  end.
(** Something is written for the group. *)
Definition shown (g : list item) : Prop := exists i, In i g /\ match i with TText l => l <> [] | _ => True end.
Definition three_ok (x : bytes * bytes * bytes) : Prop := group_ok (three_items x) /\ snd x <> [].
Definition bank_items_ok (x : Z * bytes) : Prop := group_ok (bank_items x) /\ snd x <> [] /\ no_syntax (snd x).
Definition kept_ok (k : kept) : Prop :=
  Forall (Forall item_ok) (kept_fields k) /\
  match k with
  | KStatus v s => 3 <= v <= 4 /\ opt_ok (fun r => group_ok (reply_items r)) (st_message s) /\
                   notice_ok (st_notice s)
  | KTan _ _ _ _ | KNews _ _ => True
  | KFacts a persons =>
      national_ok (af_account a) /\ opt_ok amount_ok (af_line a) /\ opt_ok national_ok (af_reference a) /\ Forall shown persons
  | KPairs _ _ l => group_ok (flat_map pair_items l) /\ l <> [] /\ Forall (fun x => no_syntax (fst x)) l
  | KSigHead v s certificate =>
      3 <= v <= 4 /\ Forall groupable [TText (sg_method s); TText (sg_party s); TText (sg_system s)] /\
      sg_system s <> [] /\ three_ok (sg_hash s) /\ three_ok (sg_algorithm s) /\ bank_items_ok (sg_bank s) /\
      groupable (TText (sg_user s)) /\ groupable (TText (sg_key s)) /\ (certificate = [] \/ shown certificate)
  | KSigEnd v _ _ pin => 1 <= v <= 2 /\ opt_ok (fun x => group_ok (pin_items x) /\ snd x <> []) pin
  | KWays bank _ ways => bank_items_ok bank /\ Forall shown ways
  | KMethods _ methods => Forall (fun m => forallb alnum (fst m) = true /\ fst m <> []) methods
  | KPacking methods => Forall shown methods
  end.
(** What the library has no working reader for: communication parameters, versions of
    security methods, compression methods, persons entitled to an account, certificates and
    the signature of HNSHA in version 2. *)
Definition is_nil {A} (l : list A) : bool := match l with [] => true | _ => false end.
Definition crashes (k : kept) : bool :=
  match k with
  | KFacts _ persons => negb (is_nil persons)
  | KSigHead _ _ certificate => negb (is_nil certificate)
  | KSigEnd v _ _ pin => (v =? 2) && (match pin with Some _ => true | None => false end)
  | KWays _ _ ways => negb (is_nil ways)
  | KMethods _ methods => existsb (fun m => negb (is_nil (snd m))) methods
  | KPacking methods => negb (is_nil methods)
  | _ => false
  end.

(** ** What a bank tells *)
Inductive info :=
| IMessage (l : list notice)
| ISegment (l : list notice)
| ISync (version : Z) (system : bytes) (message signature : option Z)
| IBank (version : Z) (b : bank_info)
| IUser (version : Z) (u : user_info)
| IAccount (version : Z) (a : account_data)
| IPins (jobs signatures class : Z) (p : pin_info)
| ITans (jobs signatures : Z) (class : bytes) (one more : bool) (hash : bytes) (l : list tan_info)
| IBalances (version : Z) (b : balances)
| IBooked (version : Z) (booked : bytes) (pending : option bytes)
| IKept (k : kept)
| IOther (id : bytes) (version : Z) (fields : list (list item)).
(** A segment: its position, the segment of the client it answers to. *)
Record piece := mkPiece { pc_pos : Z; pc_ref : option Z; pc_info : info }.
Definition piece_wire (p : piece) : bytes :=
  let pos := pc_pos p in let ref := pc_ref p in
  match pc_info p with
  | IMessage l => segment_wire (B "HIRMG") pos 2 ref (map notice_items l)
  | ISegment l => segment_wire (B "HIRMS") pos 2 ref (map notice_items l)
  | ISync v system message signature => sync_segment pos v ref system message signature
  | IBank v b => bank_segment pos v ref b
  | IUser v u => user_segment pos v ref u
  | IAccount v a => account_segment pos v ref a
  | IPins jobs signatures class x => pin_segment pos ref jobs signatures class x
  | ITans jobs signatures class one more hash l => tan_segment pos ref jobs signatures class one more hash l
  | IBalances v b => balances_segment pos v ref b
  | IBooked v booked pending => transactions_segment pos v ref booked pending
  | IKept k => segment_wire (kept_id k) pos (kept_version k) ref (kept_fields k)
  | IOther id v fields => segment_wire id pos v ref fields
  end.
Definition info_id (i : info) : bytes :=
  match i with
  | IMessage _ => B "HIRMG" | ISegment _ => B "HIRMS" | ISync _ _ _ _ => B "HISYN" | IBank _ _ => B "HIBPA"
  | IUser _ _ => B "HIUPA" | IAccount _ _ => B "HIUPD" | IPins _ _ _ _ => B "HIPINS" | ITans _ _ _ _ _ _ _ => B "HITANS"
  | IBalances _ _ => B "HISAL" | IBooked _ _ _ => B "HIKAZ" | IKept k => kept_id k
  | IOther id _ _ => id
  end.
Definition info_version (i : info) : Z :=
  match i with
  | IMessage _ | ISegment _ => 2
  | ISync v _ _ _ | IBank v _ | IUser v _ | IAccount v _ | IBalances v _ | IBooked v _ _ | IOther _ v _ => v
  | IPins _ _ _ _ => 1
  | ITans _ _ _ _ _ _ _ => 6
  | IKept k => kept_version k
  end.
(** The segments and versions the library has a reader for. *)
Definition readable : list (bytes * list Z) :=
  [(B "HIRMG", [2]); (B "HIRMS", [2]); (B "HISYN", [3; 4]); (B "HITANS", [6]); (B "HIBPA", [2; 3]); (B "HIPINS", [1]);
   (B "HIUPA", [2; 3; 4]); (B "HIUPD", [4; 5; 6; 7]); (B "HISAL", [5; 6; 7; 8]); (B "HIKAZ", [5; 6; 7]);
   (B "HIPRO", [3; 4]); (B "HITAN", [6]); (B "HIKIM", [2]); (B "HIKIF", [1]); (B "HIKOM", [3]); (B "HISHV", [2]);
   (B "HIKPV", [1]); (B "DIPINS", [1]); (B "HNSHK", [3; 4]); (B "HNSHA", [1; 2]); (B "HNVSK", [2; 3]); (B "HNVSD", [1]);
   (B "HNHBK", [3]); (B "HNHBS", [1])].
Definition info_ok (i : info) : Prop :=
  match i with
  | IMessage l | ISegment l => Forall notice_ok l
  | ISync v system message signature =>
      3 <= v <= 4 /\ item_ok (TText system) /\ system <> [] /\ opt_ok number_ok message /\ opt_ok number_ok signature
  | IBank v b => 2 <= v <= 3 /\ bank_ok b
  | IUser v u => 2 <= v <= 4 /\ user_ok u
  | IAccount v a => 4 <= v <= 7 /\ account_ok a /\ (v = 4 -> ad_currency a <> [])
  | IPins jobs signatures class p => number_ok jobs /\ number_ok signatures /\ number_ok class /\ pin_ok p
  | ITans jobs signatures class one more hash l =>
      number_ok jobs /\ number_ok signatures /\ item_ok (TText class) /\ tan_ok hash one more l
  | IBalances v b => 5 <= v <= 8 /\ balances_ok v b
  | IBooked v booked pending =>
      5 <= v <= 7 /\ item_ok (TBinary booked) /\ opt_ok (fun d => item_ok (TBinary d)) pending
  | IKept k => kept_ok k /\ crashes k = false
  (** Anything the library has no reader for, such as the parameters of other jobs. *)
  | IOther id v fields =>
      forallb alnum id = true /\ 0 <= v <= 99 /\ Forall (Forall item_ok) fields /\
      (forall vs, In (id, vs) readable -> ~ In v vs) /\ ~ starts_with (B "HNVSK") id
  end.
Definition piece_ok (p : piece) : Prop := header_ok (pc_pos p) (pc_ref p) /\ info_ok (pc_info p).

(** ** Messages *)
(** Header, segments, end; the segments may be in an envelope (HNVSK, with any fields,
    and HNVSD).  [lt_reply]: dialog and number of the message this is the reply to. *)
Record letter := mkLetter {
  lt_size : Z; lt_version : Z; lt_dialog : bytes; lt_number : Z; lt_reply : option (bytes * Z);
  lt_envelope : option (Z * list (list item)); lt_pieces : list piece; lt_last : Z }.
Definition letter_header (l : letter) : bytes :=
  segment_wire (B "HNHBK") 1 3 None
    [[TDigits 12 (lt_size l)]; [TNumber (lt_version l)]; [TText (lt_dialog l)]; [TNumber (lt_number l)];
     opt_group reply_items (lt_reply l)].
Definition letter_end (l : letter) : bytes := segment_wire (B "HNHBS") (lt_last l) 1 None [[TNumber (lt_number l)]].
Definition letter_content (l : letter) : bytes := List.concat (map piece_wire (lt_pieces l)).
Definition letter_wire (l : letter) : bytes :=
  letter_header l ++
  match lt_envelope l with
  | Some (v, fields) =>
      segment_wire (B "HNVSK") 998 v None fields ++ segment_wire (B "HNVSD") 999 1 None [[TBinary (letter_content l)]]
  | None => letter_content l
  end ++
  letter_end l.
Definition letter_form (segment_ok : piece -> Prop) (l : letter) : Prop :=
  (lt_version l = 220 \/ lt_version l = 300) /\ number_ok (lt_size l) /\ number_ok (lt_number l) /\
  item_ok (TText (lt_dialog l)) /\ lt_dialog l <> [] /\ opt_ok (fun r => group_ok (reply_items r)) (lt_reply l) /\
  opt_ok (fun e => 0 <= fst e <= 99 /\ Forall (Forall item_ok) (snd e)) (lt_envelope l) /\
  Forall segment_ok (lt_pieces l) /\ header_ok (lt_last l) None /\ Z.of_nat (List.length (letter_wire l)) < 2 ^ 48.
Definition letter_ok : letter -> Prop := letter_form piece_ok.

(** ** What a message says *)
(** The message it replies to; the dialog ID keeps its release characters. *)
Definition reply_value (l : letter) : bytes * Z :=
  match lt_reply l with Some r => (utf8 (escaped (fst r)), snd r) | None => ([], 0) end.
(** Its return codes: those about the message, of the first segment with such, and then
    those about single segments. *)
Fixpoint message_notices (message : bytes * Z) (ps : list piece) : list ack :=
  match ps with
  | [] => []
  | p :: r => match pc_info p with
              | IMessage l => map (notice_value true message (match pc_ref p with Some n => n | None => 0 end)) l
              | _ => message_notices message r
              end
  end.
Definition segment_notices (ps : list piece) : list ack :=
  flat_map (fun p => match pc_info p with
                     | ISegment l => map (notice_value false ([], 0) (match pc_ref p with Some n => n | None => -1 end)) l
                     | _ => []
                     end) ps.
Definition letter_acks (l : letter) : list ack :=
  message_notices (reply_value l) (lt_pieces l) ++ segment_notices (lt_pieces l).
(** The parts the dialog looks into, and those it leaves to the caller as they are.  An
    announcement without subject or body cannot be logged. *)
Definition kept_value {Acc} (wire : bytes) (k : kept) : oseg Acc :=
  match k with
  | KNews subject body =>
      ONews (if is_nil subject || is_nil body then Panic else Ok (utf8 subject, utf8 body))
  | _ => OSeg wire
  end.
Definition piece_value {F} (p : piece) : option (oseg (account_information F)) :=
  match pc_info p with
  | ISync _ system _ _ => Some (OSync (Ok (utf8 system)))
  | IBank _ b => Some (OBpd (Ok (bi_version b)))
  | IUser _ u => Some (OUpd (Ok (mkUpd (utf8 (ui_user u)) (ui_version u))))
  | IAccount v a => Some (OAccount (Ok (account_value (if v <=? 5 then ad_jobs a else firstn 1 (ad_jobs a)) a)))
  | IPins _ _ _ _ => Some (OPins (Ok tt))
  | ITans _ _ _ _ _ _ l => Some (OTans (Ok (map (fun t => escaped (ti_function t)) l)))
  | IBalances _ _ | IBooked _ _ _ => Some (OSeg (piece_wire p))
  | IKept k => Some (kept_value (piece_wire p) k)
  | IMessage _ | ISegment _ | IOther _ _ _ => None
  end.
Definition letter_segs {F} (l : letter) (id : bytes) : list (oseg (account_information F)) :=
  flat_map (fun p => if list_eq_dec byte_eq_dec (info_id (pc_info p)) id
                     then match piece_value p with Some o => [o] | None => [] end else [])
    (lt_pieces l).
(** The segments with an ID of more than five characters, which announce jobs. *)
Definition letter_offers (l : letter) : list (bytes * Z) :=
  flat_map (fun p => if (5 <? List.length (info_id (pc_info p)))%nat
                     then [(info_id (pc_info p), info_version (pc_info p))] else [])
    (lt_pieces l).
Definition letter_raw (l : letter) : list bytes :=
  match lt_envelope l with
  | Some _ => map piece_wire (lt_pieces l)
  | None => letter_header l :: map piece_wire (lt_pieces l) ++ [letter_end l]
  end.

(** The balances and the booked transactions it reports. *)
Definition letter_balances (l : letter) : list (Z * balances) :=
  flat_map (fun p => match pc_info p with IBalances v b => [(v, b)] | _ => [] end) (lt_pieces l).
Definition letter_booked (l : letter) : list bytes :=
  flat_map (fun p => match pc_info p with IBooked _ booked _ => [booked] | _ => [] end) (lt_pieces l).
Section Values.
  Context {F : Type} (value : N -> bytes -> F) (neg : F -> F).
  (** The booking date is 366 days early if a booking time is reported (C51). *)
  Definition booking_value (b : balances) : option Z :=
    match bs_time b with None => booked_at b | Some _ => option_map (fun z => z - 366 * one_day) (booked_at b) end.
  Definition balance_value (vb : Z * balances) :=
    balances_value value neg
      match bs_account (snd vb) with BNational a => national_value a | BInternational a => national_form a end
      (booking_value (snd vb)) None (snd vb).
  Definition sepa_value (a : international) (vb : Z * balances) :=
    balances_value value neg (international_value a) (booking_value (snd vb))
      (if fst vb =? 8 then option_map (amount_value value) (bs_seizable (snd vb)) else None) (snd vb).
End Values.

(** ** Status protocol *)
Definition kept_segment (pos : Z) (ref : option Z) (k : kept) : bytes :=
  segment_wire (kept_id k) pos (kept_version k) ref (kept_fields k).
(** What is told about the entry: its return code as one for a message or, with the message
    and the segment, for a segment.  Nothing can be told about an entry for a message that
    names no segment. *)
Definition status_about (s : status_info) : option ack :=
  match st_message s, st_segment s with
  | None, _ => Some (notice_value true ([], 0) 0 (st_notice s))
  | Some r, Some n => Some (notice_value false (utf8 (escaped (fst r)), snd r) n (st_notice s))
  | Some _, None => None
  end.
Definition letter_statuses (l : letter) : list status_info :=
  flat_map (fun p => match pc_info p with IKept (KStatus _ s) => [s] | _ => [] end) (lt_pieces l).
(** A Go duration. *)
Definition within_int64 (z : Z) : Z := Z.max (- 2 ^ 63) (Z.min z (2 ^ 63 - 1)).
