(** * What a bank sends and what the caller should get

    An encoder for the segments of a bank as the HBCI specification describes them,
    written without the definitions of the model, and the values a caller should
    receive for them. *)
From Verif Require Import Base Lexer_Spec Codec_Model Codec_Spec Wire_Spec Seg_Model.
Open Scope Z_scope.

(** ** Values on the wire *)

(** Basic values; texts are sequences of Latin-1 characters. *)
Inductive item :=
| TText (l : bytes)
| TNumber (n : Z)
| TDigits (width : nat) (n : Z)
| TMoney (units : N) (decimals : bytes)
| TBinary (data : bytes)
| TFlag (yes : bool)
| TDate (d : date)
| TTime (t : tod).
(** A release character '?' before each of ? @ ' : + . *)
Definition escaped (l : bytes) : bytes :=
  flat_map (fun c => if mem_byte c (B "?@':+") then ["?"%byte; c] else [c]) l.
Definition item_wire (i : item) : bytes :=
  match i with
  | TText l => escaped l
  | TNumber n => itoa n
  | TDigits w n => itoa_pad w n
  | TMoney u f => itoa_N u ++ ","%byte :: f
  | TBinary d => "@"%byte :: itoa_N (N.of_nat (List.length d)) ++ "@"%byte :: d
  | TFlag b => if b then B "J" else B "N"
  | TDate d => yyyymmdd d
  | TTime t => hhmmss t
  end.
(** A data element is a list of values separated by ':', a segment a list of data elements
    separated by '+'; what is absent at the end is left out. *)
Definition group_wire (g : list item) : bytes := join [":"%byte] (strip (map item_wire g)).
Definition header_bytes (id : bytes) (pos version : Z) (ref : option Z) : bytes :=
  join [":"%byte] ([id; itoa pos; itoa version] ++ match ref with Some r => [itoa r] | None => [] end).
Definition segment_wire (id : bytes) (pos version : Z) (ref : option Z) (gs : list (list item)) : bytes :=
  join ["+"%byte] (strip (header_bytes id pos version ref :: map group_wire gs)) ++ ["'"%byte].

(** Proper values: no NUL in texts (it ends the input, see C03) and no text that is taken for a
    malformed number; amounts of at most 15 digits before the comma. *)
Definition item_ok (i : item) : Prop :=
  match i with
  | TText l => ~ In b_nul l /\ malformed_float l = false
  | TNumber n => 0 <= n < 2 ^ 63
  | TDigits w n => 0 <= n < 2 ^ 63
  | TMoney u f => (u < 10 ^ 15)%N /\ forallb is_digit f = true
  | TBinary d => Z.of_nat (List.length d) <= 2 ^ 48
  | TFlag _ => True
  | TDate d => real_date d
  | TTime t => real_time t
  end.
(** Inside a group of several values go-hbci cannot read a value with '+' or an apostrophe, see
    C13. *)
Definition groupable (i : item) : Prop :=
  match i with
  | TText l => ~ In "+"%byte l /\ ~ In "'"%byte l
  | TBinary d => ~ In "+"%byte d /\ ~ In "'"%byte d
  | _ => True
  end.
(** A text without any syntax character. *)
Definition no_syntax (l : bytes) : Prop := forall c, In c (B "?@':+") -> ~ In c l.

(** The string for Latin-1 characters. *)
Definition utf8 (l : bytes) : bytes := string_of (map zb l).

(** ** Time *)
Definition next_day (d : date) : date :=
  if d_day d <? month_length (d_year d) (d_month d) then mkDate (d_year d) (d_month d) (d_day d + 1)
  else if d_month d <? 12 then mkDate (d_year d) (d_month d + 1) 1
  else mkDate (d_year d + 1) 1 1.
Definition one_second : Z := 1000000000.
Definition one_day : Z := 24 * 60 * 60 * one_second.
(** Instants are nanoseconds since 0000-01-01; [date_instant] is pinned down by
    C51_calendar. *)
Definition date_instant : date -> Z := instant_of_date.
Definition time_of_day (t : tod) : Z := (60 * (60 * t_hour t + t_min t) + t_sec t) * one_second.

(** ** Accounts, amounts and balances *)
Record national := mkNat { na_account : bytes; na_sub : bytes; na_country : Z; na_bank : bytes }.
Definition national_group (a : national) : list item :=
  [TText (na_account a); TText (na_sub a); TDigits 3 (na_country a); TText (na_bank a)].
(** These parts are delivered as they are on the wire, so that they must not contain anything
    that is escaped. *)
Definition national_ok (a : national) : Prop :=
  Forall item_ok (national_group a) /\ na_bank a <> [] /\
  no_syntax (na_account a) /\ no_syntax (na_sub a) /\ no_syntax (na_bank a).
Definition national_value (a : national) : account_connection :=
  mkAC (utf8 (na_account a)) (utf8 (na_sub a)) (na_country a) (utf8 (na_bank a)).

Record international := mkInt {
  in_iban : bytes; in_bic : bytes; in_account : bytes; in_sub : bytes; in_bank : option (Z * bytes) }.
Definition international_group (a : international) : list item :=
  [TText (in_iban a); TText (in_bic a); TText (in_account a); TText (in_sub a)] ++
  match in_bank a with Some (c, b) => [TDigits 3 c; TText b] | None => [] end.
Definition international_ok (a : international) : Prop :=
  Forall item_ok (international_group a) /\ Forall groupable (international_group a) /\
  (in_iban a <> [] \/ in_bic a <> [] \/ in_account a <> [] \/ in_sub a <> [] \/ in_bank a <> None) /\
  match in_bank a with Some (_, b) => b <> [] /\ no_syntax b | None => True end.
Definition international_value (a : international) : intl_connection :=
  mkIC (utf8 (in_iban a)) (utf8 (in_bic a)) (utf8 (in_account a)) (utf8 (in_sub a))
       match in_bank a with Some (c, b) => mkBank c (utf8 b) | None => mkBank 0 [] end.

(** The national form of an international account. *)
Definition national_form (a : international) : account_connection :=
  mkAC (utf8 (in_account a)) (utf8 (in_sub a)) (match in_bank a with Some (c, _) => c | None => 0 end)
       (match in_bank a with Some (_, b) => utf8 b | None => [] end).

Record bank_amount := mkBankAmount { bm_units : N; bm_decimals : bytes; bm_currency : bytes }.
Definition amount_group (a : bank_amount) : list item :=
  [TMoney (bm_units a) (bm_decimals a); TText (bm_currency a)].
Definition group_ok (g : list item) : Prop := Forall item_ok g /\ Forall groupable g.
Definition amount_ok (a : bank_amount) : Prop := group_ok (amount_group a) /\ bm_currency a <> [].
Record bank_balance := mkBankBalance {
  bb_debit : bool; bb_amount : bank_amount; bb_day : date; bb_time : option tod }.
Definition balance_group (b : bank_balance) : list item :=
  [TText (if bb_debit b then B "D" else B "C"); TMoney (bm_units (bb_amount b)) (bm_decimals (bb_amount b));
   TText (bm_currency (bb_amount b)); TDate (bb_day b)] ++
  match bb_time b with Some t => [TTime t] | None => [] end.
Definition balance_ok (b : bank_balance) : Prop := group_ok (balance_group b).

Definition opt_group {A} (g : A -> list item) (o : option A) : list item :=
  match o with Some a => g a | None => [] end.
Definition opt_ok {A} (P : A -> Prop) (o : option A) : Prop := match o with Some a => P a | None => True end.

(** Account balances as a bank reports them (HISAL). *)
Inductive bank_account := BNational (a : national) | BInternational (a : international).
Record balances := mkBalances {
  bs_account : bank_account; bs_product : bytes; bs_currency : bytes; bs_booked : bank_balance;
  bs_earmarked : option bank_balance; bs_credit : option bank_amount; bs_available : option bank_amount;
  bs_used : option bank_amount; bs_date : option date; bs_time : option tod; bs_due : option date;
  bs_seizable : option bank_amount }.
Definition balances_segment (pos version : Z) (ref : option Z) (b : balances) : bytes :=
  segment_wire (B "HISAL") pos version ref
    ([match bs_account b with BNational a => national_group a | BInternational a => international_group a end;
      [TText (bs_product b)]; [TText (bs_currency b)]; balance_group (bs_booked b);
      opt_group balance_group (bs_earmarked b); opt_group amount_group (bs_credit b);
      opt_group amount_group (bs_available b); opt_group amount_group (bs_used b);
      opt_group (fun d => [TDate d]) (bs_date b); opt_group (fun t => [TTime t]) (bs_time b);
      opt_group (fun d => [TDate d]) (bs_due b)] ++
     (if version =? 8 then [opt_group amount_group (bs_seizable b)] else [])).
(** What the specification demands of the segment: the mandatory elements, and a time only
    together with a date. *)
Definition balances_ok (version : Z) (b : balances) : Prop :=
  match bs_account b with
  | BNational a => (version = 5 \/ version = 6) /\ national_ok a
  | BInternational a => (version = 7 \/ version = 8) /\ international_ok a
  end /\
  item_ok (TText (bs_product b)) /\ bs_product b <> [] /\
  item_ok (TText (bs_currency b)) /\ bs_currency b <> [] /\
  balance_ok (bs_booked b) /\ opt_ok balance_ok (bs_earmarked b) /\ opt_ok amount_ok (bs_credit b) /\
  opt_ok amount_ok (bs_available b) /\ opt_ok amount_ok (bs_used b) /\ opt_ok real_date (bs_date b) /\
  opt_ok real_time (bs_time b) /\ opt_ok real_date (bs_due b) /\ opt_ok amount_ok (bs_seizable b) /\
  (bs_time b <> None -> bs_date b <> None).
Definition header_ok (pos : Z) (ref : option Z) : Prop :=
  0 <= pos <= 999 /\ match ref with Some r => 0 <= r <= 999 | None => True end.

Section Values.
  (** [value u f]: the float64 for the decimal number u.f *)
  Context {F : Type} (value : N -> bytes -> F) (neg : F -> F).
  Definition amount_value (a : bank_amount) : amount F :=
    mkAmount (value (bm_units a) (bm_decimals a)) (utf8 (bm_currency a)).
  Definition balance_value (b : bank_balance) : balance F :=
    let x := value (bm_units (bb_amount b)) (bm_decimals (bb_amount b)) in
    mkBalance (mkAmount (if bb_debit b then neg x else x) (utf8 (bm_currency (bb_amount b))))
              (date_instant (bb_day b)) (option_map time_of_day (bb_time b)).
  (** When the balance was booked. *)
  Definition booked_at (b : balances) : option Z :=
    match bs_date b, bs_time b with
    | Some d, Some t => Some (date_instant d + time_of_day t)
    | Some d, None => Some (date_instant d)
    | None, _ => None
    end.
  (** The result for these balances with this account, booking time and seizable amount. *)
  Definition balances_value {A} (account : A) (booking : option Z) (seizable : option (amount F)) (b : balances)
    : account_balance F A :=
    mkAB account (utf8 (bs_product b)) (utf8 (bs_currency b)) (balance_value (bs_booked b))
         (option_map balance_value (bs_earmarked b)) (option_map amount_value (bs_credit b))
         (option_map amount_value (bs_available b)) (option_map amount_value (bs_used b))
         booking (option_map date_instant (bs_due b)) seizable.
End Values.

(** ** Transactions (HIKAZ): booked and not yet booked ones, as opaque data *)
Definition transactions_segment (pos version : Z) (ref : option Z) (booked : bytes) (pending : option bytes) : bytes :=
  segment_wire (B "HIKAZ") pos version ref [[TBinary booked]; opt_group (fun d => [TBinary d]) pending].

(** ** Accounts of the user parameter data (HIUPD) *)

(** A permitted job: its name, the number of signatures it needs and the kind of limit. *)
Record job := mkJob { jb_id : bytes; jb_signatures : Z; jb_limit : option bytes }.
Definition job_group (j : job) : list item :=
  [TText (jb_id j); TNumber (jb_signatures j)] ++ match jb_limit j with Some k => [TText k] | None => [] end.
Definition job_ok (j : job) : Prop := group_ok (job_group j) /\ opt_ok (fun k => k <> []) (jb_limit j).
Record account_data := mkAD {
  ad_account : national; ad_iban : bytes; ad_user : bytes; ad_type : option Z; ad_currency : bytes;
  ad_name1 : bytes; ad_name2 : bytes; ad_product : bytes; ad_jobs : list job }.
(** Without an account limit: the field between product and jobs is empty. *)
Definition account_segment (pos version : Z) (ref : option Z) (a : account_data) : bytes :=
  let kind := opt_group (fun n => [TNumber n]) (ad_type a) in
  let names := [[TText (ad_currency a)]; [TText (ad_name1 a)]; [TText (ad_name2 a)]; [TText (ad_product a)]; []] in
  segment_wire (B "HIUPD") pos version ref
    ([national_group (ad_account a)] ++
     (if version =? 4 then [[TText (ad_user a)]]
      else if version =? 5 then [[TText (ad_user a)]; kind]
      else [[TText (ad_iban a)]; [TText (ad_user a)]; kind]) ++
     names ++ map job_group (ad_jobs a)).
Definition account_ok (a : account_data) : Prop :=
  national_ok (ad_account a) /\ item_ok (TText (ad_iban a)) /\
  item_ok (TText (ad_user a)) /\ ad_user a <> [] /\ opt_ok (fun n => 0 <= n < 2 ^ 63) (ad_type a) /\
  item_ok (TText (ad_currency a)) /\ item_ok (TText (ad_name1 a)) /\ ad_name1 a <> [] /\
  item_ok (TText (ad_name2 a)) /\ item_ok (TText (ad_product a)) /\ Forall job_ok (ad_jobs a).
Definition job_value {F} (j : job) : business_transaction F :=
  mkBT (utf8 (jb_id j)) (jb_signatures j) (option_map (fun k => mkLimit (utf8 k) None 0) (jb_limit j)).
Definition account_value {F} (jobs : list job) (a : account_data) : account_information F :=
  mkAI (national_value (ad_account a)) (utf8 (ad_user a)) (utf8 (ad_currency a)) (utf8 (ad_name1 a))
       (utf8 (ad_name2 a)) (utf8 (ad_product a)) (map job_value jobs).

(** ** Synchronisation, user and bank parameter data (HISYN, HIUPA, HIBPA) *)
Definition number_group (n : Z) : list item := [TNumber n].
Definition number_ok (n : Z) : Prop := 0 <= n < 2 ^ 63.
Definition sync_segment (pos version : Z) (ref : option Z) (system : bytes) (message signature : option Z) : bytes :=
  segment_wire (B "HISYN") pos version ref
    [[TText system]; opt_group number_group message; opt_group number_group signature].

Record user_info := mkUI {
  ui_user : bytes; ui_version : Z; ui_usage : Z; ui_name : bytes; ui_extensions : bytes }.
(** Name and extensions exist from version 3 on. *)
Definition user_segment (pos version : Z) (ref : option Z) (u : user_info) : bytes :=
  segment_wire (B "HIUPA") pos version ref
    ([[TText (ui_user u)]; [TNumber (ui_version u)]; [TNumber (ui_usage u)]] ++
     (if version =? 2 then [] else [[TText (ui_name u)]; [TText (ui_extensions u)]])).
Definition user_ok (u : user_info) : Prop :=
  item_ok (TText (ui_user u)) /\ ui_user u <> [] /\ number_ok (ui_version u) /\ number_ok (ui_usage u) /\
  item_ok (TText (ui_name u)) /\ item_ok (TText (ui_extensions u)).

Record bank_info := mkBI {
  bi_version : Z; bi_country : Z; bi_code : bytes; bi_name : bytes; bi_jobs : Z; bi_languages : list Z;
  bi_protocols : list Z; bi_size : option Z; bi_min : option Z; bi_max : option Z }.
(** The timeouts exist from version 3 on. *)
Definition bank_segment (pos version : Z) (ref : option Z) (b : bank_info) : bytes :=
  segment_wire (B "HIBPA") pos version ref
    ([[TNumber (bi_version b)]; [TDigits 3 (bi_country b); TText (bi_code b)]; [TText (bi_name b)];
      [TNumber (bi_jobs b)]; map TNumber (bi_languages b); map TNumber (bi_protocols b);
      opt_group number_group (bi_size b)] ++
     (if version =? 2 then [] else [opt_group number_group (bi_min b); opt_group number_group (bi_max b)])).
(** One to nine languages (1 German, 2 English, 3 French) and protocol versions. *)
Definition bank_ok (b : bank_info) : Prop :=
  number_ok (bi_version b) /\ number_ok (bi_country b) /\ item_ok (TText (bi_code b)) /\ bi_code b <> [] /\
  no_syntax (bi_code b) /\ item_ok (TText (bi_name b)) /\ bi_name b <> [] /\ number_ok (bi_jobs b) /\
  Forall (fun l => 0 <= l <= 3) (bi_languages b) /\ (1 <= List.length (bi_languages b) <= 9)%nat /\
  Forall number_ok (bi_protocols b) /\ (1 <= List.length (bi_protocols b) <= 9)%nat /\
  opt_ok number_ok (bi_size b) /\ opt_ok number_ok (bi_min b) /\ opt_ok number_ok (bi_max b).

(** ** PIN and TAN parameters (HIPINS, DIPINS, HITANS) *)
Record pin_info := mkPI {
  pi_min : Z; pi_max : Z; pi_tan : Z; pi_user_text : bytes; pi_customer_text : bytes;
  pi_jobs : list (bytes * bool) }.
Definition pair_items (p : bytes * bool) : list item := [TText (fst p); TFlag (snd p)].
Definition pin_group (p : pin_info) : list item :=
  [TNumber (pi_min p); TNumber (pi_max p); TNumber (pi_tan p); TText (pi_user_text p); TText (pi_customer_text p)] ++
  flat_map pair_items (pi_jobs p).
Definition pin_ok (p : pin_info) : Prop :=
  group_ok (pin_group p) /\ pi_jobs p <> [] /\ Forall (fun x => no_syntax (fst x)) (pi_jobs p).
Definition pin_segment (pos : Z) (ref : option Z) (jobs signatures class : Z) (p : pin_info) : bytes :=
  segment_wire (B "HIPINS") pos 1 ref [[TNumber jobs]; [TNumber signatures]; [TNumber class]; pin_group p].
Definition pin2_segment (pos : Z) (ref : option Z) (jobs signatures : Z) (l : list (bytes * bool)) : bytes :=
  segment_wire (B "DIPINS") pos 1 ref [[TNumber jobs]; [TNumber signatures]; flat_map pair_items l].
Definition pairs_value (l : list (bytes * bool)) : list (bytes * bool) := map (fun p => (utf8 (fst p), snd p)) l.

Record tan_info := mkTI {
  ti_function : bytes; ti_process : bytes; ti_technical : bytes; ti_zka : bytes; ti_zka_version : bytes;
  ti_name : bytes; ti_max_input : Z; ti_format : bytes; ti_return_text : bytes; ti_return_max : Z;
  ti_multi : bool; ti_time_ref : bytes; ti_cancel : bool; ti_sms : bytes; ti_issuer : bytes;
  ti_class : bool; ti_structured : bool; ti_init : bytes; ti_medium : bytes; ti_hhd : bool; ti_media : Z }.
Definition tan_items (t : tan_info) : list item :=
  [TText (ti_function t); TText (ti_process t); TText (ti_technical t); TText (ti_zka t); TText (ti_zka_version t);
   TText (ti_name t); TNumber (ti_max_input t); TText (ti_format t); TText (ti_return_text t);
   TNumber (ti_return_max t); TFlag (ti_multi t); TText (ti_time_ref t); TFlag (ti_cancel t); TText (ti_sms t);
   TText (ti_issuer t); TFlag (ti_class t); TFlag (ti_structured t); TText (ti_init t); TText (ti_medium t);
   TFlag (ti_hhd t); TNumber (ti_media t)].
Definition tan_group (one more : bool) (hash : bytes) (l : list tan_info) : list item :=
  [TFlag one; TFlag more; TText hash] ++ flat_map tan_items l.
Definition tan_segment (pos : Z) (ref : option Z) (jobs signatures : Z) (class : bytes)
  (one more : bool) (hash : bytes) (l : list tan_info) : bytes :=
  segment_wire (B "HITANS") pos 6 ref [[TNumber jobs]; [TNumber signatures]; [TText class]; tan_group one more hash l].
(** The texts go through [s], everything else is delivered as it is. *)
Definition tan_value (s : bytes -> bytes) (t : tan_info) : tan_process :=
  mkTP (s (ti_function t)) (s (ti_process t)) (s (ti_technical t)) (s (ti_zka t)) (s (ti_zka_version t))
       (s (ti_name t)) (ti_max_input t) (s (ti_format t)) (s (ti_return_text t)) (ti_return_max t) (ti_multi t)
       (s (ti_time_ref t)) (ti_cancel t) (s (ti_sms t)) (s (ti_issuer t)) (ti_class t) (ti_structured t)
       (s (ti_init t)) (s (ti_medium t)) (ti_hhd t) (ti_media t).
(** At least one process; nothing that ends the group or the segment in a text. *)
Definition tan_ok (hash : bytes) (one more : bool) (l : list tan_info) : Prop :=
  group_ok (tan_group one more hash l) /\ l <> [] /\ no_syntax hash.

(** ** What a bank may send besides: an account limit, and limits that come with an amount *)
Definition limited_account_segment (pos version : Z) (ref : option Z) (a : account_data) (limit : list item)
  (jobs : list (list item)) : bytes :=
  let kind := opt_group (fun n => [TNumber n]) (ad_type a) in
  let names := [[TText (ad_currency a)]; [TText (ad_name1 a)]; [TText (ad_name2 a)]; [TText (ad_product a)]; limit] in
  segment_wire (B "HIUPD") pos version ref
    ([national_group (ad_account a)] ++
     (if version =? 4 then [[TText (ad_user a)]]
      else if version =? 5 then [[TText (ad_user a)]; kind]
      else [[TText (ad_iban a)]; [TText (ad_user a)]; kind]) ++
     names ++ jobs).
(** For instance Z:1000,:EUR for one month. *)
Definition limit_group (kind : bytes) (a : bank_amount) : list item :=
  [TText kind; TMoney (bm_units a) (bm_decimals a); TText (bm_currency a)].
Definition limited_job (id : bytes) (signatures : Z) (kind : bytes) (a : bank_amount) : list item :=
  [TText id; TNumber signatures] ++ limit_group kind a.
