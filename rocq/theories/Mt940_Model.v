(** * MT940 statements: swift/mt940.go, swift/mt940_unmarshaler.go, swift/unmarshal.go,
      swift/element.go, swift/tag_extractor.go

    Floating point numbers are left abstract: a type [F] with [strconv.ParseFloat(s, 64)]
    as [parse_float] ([None]: an error) and the unary minus as [neg].  [now] is
    [time.Now().Year()], which is read several times and taken to be the same during one
    call.  Error texts are not modelled. *)
From Verif Require Import Base Lexer_Model Codec_Model Wire_Model Swift_Model.
Open Scope Z_scope.

(** ** Go library functions *)

(** [strings.Index(s, sub)] and [bytes.Index] *)
Fixpoint find_sub (sub s : bytes) : option nat :=
  if has_prefix sub s then Some O
  else match s with
       | [] => None
       | _ :: r => option_map S (find_sub sub r)
       end.
(** [strings.HasSuffix] *)
Definition has_suffix (p s : bytes) : bool := has_prefix (rev p) (rev s).

(** [bytes.Buffer.ReadBytes(c)]: what comes before [c] (the results that include [c] are
    cut or extended by the callers) and the rest; [None]: io.EOF *)
Fixpoint read_bytes (c : byte) (s : bytes) : option (bytes * bytes) :=
  match s with
  | [] => None
  | b :: r =>
      if beq b c then Some ([], r)
      else match read_bytes c r with Some (x, y) => Some (b :: x, y) | None => None end
  end.

(** [utf8.DecodeRune] (used by [bytes.Buffer.ReadRune]): the number of the character, its
    width, and [string] of it.  Invalid bytes are U+FFFD of width 1. *)
Record rune := mkRune { r_code : Z; r_width : nat; r_string : bytes }.
Definition in_range (lo hi : Z) (b : byte) : bool := (lo <=? zb b) && (zb b <=? hi).
Definition is_cont : byte -> bool := in_range 128 191.
Definition rune_error : rune := mkRune 65533 1 ["239"%byte; "191"%byte; "189"%byte].
Definition decode_rune (s : bytes) : option rune :=
  match s with
  | [] => None
  | a :: t =>
      if zb a <? 128 then Some (mkRune (zb a) 1 [a])
      else
        match t with
        | b :: t2 =>
            if in_range 194 223 a && is_cont b
            then Some (mkRune ((zb a - 192) * 64 + (zb b - 128)) 2 [a; b])
            else
              match t2 with
              | c :: t3 =>
                  if ((in_range 224 224 a && in_range 160 191 b) || (in_range 225 236 a && is_cont b) ||
                      (in_range 237 237 a && in_range 128 159 b) || (in_range 238 239 a && is_cont b)) && is_cont c
                  then Some (mkRune ((zb a - 224) * 4096 + (zb b - 128) * 64 + (zb c - 128)) 3 [a; b; c])
                  else
                    match t3 with
                    | d :: _ =>
                        if ((in_range 240 240 a && in_range 144 191 b) || (in_range 241 243 a && is_cont b) ||
                            (in_range 244 244 a && in_range 128 143 b)) && is_cont c && is_cont d
                        then Some (mkRune ((zb a - 240) * 262144 + (zb b - 128) * 4096 + (zb c - 128) * 64 + (zb d - 128)) 4 [a; b; c; d])
                        else Some rune_error
                    | [] => Some rune_error
                    end
              | [] => Some rune_error
              end
        | [] => Some rune_error
        end
  end.

(** [time.Date(y, m, d, ...)] for a day that exists in some year's month [m]; here only
    29 and 30 February are out of range *)
Definition norm_date (y m d : Z) : date :=
  if d <=? days_in m y then mkDate y m d else mkDate y (m + 1) (d - days_in m y).

(** ** Tags *)

(** extractTagElements, swift/tag_extractor.go:30-51: the id with its colons and the
    value *)
Definition tag_elements (tag : bytes) : outcome (bytes * bytes) :=
  match tag with
  | [] => Err
  | b :: r =>
      if beq b b_colon then
        match read_bytes b_colon r with
        | None => Err
        | Some (id, value) => Ok (b :: id ++ [b_colon], value)
        end
      else Err
  end.

(** AlphaNumericTag.Unmarshal, swift/element.go:33-45; the value *)
Definition alnum_tag (tag : bytes) : outcome bytes :=
  do e <- tag_elements tag; Ok (snd e).

(** AccountTag.Unmarshal, swift/mt940.go:85-101 *)
Record account_tag := mkAccount { ac_bank : bytes; ac_account : bytes }.
Definition slash : byte := "/"%byte.
Definition read_account (tag : bytes) : outcome account_tag :=
  do e <- tag_elements tag;
  match split_on slash (snd e) with
  | [a; b] => Ok (mkAccount a b)
  | _ => Err
  end.

(** StatementNumberTag.Unmarshal, swift/mt940.go:111-142: number and sheet *)
Definition read_statement_number (tag : bytes) : outcome (Z * Z) :=
  do e <- tag_elements tag;
  match read_bytes slash (snd e) with
  | Some (n, s) => do sheet <- atoi s; do num <- atoi n; Ok (num, sheet)
  | None => do num <- atoi (snd e); Ok (num, 0)
  end.

(** parseDate, swift/mt940.go:311-331 *)
Definition mt_date (value : bytes) (year : Z) : outcome date :=
  let offset := if len value =? 6 then 2%nat else 4%nat in
  let ys := itoa year in
  if (List.length ys <? offset)%nat then Panic
  else
    let s := firstn offset ys ++ value in
    match parse_date s with
    | Ok d => Ok d
    | _ =>
        if has_suffix (B "0229") s then Ok (norm_date year 2 29)
        else if has_suffix (B "0230") s then Ok (norm_date year 2 30)
        else Err
    end.

(** ** :86: fields: CustomFieldTag, swift/element.go:108-120 *)
Record custom := mkCustom {
  cu_id : Z; cu_text : bytes; cu_primanota : bytes; cu_purpose : list bytes;
  cu_bank : bytes; cu_account : bytes; cu_name : bytes; cu_addition : Z; cu_purpose2 : list bytes }.

(** customFieldTagFieldKeys, swift/element.go:122-144 *)
Definition custom_keys : list bytes :=
  [B "?00"; B "?10"; B "?20"; B "?21"; B "?22"; B "?23"; B "?24"; B "?25"; B "?26"; B "?27"; B "?28"; B "?29";
   B "?30"; B "?31"; B "?32"; B "?33"; B "?34"; B "?60"; B "?61"; B "?62"; B "?63"].

(** [bytes.Replace(s, "\r\n", "", -1)] *)
Fixpoint remove_crlf (s : bytes) : bytes :=
  match s with
  | [] => []
  | a :: t =>
      match t with
      | b :: r => if beq a b_cr && beq b b_lf then remove_crlf r else a :: remove_crlf t
      | [] => [a]
      end
  end.

(** swift/element.go:163-168 *)
Definition key_positions (fields : bytes) : list (bytes * nat) :=
  flat_map (fun k => match find_sub k fields with Some i => [(k, i)] | None => [] end) custom_keys.

(** The switch of swift/element.go:187-209 *)
Definition set_field (key value : bytes) (c : custom) : outcome custom :=
  let '(mkCustom id text prim pur bank acc name add pur2) := c in
  if has_prefix (B "?00") key then Ok (mkCustom id value prim pur bank acc name add pur2)
  else if has_prefix (B "?10") key then Ok (mkCustom id text value pur bank acc name add pur2)
  else if has_prefix (B "?2") key then Ok (mkCustom id text prim (pur ++ [value]) bank acc name add pur2)
  else if has_prefix (B "?30") key then Ok (mkCustom id text prim pur value acc name add pur2)
  else if has_prefix (B "?31") key then Ok (mkCustom id text prim pur bank value name add pur2)
  else if has_prefix (B "?32") key then Ok (mkCustom id text prim pur bank acc value add pur2)
  else if has_prefix (B "?33") key then Ok (mkCustom id text prim pur bank acc (name ++ B " " ++ value) add pur2)
  else if has_prefix (B "?34") key then do n <- atoi value; Ok (mkCustom id text prim pur bank acc name n pur2)
  else if has_prefix (B "?6") key then Ok (mkCustom id text prim pur bank acc name add (pur2 ++ [value]))
  else Ok c.

(** The loop of swift/element.go:176-210.  The value of a key reaches to the key that
    follows it in the list of keys; a slice whose end is before its start panics. *)
Fixpoint custom_loop (fields : bytes) (ps : list (bytes * nat)) (c : custom) : outcome custom :=
  match ps with
  | [] => Ok c
  | (k, i) :: r =>
      let next := match r with [] => List.length fields | (_, j) :: _ => j end in
      if (next <? i + 3)%nat then Panic
      else
        do c' <- set_field k (to_utf8 (firstn (next - (i + 3)) (skipn (i + 3) fields))) c;
        custom_loop fields r c'
  end.

(** CustomFieldTag.Unmarshal, swift/element.go:147-212.  [tag.Value[:3]] of a value with
    less than three bytes: the tag extractor builds ":86:" by append, so the slice has
    room for at least eight bytes, the missing ones are read as NUL, and Atoi fails on
    them.  (A caller of CustomFieldTag.Unmarshal with a slice of exact capacity would
    see a panic instead.) *)
Definition read_custom (tag : bytes) : outcome custom :=
  do e <- tag_elements tag;
  let value := snd e in
  if len value <? 3 then Err
  else
    do id <- atoi (to_utf8 (firstn 3 value));
    let fields := remove_crlf (skipn 3 value) in
    custom_loop fields (key_positions fields) (mkCustom id [] [] [] [] [] [] 0 []).

Section Mt940.
  Context {F : Type}.
  Variable parse_float : bytes -> option F.
  Variable neg : F -> F.
  (** [unicode.IsDigit] of characters above U+00FF; below they are the ASCII digits. *)
  Variable other_digit : Z -> bool.
  Variable now : Z.

  Definition rune_digit (r : rune) : bool :=
    if r_code r <=? 255 then (48 <=? r_code r) && (r_code r <=? 57) else other_digit (r_code r).

  (** ParseFloat of [strings.Replace(s, ",", ".", 1)] *)
  Definition amount_of (s : bytes) : outcome F :=
    match parse_float (replace1 b_comma "."%byte s) with Some x => Ok x | None => Err end.

  (** ** Balances: BalanceTag, swift/mt940.go:145-191 *)
  Record balance_tag := mkBalance { ba_mark : bytes; ba_date : date; ba_currency : bytes; ba_amount : F }.
  Definition read_balance (tag : bytes) : outcome balance_tag :=
    do e <- tag_elements tag;
    let v := snd e in
    do d <- mt_date (firstn 6 (skipn 1 v)) now;
    do x <- amount_of (skipn 10 v);
    Ok (mkBalance (firstn 1 v) d (firstn 3 (skipn 7 v)) x).
  (** BalanceTag.Balance, swift/mt940.go:154-165: amount, currency, date *)
  Definition balance_of (b : balance_tag) : F * bytes * date :=
    (if bytes_eqb (ba_mark b) (B "D") then neg (ba_amount b) else ba_amount b, ba_currency b, ba_date b).

  (** ** Transactions: TransactionTag, swift/mt940.go:200-212; no booking date is the
      zero time *)
  Record transaction_tag := mkTransaction {
    tt_valuta : date; tt_booking : option date; tt_mark : bytes; tt_kind : bytes; tt_amount : F;
    tt_key : bytes; tt_reference : bytes; tt_bank_reference : bytes; tt_information : bytes }.

  (** swift/mt940.go:242-264: characters up to the first digit, which stays in the
      buffer *)
  Fixpoint read_marks (fuel : nat) (s : bytes) (runes : list rune) : outcome (list rune * bytes) :=
    match fuel with
    | O => Err
    | S fuel =>
        match decode_rune s with
        | None => Err
        | Some r => if rune_digit r then Ok (runes, s) else read_marks fuel (skipn (r_width r) s) (runes ++ [r])
        end
    end.
  Definition marks (runes : list rune) : bytes * bytes :=
    match runes with
    | [a; b; c] => (r_string a ++ r_string b, r_string c)
    | [a; b] => (r_string a, r_string b)
    | [a] => (r_string a, [])
    | _ => ([], [])
    end.

  (** swift/mt940.go:279-307: reference, bank reference, additional information *)
  Definition inf_sep : bytes := [b_cr; b_lf; slash].
  Definition references (s : bytes) : outcome (bytes * bytes * bytes) :=
    match find_sub inf_sep s, find_sub [slash; slash] s with
    | Some a, Some d =>
        if (d <? a)%nat then
          if (a <? d + 2)%nat then Panic
          else Ok (firstn d s, firstn (a - (d + 2)) (skipn (d + 2) s), skipn (a + 3) s)
        else
          if (d <? a + 3)%nat then Panic
          else Ok (firstn d s, firstn (d - (a + 3)) (skipn (a + 3) s), skipn (d + 2) s)
    | None, Some d => Ok (firstn d s, skipn (d + 2) s, [])
    | Some a, None => Ok (firstn a s, [], skipn (a + 3) s)
    | None, None => Ok (s, [], [])
    end.

  (** swift/mt940.go:227-240: the booking date and what follows it.  If the character
      after the valuta date is not a digit it is lost. *)
  Definition read_booking (valuta : date) (s : bytes) : outcome (option date * bytes) :=
    match decode_rune s with
    | None => Err
    | Some r =>
        if rune_digit r then
          do d <- mt_date (firstn 4 s) (d_year valuta);
          let d' := if 1 <? Z.abs (d_month valuta - d_month d)
                    then norm_date (d_year d + 1) (d_month d) (d_day d) else d in
          Ok (Some d', skipn 4 s)
        else Ok (None, skipn (r_width r) s)
    end.

  (** TransactionTag.Unmarshal, swift/mt940.go:215-309 *)
  Definition read_transaction (tag : bytes) : outcome transaction_tag :=
    do e <- tag_elements tag;
    let v := snd e in
    do valuta <- mt_date (firstn 6 v) now;
    do b <- read_booking valuta (skipn 6 v);
    do m <- read_marks (S (List.length (snd b))) (snd b) [];
    match read_bytes "N"%byte (snd m) with
    | None => Err
    | Some (a, rest) =>
        do x <- amount_of a;
        do r <- references (skipn 3 rest);
        let '(reference, bank_reference, information) := r in
        Ok (mkTransaction valuta (fst b) (fst (marks (fst m))) (snd (marks (fst m))) x
              (firstn 3 rest) reference bank_reference information)
    end.

  (** ** Statements: MT940, swift/mt940.go:17-28.  Not modelled: JobReference, Reference,
      CurrentValutaBalance and FutureValutaBalance, which are read (and may fail) but not
      used any further. *)
  Record statement := mkStatement {
    st_account : option account_tag; st_number : option (Z * Z); st_opening : option balance_tag;
    st_transactions : list (transaction_tag * option custom); st_closing : option balance_tag;
    st_custom : option custom }.
  Definition empty_statement : statement := mkStatement None None None [] None None.
  Definition set_account a s := mkStatement (Some a) (st_number s) (st_opening s) (st_transactions s) (st_closing s) (st_custom s).
  Definition set_number n s := mkStatement (st_account s) (Some n) (st_opening s) (st_transactions s) (st_closing s) (st_custom s).
  Definition set_opening b s := mkStatement (st_account s) (st_number s) (Some b) (st_transactions s) (st_closing s) (st_custom s).
  Definition set_transactions l s := mkStatement (st_account s) (st_number s) (st_opening s) l (st_closing s) (st_custom s).
  Definition set_closing b s := mkStatement (st_account s) (st_number s) (st_opening s) (st_transactions s) (Some b) (st_custom s).
  Definition set_custom c s := mkStatement (st_account s) (st_number s) (st_opening s) (st_transactions s) (st_closing s) (Some c).

  (** What Unmarshal leaves behind: the statement, which is used even after an error, and
      the error. *)
  Inductive progress := Go (open : bool) (s : statement) | Fail (s : statement) | Crash.
  (** The tag is stored before its Unmarshal method runs ([m.Account = &AccountTag{}]), so
      after an error it is not nil; its contents are then partly set, which nobody sees:
      here [z]. *)
  Definition store {X} (o : outcome X) (z : X) (set : X -> statement) (open : bool) : progress :=
    match o with Ok x => Go open (set x) | Err => Fail (set z) | Panic => Crash end.
  Definition keep {X} (o : outcome X) (s : statement) (open : bool) : progress :=
    match o with Ok _ => Go open s | Err => Fail s | Panic => Crash end.
  Definition blank_balance (x : F) : balance_tag := mkBalance [] (mkDate 1 1 1) [] x.

  (** One tag, swift/mt940_unmarshaler.go:22-104.  [zero] is the float 0. *)
  Variable zero : F.
  Definition dispatch (tag : bytes) (open : bool) (s : statement) : progress :=
    if has_prefix (B ":20:") tag then keep (alnum_tag tag) s open
    else if has_prefix (B ":21:") tag then keep (alnum_tag tag) s open
    else if has_prefix (B ":25:") tag then store (read_account tag) (mkAccount [] []) (fun a => set_account a s) open
    else if has_prefix (B ":28C:") tag then store (read_statement_number tag) (0, 0) (fun n => set_number n s) open
    else if has_prefix (B ":60") tag then store (read_balance tag) (blank_balance zero) (fun b => set_opening b s) true
    else if has_prefix (B ":62") tag then store (read_balance tag) (blank_balance zero) (fun b => set_closing b s) false
    else if has_prefix (B ":64:") tag then keep (read_balance tag) s open
    else if has_prefix (B ":65:") tag then keep (read_balance tag) s open
    else if has_prefix (B ":61:") tag then
      match read_transaction tag with
      | Ok t => Go open (set_transactions (st_transactions s ++ [(t, None)]) s)
      | Err => Fail s
      | Panic => Crash
      end
    else if has_prefix (B ":86:") tag then
      match read_custom tag with
      | Ok c =>
          if open then
            match rev (st_transactions s) with
            | [] => Fail s
            | (t, Some _) :: _ => Fail s
            | (t, None) :: before => Go open (set_transactions (rev before ++ [(t, Some c)]) s)
            end
          else Go open (set_custom c s)
      | Err => Fail s
      | Panic => Crash
      end
    else Fail s.
  Fixpoint dispatch_all (tags : list bytes) (open : bool) (s : statement) : progress :=
    match tags with
    | [] => Go open s
    | t :: r => match dispatch t open s with Go open' s' => dispatch_all r open' s' | p => p end
    end.
  (** MT940.Unmarshal, swift/mt940_unmarshaler.go:11-109, on a new MT940 *)
  Definition read_statement (message : bytes) : progress :=
    match extract_tags message with
    | Ok [] => Fail empty_statement
    | Ok tags => dispatch_all tags false empty_statement
    | Err => Fail empty_statement
    | Panic => Crash
    end.

  (** ** domain.AccountTransaction, domain/account_transaction.go:65-79.  The country code
      is always 280. *)
  Record tx := mkTx {
    tx_account : bytes * bytes; tx_amount : F; tx_currency : bytes; tx_valuta : date; tx_booking : option date;
    tx_text : bytes; tx_bank : bytes; tx_account_id : bytes; tx_name : bytes; tx_purpose : bytes; tx_purpose2 : bytes;
    tx_id : Z; tx_before : F * bytes * date; tx_after : F * bytes * date }.

  (** The loop body of MT940.AccountTransactions, swift/mt940.go:34-73 *)
  Definition deliver (a : account_tag) (o c : option balance_tag) (p : transaction_tag * option custom) : outcome tx :=
    match o, c with
    | Some o, Some c =>
        let (t, descr) := p in
        let amount := if bytes_eqb (tt_mark t) (B "D") then neg (tt_amount t) else tt_amount t in
        let d := match descr with Some d => d | None => mkCustom 0 [] [] [] [] [] [] 0 [] end in
        Ok (mkTx (ac_bank a, ac_account a) amount (ba_currency o) (tt_valuta t) (tt_booking t)
              (cu_text d) (cu_bank d) (cu_account d) (cu_name d) (join (B " ") (cu_purpose d)) (join (B " ") (cu_purpose2 d))
              (cu_id d) (ba_amount o, ba_currency o, ba_date o) (ba_amount c, ba_currency c, ba_date c))
    | _, _ => Panic
    end.
  (** MT940.AccountTransactions, swift/mt940.go:31-75 *)
  Definition transactions_of (s : statement) : outcome (list tx) :=
    match st_account s with
    | None => Panic
    | Some a => all_ok (deliver a (st_opening s) (st_closing s)) (st_transactions s)
    end.

  (** UnmarshalMT940, swift/unmarshal.go:79-101 *)
  Fixpoint unmarshal_loop (messages : list bytes) (failed : bool) (acc : list tx) : outcome (list tx) :=
    match messages with
    | [] => if failed then Err else Ok acc
    | m :: r =>
        match read_statement m with
        | Crash => Panic
        | Go _ s => do l <- transactions_of s; unmarshal_loop r failed (acc ++ l)
        | Fail s => do l <- transactions_of s; unmarshal_loop r true (acc ++ l)
        end
    end.
  Definition unmarshal_mt940 (data : bytes) : outcome (list tx) :=
    do ms <- extract_messages data; unmarshal_loop ms false [].
End Mt940.
