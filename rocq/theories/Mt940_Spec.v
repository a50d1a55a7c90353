(** * Specification of MT940 statements: what a bank writes *)
From Verif Require Import Base Lexer_Model Codec_Model Codec_Spec Swift_Model Swift_Spec Mt940_Model.
Open Scope Z_scope.

Definition occurs (sub s : bytes) : Prop := exists u w, s = u ++ sub ++ w.

(** Debit/credit marks: credit, debit, and the reversals of a credit and of a debit. *)
Inductive mark := C_ | D_ | RC_ | RD_.
Definition mark_text (m : mark) : bytes :=
  match m with C_ => B "C" | D_ => B "D" | RC_ => B "RC" | RD_ => B "RD" end.
(** Money leaves the account. *)
Definition outgoing (m : mark) : bool := match m with C_ | RD_ => false | D_ | RC_ => true end.

Definition yymmdd (d : date) : bytes := digits2 (d_year d mod 100) ++ digits2 (d_month d) ++ digits2 (d_day d).
Definition mmdd (d : date) : bytes := digits2 (d_month d) ++ digits2 (d_day d).

(** An amount: digits, a comma, more digits. *)
Record money := mkMoney { mo_int : bytes; mo_frac : bytes }.
Definition money_text (m : money) : bytes := mo_int m ++ B "," ++ mo_frac m.
Definition dotted (m : money) : bytes := mo_int m ++ B "." ++ mo_frac m.
Definition money_ok (m : money) : Prop :=
  mo_int m <> [] /\ forallb is_digit (mo_int m) = true /\ forallb is_digit (mo_frac m) = true.

(** The value of a :61: field; [e_text]: references and additional information. *)
Record entry := mkEntry {
  e_valuta : date; e_booking : option date; e_mark : mark; e_kind : option byte;
  e_money : money; e_key : bytes; e_text : bytes }.
Definition opt_bytes (o : option byte) : bytes := match o with Some c => [c] | None => [] end.
Definition entry_value (e : entry) : bytes :=
  yymmdd (e_valuta e) ++ (match e_booking e with Some d => mmdd d | None => [] end) ++
  mark_text (e_mark e) ++ opt_bytes (e_kind e) ++ money_text (e_money e) ++ B "N" ++ e_key e ++ e_text e.

(** The date lies in the century of the year [now]. *)
Definition this_century (now : Z) (d : date) : Prop := d_year d / 100 = now / 100.
(** The additional information, if any, does not begin with a slash. *)
Definition text_ok (t : bytes) : Prop := ~ occurs (crlf ++ B "//") t.
Definition entry_head_ok (now : Z) (e : entry) : Prop :=
  real_date (e_valuta e) /\ this_century now (e_valuta e) /\
  match e_booking e with Some d => real_date d | None => True end /\
  match e_kind e with Some k => is_capital k = true | None => True end /\
  money_ok (e_money e) /\ List.length (e_key e) = 3%nat.
Definition entry_ok (now : Z) (e : entry) : Prop := entry_head_ok now e /\ text_ok (e_text e).

(** The entries whose sign is turned round: with a booking date these are the reversals of
    credits; without one the first letter of the mark is not seen. *)
Definition sign_lost (e : entry) : bool :=
  match e_booking e, e_mark e, e_kind e with
  | Some _, RC_, _ => true
  | Some _, _, _ => false
  | None, C_, Some k => beq k "D"
  | None, C_, None => false
  | None, D_, Some k => negb (beq k "D")
  | None, D_, None => true
  | None, RC_, _ | None, RD_, _ => true
  end.

(** The references of an entry: what follows "//" and what follows "/" on a new line. *)
Definition opt_app (sep : bytes) (o : option bytes) : bytes := match o with Some t => sep ++ t | None => [] end.
Definition or_nothing (o : option bytes) : bytes := match o with Some t => t | None => [] end.

(** Months between two dates. *)
Definition month_no (d : date) : Z := 12 * d_year d + d_month d.
Definition in_february_29 (d : date) : Prop := d_month d = 2 /\ d_day d = 29.
(** The booking dates that come out as they were meant. *)
Definition booking_kept (valuta booking : date) : Prop :=
  (d_year booking = d_year valuta /\ Z.abs (d_month valuta - d_month booking) <= 1) \/
  (d_year booking = d_year valuta + 1 /\ 1 < Z.abs (d_month valuta - d_month booking) /\ ~ in_february_29 booking).

(** ** :86: fields *)
(** A three-digit business transaction code and sub-fields, each a key "?nn" with text. *)
Record info := mkInfo { i_code : bytes; i_subs : list (Z * bytes) }.
Definition key_text (n : Z) : bytes := B "?" ++ digits2 n.
Definition sub_text (p : Z * bytes) : bytes := key_text (fst p) ++ snd p.
Definition info_text (i : info) : bytes := List.concat (map sub_text (i_subs i)).
Definition key_ok (n : Z) : Prop :=
  n = 0 \/ n = 10 \/ 20 <= n <= 34 \/ 60 <= n <= 63.
Inductive ascending : list Z -> Prop :=
| asc_nil : ascending []
| asc_one n : ascending [n]
| asc_cons n m l : n < m -> ascending (m :: l) -> ascending (n :: m :: l).
(** No line break and no key in the texts; a text of ?34 is a number. *)
Definition sub_ok (p : Z * bytes) : Prop :=
  key_ok (fst p) /\ ~ In b_cr (snd p) /\ (forall k, key_ok k -> ~ occurs (key_text k) (snd p)) /\
  (fst p = 34 -> snd p <> [] /\ forallb is_digit (snd p) = true /\ Z.of_N (dec_val (snd p)) <= int64_max).
Definition info_ok (i : info) : Prop :=
  List.length (i_code i) = 3%nat /\ forallb is_digit (i_code i) = true /\
  ascending (map fst (i_subs i)) /\ Forall sub_ok (i_subs i).

(** What it says: the text of one key (nothing if absent), the texts of a range of keys,
    as UTF-8. *)
Definition sub (i : info) (n : Z) : option bytes :=
  match find (fun p => fst p =? n) (i_subs i) with Some p => Some (to_utf8 (snd p)) | None => None end.
Definition sub_or_nothing (i : info) (n : Z) : bytes := match sub i n with Some t => t | None => [] end.
Definition subs_between (i : info) (a b : Z) : list bytes :=
  map (fun p => to_utf8 (snd p)) (filter (fun p => (a <=? fst p) && (fst p <=? b)) (i_subs i)).
Definition party_name (i : info) : bytes :=
  sub_or_nothing i 32 ++ match sub i 33 with Some t => B " " ++ t | None => [] end.
Definition addition (i : info) : Z :=
  match find (fun p => fst p =? 34) (i_subs i) with Some p => Z.of_N (dec_val (snd p)) | None => 0 end.

(** The value as written: the text cut into lines anywhere after the code. *)
Definition info_value (i : info) (v : bytes) : Prop :=
  exists lines, List.concat lines = info_text i /\ v = i_code i ++ join crlf lines.

(** The key [k] first stands at the offset [n]. *)
Definition key_at (k : Z) (s : bytes) (n : nat) : Prop := exists u w, s = u ++ key_text k ++ w /\ List.length u = n.
Definition first_at (k : Z) (s : bytes) (n : nat) : Prop := key_at k s n /\ forall m, (m < n)%nat -> ~ key_at k s m.
(** The keys first appear in ascending order. *)
Definition in_order (s : bytes) : Prop :=
  forall k k' n n', key_ok k -> key_ok k' -> k < k' -> first_at k s n -> first_at k' s n' -> (n < n')%nat.

(** ** Statements *)
Record balance := mkBal { b_debit : bool; b_date : date; b_currency : bytes; b_money : money }.
Definition balance_value (b : balance) : bytes :=
  (if b_debit b then B "D" else B "C") ++ yymmdd (b_date b) ++ b_currency b ++ money_text (b_money b).
Definition balance_ok (now : Z) (b : balance) : Prop :=
  real_date (b_date b) /\ this_century now (b_date b) /\ List.length (b_currency b) = 3%nat /\ money_ok (b_money b).

(** A day's statement.  [s_entries]: the entries, each with what may follow as :86: and
    the way it is written. *)
Record stmt := mkStmt {
  s_job : bytes; s_related : option bytes; s_bank : bytes; s_account : bytes; s_number : bytes; s_sheet : option bytes;
  s_open_letter : byte; s_opening : balance; s_entries : list (entry * option (info * bytes));
  s_close_letter : byte; s_closing : balance; s_available : option balance; s_forward : list balance;
  s_remark : option (info * bytes) }.
Definition plain_field (n : bytes) (v : bytes) : field := mkField n None v.
Definition info_field (p : info * bytes) : field := plain_field (B "86") (snd p).
Definition opt_list {A C} (f : A -> C) (o : option A) : list C := match o with Some x => [f x] | None => [] end.
Definition entry_fields (p : entry * option (info * bytes)) : list field :=
  plain_field (B "61") (entry_value (fst p)) :: opt_list info_field (snd p).
Definition stmt_fields (s : stmt) : list field :=
  [plain_field (B "20") (s_job s)] ++ opt_list (plain_field (B "21")) (s_related s) ++
  [plain_field (B "25") (s_bank s ++ B "/" ++ s_account s);
   mkField (B "28") (Some "C"%byte) (s_number s ++ match s_sheet s with Some t => B "/" ++ t | None => [] end);
   mkField (B "60") (Some (s_open_letter s)) (balance_value (s_opening s))] ++
  List.concat (map entry_fields (s_entries s)) ++
  [mkField (B "62") (Some (s_close_letter s)) (balance_value (s_closing s))] ++
  opt_list (fun b => plain_field (B "64") (balance_value b)) (s_available s) ++
  map (fun b => plain_field (B "65") (balance_value b)) (s_forward s) ++
  opt_list info_field (s_remark s).

Definition number_ok (t : bytes) : Prop := t <> [] /\ forallb is_digit t = true /\ Z.of_N (dec_val t) <= int64_max.
Definition written_ok (p : info * bytes) : Prop := info_ok (fst p) /\ info_value (fst p) (snd p).
Definition opt_ok {A} (P : A -> Prop) (o : option A) : Prop := match o with Some x => P x | None => True end.
(** [reads m]: the amount is in the range of a float64. *)
Definition stmt_ok (reads : money -> Prop) (now : Z) (s : stmt) : Prop :=
  ~ In "/"%byte (s_bank s) /\ ~ In "/"%byte (s_account s) /\ number_ok (s_number s) /\ opt_ok number_ok (s_sheet s) /\
  is_capital (s_open_letter s) = true /\ is_capital (s_close_letter s) = true /\
  (let bal b := balance_ok now b /\ reads (b_money b) in
   bal (s_opening s) /\ bal (s_closing s) /\ opt_ok bal (s_available s) /\ Forall bal (s_forward s)) /\
  Forall (fun p => entry_ok now (fst p) /\ reads (e_money (fst p)) /\ opt_ok written_ok (snd p)) (s_entries s) /\
  opt_ok written_ok (s_remark s) /\
  Forall (fun f => value_ok (f_value f)) (stmt_fields s).

(** What is delivered for one entry of a statement; [tx] is domain.AccountTransaction. *)
Definition delivers {F} (parse_float : bytes -> option F) (neg : F -> F) (s : stmt) (p : entry * option (info * bytes)) (t : tx) : Prop :=
  let e := fst p in
  let money_is m y := parse_float (dotted m) = Some y in
  tx_account t = (s_bank s, s_account s) /\
  (exists x, money_is (e_money e) x /\ tx_amount t = if xorb (outgoing (e_mark e)) (sign_lost e) then neg x else x) /\
  tx_currency t = b_currency (s_opening s) /\
  tx_valuta t = e_valuta e /\
  match e_booking e with
  | None => tx_booking t = None
  | Some b => exists b', tx_booking t = Some b' /\ (booking_kept (e_valuta e) b <-> b' = b)
  end /\
  (exists x, money_is (b_money (s_opening s)) x /\ tx_before t = (x, b_currency (s_opening s), b_date (s_opening s))) /\
  (exists x, money_is (b_money (s_closing s)) x /\ tx_after t = (x, b_currency (s_closing s), b_date (s_closing s))) /\
  let i := match snd p with Some (i, _) => i | None => mkInfo [] [] end in
  tx_text t = sub_or_nothing i 0 /\ tx_bank t = sub_or_nothing i 30 /\ tx_account_id t = sub_or_nothing i 31 /\
  tx_name t = party_name i /\ tx_purpose t = join (B " ") (subs_between i 20 29) /\
  tx_purpose2 t = join (B " ") (subs_between i 60 63) /\ tx_id t = Z.of_N (dec_val (i_code i)).
