(** * Which segments of a bank can be read

    The form of every data element of the segments a bank sends, and what becomes of a
    segment whose elements have these forms or not, written without the definitions of the
    model.  An element is given by its bytes. *)
From Verif Require Import Base Lexer_Spec Codec_Model Codec_Spec Wire_Spec Seg_Model Seg_Spec.
Open Scope Z_scope.

(** ** Basic values *)

(** A decimal number with an optional sign that fits into 64 bits. *)
Definition integer_of (w : bytes) (z : Z) : Prop :=
  exists digits, digits <> [] /\ forallb is_digit digits = true /\ - 2 ^ 63 <= z < 2 ^ 63 /\
    (((w = digits \/ w = "+"%byte :: digits) /\ z = Z.of_N (dec_val digits)) \/
     (w = "-"%byte :: digits /\ z = - Z.of_N (dec_val digits))).
Definition integer (w : bytes) : Prop := exists z, integer_of w z.
(** A day that exists, as yyyymmdd. *)
Definition day (w : bytes) : Prop := exists d, real_date d /\ w = yyyymmdd d.
(** A time of day as hhmmss, fractions of a second may follow. *)
Definition clock (w : bytes) : Prop := exists t f, real_time t /\ w = hhmmss t ++ f /\ fraction f.
Definition flag (w : bytes) : Prop := w = B "J" \/ w = B "N".
(** Binary data @size@data: enough is that the size is a number of at most 2^48 (go-hbci adds
    zeros if too few bytes follow), and that anything follows if it is not zero. *)
Definition binary (w : bytes) : Prop :=
  exists size data n, w = "@"%byte :: size ++ "@"%byte :: data /\ ~ In "@"%byte size /\
    integer_of size n /\ 0 <= n <= 2 ^ 48 /\ (data = [] -> n = 0).
(** With a number below zero, or one above 2^48, go-hbci crashes. *)
Definition fatal_binary (w : bytes) : Prop :=
  exists size data n, w = "@"%byte :: size ++ "@"%byte :: data /\ ~ In "@"%byte size /\
    integer_of size n /\ ~ 0 <= n <= 2 ^ 48.

(** ** Groups of values *)

(** [w] are the values [parts] with ':' between them, none at the end being empty. *)
Definition made_of (w : bytes) (parts : list bytes) : Prop :=
  exists g, group_ok g /\ w = group_wire g /\ parts = strip (map item_wire g).
(** The k-th value, empty if there are fewer. *)
Definition part (k : nat) (parts : list bytes) : bytes := nth k parts [].
(** The k-th value, if it is not empty, is such a one. *)
Definition if_sent (k : nat) (P : bytes -> Prop) (parts : list bytes) : Prop :=
  part k parts <> [] -> P (part k parts).
Definition sent_and (k : nat) (P : bytes -> Prop) (parts : list bytes) : Prop :=
  part k parts <> [] /\ P (part k parts).

(** ** Forms of elements *)

(** What is read, and what is neither read nor refused but ends the program. *)
Record form := mkForm { accepts : bytes -> Prop; crashes : bytes -> Prop }.
Definition value (P : bytes -> Prop) : form := mkForm P (fun _ => False).
Definition fragile_group (P C : list bytes -> Prop) : form :=
  mkForm (fun w => exists ps, made_of w ps /\ P ps) (fun w => exists ps, made_of w ps /\ C ps).
Definition group (P : list bytes -> Prop) : form := fragile_group P (fun _ => False).
Definition a_text : form := value (fun _ => True).
Definition a_number : form := value integer.
Definition a_day : form := value day.
Definition a_time : form := value clock.
Definition a_flag : form := value flag.
Definition a_binary : form := mkForm binary fatal_binary.
(** Elements go-hbci has no reader for. *)
Definition crash : form := mkForm (fun _ => False) (fun _ => True).

(** Country and bank code: whatever the country is. *)
Definition a_bank : form := group (fun ps => (2 <= List.length ps)%nat).
(** Account, subaccount, country, bank code. *)
Definition an_account : form := group (fun ps => (4 <= List.length ps)%nat /\ integer (part 2 ps)).
(** IBAN, BIC, account, subaccount, and if a country follows then a bank code too. *)
Definition an_iban : form := group (fun ps => part 4 ps <> [] -> (6 <= List.length ps)%nat).
Definition small_numbers : form :=
  group (fun ps => (List.length ps <= 9)%nat /\ Forall (fun p => exists z, integer_of p z /\ z <= 3) ps).
Definition numbers : form := group (fun ps => (List.length ps <= 9)%nat /\ Forall integer ps).
(** Dialog ID and message number. *)
Definition a_reference : form := group (fun ps => List.length ps = 2%nat /\ integer (part 1 ps)).
(** Code, element, text, parameters. *)
Definition an_acknowledgement : form := group (fun ps => (3 <= List.length ps)%nat /\ integer (part 0 ps)).
(** PIN and TAN lengths, two texts, then segment IDs each with a flag. *)
Definition pin_parameters : form :=
  group (fun ps => integer (part 0 ps) /\ integer (part 1 ps) /\ integer (part 2 ps) /\
    exists l, l <> [] /\ Forall (fun p => flag (snd p)) l /\
      skipn 5 ps = flat_map (fun p => [fst p; snd p]) l).
(** One process: 21 values. *)
Definition tan_process_ok (p : list bytes) : Prop :=
  List.length p = 21%nat /\ integer (part 6 p) /\ integer (part 9 p) /\ flag (part 10 p) /\ flag (part 12 p) /\
  flag (part 15 p) /\ flag (part 16 p) /\ flag (part 19 p) /\ integer (part 20 p).
(** Two flags, the hash method, then at least one process.  One or two flags and nothing else
    end the program. *)
Definition tan_parameters : form :=
  fragile_group
    (fun ps => (3 <= List.length ps)%nat /\ flag (part 0 ps) /\ flag (part 1 ps) /\
               exists l, l <> [] /\ Forall tan_process_ok l /\ skipn 3 ps = List.concat l)
    (fun ps => (List.length ps = 1%nat /\ flag (part 0 ps)) \/
               (List.length ps = 2%nat /\ flag (part 0 ps) /\ flag (part 1 ps))).
(** A method, versions of it end the program. *)
Definition security_methods : form :=
  let versions w := exists code rest, w = code ++ ":"%byte :: rest /\ ~ In ":"%byte code /\ exists c, In c rest /\ c <> ":"%byte in
  mkForm (fun w => ~ versions w) versions.
Definition security_profile : form := group (fun ps => (2 <= List.length ps)%nat /\ integer (part 1 ps)).
Definition security_identification : form :=
  fragile_group (fun ps => (3 <= List.length ps)%nat /\ if_sent 1 binary ps)
                (fun ps => (3 <= List.length ps)%nat /\ sent_and 1 fatal_binary ps).
Definition security_date : form := group (fun ps => if_sent 1 day ps /\ if_sent 2 clock ps).
Definition hash_algorithm : form :=
  fragile_group (fun ps => (3 <= List.length ps)%nat /\ if_sent 3 binary ps)
                (fun ps => (3 <= List.length ps)%nat /\ sent_and 3 fatal_binary ps).
Definition signature_algorithm : form := group (fun ps => (3 <= List.length ps)%nat).
Definition key_name : form :=
  group (fun ps => (6 <= List.length ps)%nat /\ if_sent 4 integer ps /\ if_sent 5 integer ps).
Definition encryption_algorithm : form :=
  fragile_group
    (fun ps => (7 <= List.length ps)%nat /\ if_sent 3 binary ps /\ if_sent 6 binary ps)
    (fun ps => (7 <= List.length ps)%nat /\
       (sent_and 3 fatal_binary ps \/ (if_sent 3 binary ps /\ sent_and 6 fatal_binary ps))).
(** A PIN and a TAN; in version 2 of the signature end there is no reader for them. *)
Definition pin_and_tan : form := group (fun ps => (2 <= List.length ps)%nat).
Definition own_signature : form := fragile_group (fun _ => False) (fun ps => (2 <= List.length ps)%nat).

Section Money.
  (** [parse_float]: strconv.ParseFloat(_, 64), applied with the first comma as a dot. *)
  Context {F : Type} (parse_float : bytes -> option F).
  Definition money (w : bytes) : Prop :=
    exists x, (exists a b, ~ In ","%byte a /\ w = a ++ ","%byte :: b /\ parse_float (utf8 (a ++ "."%byte :: b)) = Some x) \/
              (~ In ","%byte w /\ parse_float (utf8 w) = Some x).
  (** Value and currency. *)
  Definition an_amount : form := group (fun ps => List.length ps = 2%nat /\ money (part 0 ps)).
  (** Credit or debit, value, currency, day and, if there are five values, the time. *)
  Definition a_balance : form :=
    group (fun ps => (4 <= List.length ps)%nat /\ money (part 1 ps) /\ day (part 3 ps) /\
                     (List.length ps = 5%nat -> clock (part 4 ps))).
  Definition a_value : form := value money.
  (** Segment ID, number of signatures, kind of limit, its amount, days.  An amount of a limit
      makes the job unreadable: go-hbci takes value and currency for one value. *)
  Definition a_job : form :=
    group (fun ps => (2 <= List.length ps)%nat /\ integer (part 1 ps) /\ part 3 ps = [] /\ if_sent 4 integer ps).

  (** ** Segments *)

  Definition balances (account : form) : list form :=
    [account; a_text; a_text; a_balance; a_balance; an_amount; an_amount; an_amount; a_day; a_time; a_day].
  Definition signature_header : list form :=
    [a_text; a_text; a_text; a_text; security_identification; a_number; security_date; hash_algorithm;
     signature_algorithm; key_name; crash].
  Definition encryption_header : list form :=
    [a_text; a_text; security_identification; security_date; encryption_algorithm; key_name; a_text; crash].
  Definition bank_parameters : list form := [a_number; a_bank; a_text; a_number; small_numbers; numbers; a_number].
  (** ID, version and the forms of the elements after the segment header.  Every element may be
      absent. *)
  Definition segments : list (bytes * Z * list form) :=
    [(B "HISYN", 3, [a_text; a_number; a_number]);
     (B "HISYN", 4, [a_text; a_number; a_number]);
     (B "HITANS", 6, [a_number; a_number; a_text; tan_parameters]);
     (B "HIBPA", 2, bank_parameters);
     (B "HIBPA", 3, bank_parameters ++ [a_number; a_number]);
     (B "HIPINS", 1, [a_number; a_number; a_number; pin_parameters]);
     (B "HIUPA", 2, [a_text; a_number; a_number]);
     (B "HIUPA", 3, [a_text; a_number; a_number; a_text; a_text]);
     (B "HIUPA", 4, [a_text; a_number; a_number; a_text; a_text]);
     (B "HISAL", 5, balances an_account);
     (B "HISAL", 6, balances an_account);
     (B "HISAL", 7, balances an_iban);
     (B "HISAL", 8, balances an_iban ++ [an_amount]);
     (B "HIKAZ", 5, [a_binary; a_binary]);
     (B "HIKAZ", 6, [a_binary; a_binary]);
     (B "HIKAZ", 7, [a_binary; a_binary]);
     (B "HIPRO", 3, [a_reference; a_number; a_day; a_time; an_acknowledgement]);
     (B "HIPRO", 4, [a_reference; a_number; a_day; a_time; an_acknowledgement]);
     (B "HITAN", 6, [a_text; a_binary; a_text]);
     (B "HIKIM", 2, [a_text; a_text]);
     (B "HIKIF", 1, [an_account; a_number; a_text; a_text; a_text; a_text; a_day; a_value; a_value; a_value;
                     an_amount; an_account; a_number; a_number; a_text; crash]);
     (B "HIKOM", 3, [a_bank; a_number; crash]);
     (B "HISHV", 2, [a_flag; security_methods]);
     (B "HIKPV", 1, [crash]);
     (B "HNSHK", 3, signature_header);
     (B "HNSHK", 4, security_profile :: signature_header);
     (B "HNSHA", 1, [a_text; a_binary; pin_and_tan]);
     (B "HNSHA", 2, [a_text; a_binary; own_signature]);
     (B "HNVSK", 2, encryption_header);
     (B "HNVSK", 3, security_profile :: encryption_header);
     (B "HNVSD", 1, [a_binary]);
     (B "HNHBK", 3, [a_number; a_number; a_text; a_number; a_reference]);
     (B "HNHBS", 1, [a_number])].
  (** The accounts (HIUPD), before the jobs. *)
  Definition account_segments : list (Z * list form) :=
    [(4, [an_account; a_text; a_text; a_text; a_text; a_text; crash]);
     (5, [an_account; a_text; a_number; a_text; a_text; a_text; a_text; crash]);
     (6, [an_account; a_text; a_text; a_number; a_text; a_text; a_text; a_text; crash]);
     (7, [an_account; a_text; a_text; a_number; a_text; a_text; a_text; a_text; crash])].
End Money.

(** ** What becomes of a segment *)

(** Empty elements are passed over; the others must have the form of their place. *)
Definition passes (f : form) (w : bytes) : Prop := w = [] \/ accepts f w.
Definition all_pass (fs : list form) (ws : list bytes) : Prop :=
  forall k f, nth_error fs k = Some f -> passes f (nth k ws []).
(** The elements are read in order, up to the first that has not. *)
Definition one_crashes (fs : list form) (ws : list bytes) : Prop :=
  exists k f, nth_error fs k = Some f /\ nth k ws [] <> [] /\ crashes f (nth k ws []) /\
    forall j g, (j < k)%nat -> nth_error fs j = Some g -> passes g (nth j ws []).
