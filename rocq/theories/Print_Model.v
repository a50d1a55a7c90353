(** * Model of the printed tables

    domain/account_balance.go, account_transaction.go, account_information.go: the String
    methods of balances, transactions and accounts, with text/tabwriter of the standard
    library, which lays them out. *)
From Verif Require Import Base Lexer_Model Codec_Model Time_Model Seg_Model Mt940_Model.
Open Scope nat_scope.

Definition b_tab : byte := x09.
Definition b_nl : byte := x0a.
Definition b_vt : byte := x0b.
Definition b_ff : byte := x0c.
(** tabwriter.Escape *)
Definition b_escape : byte := xff.
Definition b_space : byte := x20.
Definition b_bar : byte := x7c.

(** utf8.RuneCount; invalid bytes count as one *)
Fixpoint rune_count_ (fuel : nat) (s : bytes) : nat :=
  match fuel with
  | O => O
  | S fuel => match decode_rune s with
              | None => O
              | Some r => S (rune_count_ fuel (skipn (r_width r) s))
              end
  end.
Definition rune_count (s : bytes) : nat := rune_count_ (List.length s) s.

(** ** text/tabwriter (Go 1.x, src/text/tabwriter/tabwriter.go) *)

(** NewWriter(output, minwidth, tabwidth, padding = 0, padchar, flags): of the flags,
    TabIndent and Debug. *)
Record layout := mkLayout { minwidth : nat; tabwidth : nat; padchar : byte; tab_indent : bool; debug : bool }.
(** type cell: its text and width in runes; htab matters for DiscardEmptyColumns only *)
Record cell := mkCell { c_text : bytes; c_width : nat }.
Definition no_cell : cell := mkCell [] 0.
(** A line of the buffer: its terminated cells, and whether a newline follows (all lines but
    the last one). *)
Definition line : Type := list cell * bool.

Section Writer.
  Variable cfg : layout.

  Definition ceil_div (a b : nat) : nat := (a + b - 1) / b.
  (** writePadding; "internal error" for a negative amount cannot happen: a cell is never
      wider than its column *)
  Definition write_padding (textw cellw : nat) (use_tabs : bool) : bytes :=
    if beq (padchar cfg) b_tab || use_tabs then
      if tabwidth cfg =? 0 then []
      else let cellw := ceil_div cellw (tabwidth cfg) * tabwidth cfg in
           repeat b_tab (ceil_div (cellw - textw) (tabwidth cfg))
    else repeat (padchar cfg) (cellw - textw).
  (** writeLines, the loop over the cells of a line; [j] cells are written *)
  Fixpoint write_cells (widths : list nat) (j : nat) (use_tabs : bool) (cells : list cell) : bytes :=
    match cells with
    | [] => []
    | c :: r =>
        (if debug cfg && (0 <? j) then [b_bar] else []) ++
        match c_text c with
        | [] => match nth_error widths j with Some w => write_padding (c_width c) w use_tabs | None => [] end ++
                write_cells widths (S j) use_tabs r
        | t => t ++ match nth_error widths j with Some w => write_padding (c_width c) w false | None => [] end ++
               write_cells widths (S j) false r
        end
    end.
  Definition write_line (widths : list nat) (l : line) : bytes :=
    write_cells widths 0 (tab_indent cfg) (fst l) ++ (if snd l then [b_nl] else []).
  Definition write_lines (widths : list nat) (ls : list line) : bytes := flat_map (write_line widths) ls.

  (** format: "column >= len(line)-1" means that there is no cell in this column *)
  Definition has_column (column : nat) (l : line) : bool := column + 1 <? List.length (fst l).
  (** The runs of lines with and without a cell in the column, in order. *)
  Fixpoint runs (column : nat) (ls : list line) : list (bool * list line) :=
    match ls with
    | [] => []
    | l :: r =>
        match runs column r with
        | (b, g) :: rest => if Bool.eqb b (has_column column l) then (b, l :: g) :: rest
                            else (has_column column l, [l]) :: (b, g) :: rest
        | [] => [(has_column column l, [l])]
        end
    end.
  Definition cell_width (column : nat) (l : line) : nat :=
    match nth_error (fst l) column with Some c => c_width c | None => O end.
  Definition block_width (column : nat) (ls : list line) : nat :=
    fold_left (fun w l => Nat.max w (cell_width column l)) ls (minwidth cfg).
  (** Lines without a cell in the column are printed with the widths of the columns to its
      left, a block of lines with one recursively.  [fuel]: the length of the longest line. *)
  Fixpoint format (fuel : nat) (widths : list nat) (ls : list line) : bytes :=
    match fuel with
    | O => write_lines widths ls
    | S fuel =>
        let column := List.length widths in
        flat_map (fun r : bool * list line =>
          let (b, g) := r in
          if b then format fuel (widths ++ [block_width column g]) g else write_lines widths g) (runs column ls)
    end.
  Definition longest (ls : list line) : nat := fold_right (fun l n => Nat.max (List.length (fst l)) n) O ls.
  Definition format_all (ls : list line) : bytes := format (longest ls) [] ls.

  (** The state between two bytes of Write: the output so far, the finished lines of the
      buffer, the cells of the current line, the current cell, the bytes not yet appended to
      it (buf[n:i]) and whether they are inside an escape. *)
  Record writer := mkWriter {
    w_out : bytes; w_lines : list line; w_cells : list cell; w_cell : cell; w_piece : bytes; w_escape : bool }.
  Definition new_writer : writer := mkWriter [] [] [] no_cell [] false.
  (** append and updateWidth *)
  Definition extend (c : cell) (piece : bytes) : cell := mkCell (c_text c ++ piece) (c_width c + rune_count piece).
  (** Write, one byte.  FilterHTML and StripEscape are not set. *)
  Definition write_byte (w : writer) (ch : byte) : writer :=
    if w_escape w then
      if beq ch b_escape then
        let c := extend (w_cell w) (w_piece w ++ [ch]) in
        mkWriter (w_out w) (w_lines w) (w_cells w) (mkCell (c_text c) (c_width c - 2)) [] false
      else mkWriter (w_out w) (w_lines w) (w_cells w) (w_cell w) (w_piece w ++ [ch]) true
    else if beq ch b_tab || beq ch b_vt then
      mkWriter (w_out w) (w_lines w) (w_cells w ++ [extend (w_cell w) (w_piece w)]) no_cell [] false
    else if beq ch b_nl || beq ch b_ff then
      let cells := w_cells w ++ [extend (w_cell w) (w_piece w)] in
      let ls := w_lines w ++ [(cells, true)] in
      if beq ch b_ff || (List.length cells =? 1) then
        (* flushNoDefers, with the new empty line *)
        mkWriter (w_out w ++ format_all (ls ++ [([], false)]) ++
                  (if beq ch b_ff && debug cfg then [x2d; x2d; x2d; b_nl] else [])) [] [] no_cell [] false
      else mkWriter (w_out w) ls [] no_cell [] false
    else if beq ch b_escape then
      mkWriter (w_out w) (w_lines w) (w_cells w) (extend (w_cell w) (w_piece w)) [ch] true
    else mkWriter (w_out w) (w_lines w) (w_cells w) (w_cell w) (w_piece w ++ [ch]) false.
  (** The end of Write and Flush; the width of the last cell is not used. *)
  Definition flush (w : writer) : bytes :=
    let c := extend (w_cell w) (w_piece w) in
    let cells := w_cells w ++ match c_text c with [] => [] | _ => [c] end in
    w_out w ++ format_all (w_lines w ++ [(cells, false)]).
  (** fmt.Fprint(tabw, text); tabw.Flush() *)
  Definition tabulate (text : bytes) : bytes := flush (fold_left write_byte text new_writer).
End Writer.

(** ** The String methods *)
Section Tables.
  (** fmt's %.2f and the comparison with 0.0 of a float64, and Format("2006-01-02") of a
      time.Time. *)
  Context {F : Type} (fixed2 : F -> bytes) (nonzero : F -> bool) (day : Z -> bytes).

  (** fmt.Sprintf("%.2f %s", a.Amount, a.Currency) *)
  Definition money (v : F) (currency : bytes) : bytes := fixed2 v ++ B " " ++ currency.
  Definition amount_text (a : amount F) : bytes := money (am_value a) (am_currency a).
  (** Cells separated by tabs. *)
  Definition tabs (cells : list bytes) : bytes := join [b_tab] cells.

  Definition wide : layout := mkLayout 24 1 b_space true false.
  Definition narrow : layout := mkLayout 20 1 b_space true false.

  (** domain/account_balance.go:24-47, 104-127; the kinds of accounts differ in what identifies
      them.  No line is ended by the last column: a tab follows it. *)
  Definition balance_line {A} (ids : A -> bytes * bytes) (a : account_balance F A) : bytes :=
    bl_product a ++ [b_tab] ++ fst (ids (bl_account a)) ++ [b_tab] ++ snd (ids (bl_account a)) ++ [b_tab; b_tab] ++
    day (Seg_Model.ba_date (bl_booked a)) ++ [b_tab] ++ amount_text (Seg_Model.ba_amount (bl_booked a)) ++
    match bl_earmarked a with
    | Some e => if nonzero (am_value (Seg_Model.ba_amount e)) then B " (" ++ amount_text (Seg_Model.ba_amount e) ++ B ")*" else []
    | None => []
    end ++ [b_tab] ++
    match bl_credit a with Some c => amount_text c | None => B " - " end ++ [b_tab; b_nl].
  Definition earmarked {A} (a : account_balance F A) : bool :=
    match bl_earmarked a with Some e => nonzero (am_value (Seg_Model.ba_amount e)) | None => false end.
  Definition balances_string_ {A} (ids : A -> bytes * bytes) (names : bytes * bytes) (l : list (account_balance F A)) : bytes :=
    tabulate narrow
      ([b_nl] ++ tabs [B "Product Name"; fst names; snd names; []; B "BookingDate"; B "Amount"; B "Limit"] ++ [b_nl] ++
       flat_map (balance_line ids) l) ++
    (if existsb earmarked l then B "* earmarked transactions" ++ [b_nl] else []).
  Definition account_ids (a : account_connection) : bytes * bytes := (Seg_Model.ac_bank a, Seg_Model.ac_account a).
  Definition sepa_ids (a : intl_connection) : bytes * bytes := (ic_bic a, ic_iban a).
  (** domain/account_balance.go:14-52 AccountBalances.String, 94-132 SepaAccountBalances.String *)
  Definition balances_string : list (account_balance F account_connection) -> bytes :=
    balances_string_ account_ids (B "BankID", B "AccountID").
  Definition sepa_balances_string : list (account_balance F intl_connection) -> bytes :=
    balances_string_ sepa_ids (B "BIC", B "IBAN").
  (** domain/account_balance.go:68-87 AccountBalance.String, 149-167 SepaAccountBalance.String *)
  Definition balance_string_ {A} (ids : A -> bytes * bytes) (names : bytes * bytes) (a : account_balance F A) : bytes :=
    tabulate wide
      ([b_nl] ++ tabs [fst names; snd names; []; B "BookingDate"; B "Amount"] ++ [b_nl] ++
       tabs [fst (ids (bl_account a)); snd (ids (bl_account a)); []; day (Seg_Model.ba_date (bl_booked a));
             amount_text (Seg_Model.ba_amount (bl_booked a))]).
  Definition balance_string : account_balance F account_connection -> bytes := balance_string_ account_ids (B "BankID", B "AccountID").
  Definition sepa_balance_string : account_balance F intl_connection -> bytes := balance_string_ sepa_ids (B "BIC", B "IBAN").

  (** time.Time.Format("2006-01-02") of a booking date, which may be the zero time *)
  Definition booking_day (d : option date) : bytes := format_iso (match d with Some d => d | None => zero_date end).
  Definition state_text (s : F * bytes * date) : bytes :=
    let '(v, currency, d) := s in B "Balance at " ++ format_iso d ++ B ": " ++ money v currency ++ [b_nl].
  Definition tx_cells (a : @tx F) : list bytes :=
    [booking_day (tx_booking a); tx_text a; money (tx_amount a) (tx_currency a); tx_bank a; tx_account_id a;
     tx_name a; tx_purpose a].
  (** domain/account_transaction.go:14-62 AccountTransactions.String *)
  Definition transactions_string (l : list (@tx F)) : bytes :=
    tabulate wide
      ([b_nl] ++
       match l with
       | [] => []
       | first :: _ => B "Transactions for account " ++ fst (tx_account first) ++ B "/" ++ snd (tx_account first) ++ [b_nl] ++
                       state_text (tx_before first)
       end ++
       tabs [B "BookingDate"; B "Booking Text"; B "Amount"; B "BankID"; B "AccountID"; B "Name"; B "Purpose"] ++ [b_nl] ++
       flat_map (fun a => tabs (tx_cells a) ++ [b_nl]) l ++
       match rev l with [] => [] | last :: _ => state_text (tx_after last) end).
  (** domain/account_transaction.go:81-100 AccountTransaction.String *)
  Definition transaction_string (a : @tx F) : bytes :=
    tabulate (mkLayout 0 8 b_tab false false)
      ([b_nl] ++ tabs [B "BookingDate"; B "Amount"; B "BankID"; B "AccountID"; B "Purpose"] ++ [b_nl] ++
       tabs [booking_day (tx_booking a); money (tx_amount a) (tx_currency a); tx_bank a; tx_account_id a; tx_purpose a]).

  (** An account and its limit (kind, amount, currency), which accounts read from the bank's
      segments never have. *)
  Definition info : Type := account_information F * option (bytes * F * bytes).
  Definition info_cells (i : info) : list bytes :=
    let (a, l) := i in
    [Seg_Model.ac_bank (ai_connection a); Seg_Model.ac_account (ai_connection a); ai_user a; ai_currency a;
     ai_name1 a ++ B ", " ++ ai_name2 a; ai_product a;
     match l with Some (kind, v, currency) => kind ++ B ": " ++ money v currency | None => B " - " end].
  Definition info_names : list bytes :=
    [B "BankID"; B "AccountID"; B "UserID"; B "Currency"; B "Name"; B "ProductID"; B "Limit"].
  (** domain/account_information.go:12-42 AccountInfos.String, 56-84 AccountInformation.String *)
  Definition infos_string (l : list info) : bytes :=
    tabulate narrow ([b_nl] ++ tabs info_names ++ [b_nl] ++ flat_map (fun a => tabs (info_cells a) ++ [b_nl]) l).
  Definition info_string (i : info) : bytes :=
    tabulate (mkLayout 20 1 b_space false true) ([b_nl] ++ tabs info_names ++ [b_nl] ++ tabs (info_cells i) ++ [b_nl]).
End Tables.
