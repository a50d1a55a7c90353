(** * Model of the HBCI lexer, token/token.go and token/lexer.go

    Not modelled: the text of error tokens, the lexer name, token String().
    [read_all] is the loop of every caller ([for lexer.HasNext() { lexer.Next() }])
    over the lexer object with its token channel; [lex] is the same token
    sequence without the channel bookkeeping ([read_all_lex] in the proofs). *)
From Verif Require Import Base.
Open Scope Z_scope.

(** token/token.go:91-116 and token/swift_lexer.go:213-223 (the types that are
    ever emitted). *)
Inductive ttype :=
| T_ERROR | T_EOF
| T_DES            (* DATA_ELEMENT_SEPARATOR '+' *)
| T_GDES           (* GROUP_DATA_ELEMENT_SEPARATOR ':' *)
| T_SEGEND         (* SEGMENT_END_MARKER '\'' *)
| T_BINARY | T_ALNUM | T_TEXT | T_NUMERIC | T_DIGIT | T_FLOAT
| TS_ALPHA | TS_CHARACTER | TS_DECIMAL | TS_NUMERIC | TS_ALPHANUMERIC
| TS_DATASET_START | TS_TAG_SEPARATOR | TS_TAG | TS_MESSAGE_SEPARATOR.

Definition ttype_eqb (a b : ttype) : bool :=
  match a, b with
  | T_ERROR, T_ERROR | T_EOF, T_EOF | T_DES, T_DES | T_GDES, T_GDES
  | T_SEGEND, T_SEGEND | T_BINARY, T_BINARY | T_ALNUM, T_ALNUM | T_TEXT, T_TEXT
  | T_NUMERIC, T_NUMERIC | T_DIGIT, T_DIGIT | T_FLOAT, T_FLOAT
  | TS_ALPHA, TS_ALPHA | TS_CHARACTER, TS_CHARACTER | TS_DECIMAL, TS_DECIMAL
  | TS_NUMERIC, TS_NUMERIC | TS_ALPHANUMERIC, TS_ALPHANUMERIC
  | TS_DATASET_START, TS_DATASET_START | TS_TAG_SEPARATOR, TS_TAG_SEPARATOR
  | TS_TAG, TS_TAG | TS_MESSAGE_SEPARATOR, TS_MESSAGE_SEPARATOR => true
  | _, _ => false
  end.

(** token/token.go:48-52 elementToken.  The value of an ERROR token (the error
    text) is modelled as empty. *)
Record token := mkTok { tok_type : ttype; tok_val : bytes; tok_pos : Z }.

Definition len (inp : bytes) : Z := Z.of_nat (List.length inp).

(** Go index expression [input[p]]; [None] is an index-out-of-range panic. *)
Definition index (inp : bytes) (p : Z) : option byte :=
  if p <? 0 then None else nth_error inp (Z.to_nat p).

(** Go slice expression [input[a:b]]; [None] is a slice-bounds panic.  (Go
    allows b up to the capacity of the slice; the lexer only slices up to
    positions it has read, and the one slice that fails has b < a.) *)
Definition slice (inp : bytes) (a b : Z) : option bytes :=
  if (0 <=? a) && (a <=? b) && (b <=? len inp)
  then Some (firstn (Z.to_nat (b - a)) (skipn (Z.to_nat a) inp))
  else None.

(** 64 bit two's complement wrap-around of Go [int]. *)
Definition wrap64 (z : Z) : Z := (z + 2^63) mod 2^64 - 2^63.

(** token/lexer.go:94-101 [next]: at or behind the end it returns eof (0) and
    does not move; a negative position is an index panic. *)
Definition l_next (inp : bytes) (p : Z) : outcome (byte * Z) :=
  if len inp <=? p then Ok (b_nul, p)
  else match index inp p with
       | Some b => Ok (b, p + 1)
       | None => Panic
       end.

(** token/lexer.go:110-112 [backup] *)
Definition l_backup (p : Z) : Z := p - 1.

(** token/lexer.go:116-120 [peek]; note that at the end of input this moves the
    position one byte back. *)
Definition l_peek (inp : bytes) (p : Z) : outcome (byte * Z) :=
  do (b, p') <- l_next inp p; Ok (b, l_backup p').

(** token/lexer.go:124-130 [accept] *)
Definition l_accept (inp : bytes) (valid : byte -> bool) (p : Z) : outcome (bool * Z) :=
  do (b, p') <- l_next inp p;
  if valid b then Ok (true, p') else Ok (false, l_backup p').

(** token/lexer.go:133-137 [acceptRun].  [None] is out of fuel. *)
Fixpoint l_accept_run (fuel : nat) (inp : bytes) (valid : byte -> bool) (p : Z)
  : option (outcome Z) :=
  match fuel with
  | O => None
  | S f =>
      match l_next inp p with
      | Ok (b, p') => if valid b then l_accept_run f inp valid p' else Some (Ok (l_backup p'))
      | _ => Some Panic
      end
  end.

(** token/lexer.go:282-288 *)
Definition is_delimiter (r : byte) : bool :=
  beq r b_plus || beq r b_quote || beq r b_colon.
Definition is_syntax_symbol (r : byte) : bool :=
  beq r b_plus || beq r b_quote || beq r b_colon || beq r b_qmark || beq r b_at.

(** Result of one state function: it emits at most one token and returns the
    next state function, or nil ([LDone]).  [LPanic]: run time panic.  [LFuel]:
    out of fuel, shown unreachable. *)
Inductive lres (S : Type) :=
| LEmit (t : token) (k : S) (start pos : Z)
| LGoto (k : S) (start pos : Z)
| LDone (t : token)
| LPanic
| LFuel.
Arguments LEmit {S}. Arguments LGoto {S}. Arguments LDone {S}.
Arguments LPanic {S}. Arguments LFuel {S}.

(** token/lexer.go:87-91 [emit] followed by [return k] *)
Definition l_emit {S} (inp : bytes) (t : ttype) (k : S) (start pos : Z) : lres S :=
  match slice inp start pos with
  | Some v => LEmit (mkTok t v start) k pos pos
  | None => LPanic
  end.
(** [emit(EOF); return nil], token/lexer.go:163-166 *)
Definition l_emit_eof {S} (inp : bytes) (start pos : Z) : lres S :=
  match slice inp start pos with
  | Some v => LDone (mkTok T_EOF v start)
  | None => LPanic
  end.
(** token/lexer.go:141-145 [errorf] *)
Definition l_errorf {S} (start : Z) : lres S := LDone (mkTok T_ERROR [] start).

Inductive lstate := StStart | StAlnum | StBinary | StDigit | StNumber.

(** token/lexer.go:149-177 lexStart *)
Definition lex_start (inp : bytes) (start pos : Z) : lres lstate :=
  match l_next inp pos with
  | Ok (r, p) =>
      if beq r b_plus then l_emit inp T_DES StStart start p
      else if beq r b_quote then l_emit inp T_SEGEND StStart start p
      else if beq r b_colon then l_emit inp T_GDES StStart start p
      else if beq r b_at then LGoto StBinary start (l_backup p)
      else if beq r b_nul then l_emit_eof inp start p
      else if beq r b_zero then LGoto StDigit start (l_backup p)
      else if is_digit r then LGoto StNumber start (l_backup p)
      else LGoto StAlnum start (l_backup p)
  | _ => LPanic
  end.

(** token/lexer.go:179-203 lexAlphaNumeric, the [for] loop *)
Fixpoint lex_alnum_loop (fuel : nat) (inp : bytes) (start : Z) (text : bool) (pos : Z)
  : lres lstate :=
  match fuel with
  | O => LFuel
  | S f =>
      match l_next inp pos with
      | Ok (r, p) =>
          if beq r b_qmark then
            match l_peek inp p with
            | Ok (c, p1) =>
                if is_syntax_symbol c then
                  match l_next inp p1 with
                  | Ok (_, p2) => lex_alnum_loop f inp start text p2
                  | _ => LPanic
                  end
                else l_errorf start
            | _ => LPanic
            end
          else if is_delimiter r then
            l_emit inp (if text then T_TEXT else T_ALNUM) StStart start (l_backup p)
          else if beq r b_nul then l_errorf start
          else lex_alnum_loop f inp start (text || beq r b_lf || beq r b_cr) p
      | _ => LPanic
      end
  end.
Definition loop_fuel (inp : bytes) : nat := S (S (List.length inp)).
Definition lex_alnum (inp : bytes) (start pos : Z) : lres lstate :=
  lex_alnum_loop (loop_fuel inp) inp start false pos.

(** token/lexer.go:205-232 lexBinaryData *)
Definition lex_binary (inp : bytes) (start pos : Z) : lres lstate :=
  match l_accept inp (beq b_at) pos with
  | Ok (_, p0) =>
      match l_accept_run (loop_fuel inp) inp is_digit p0 with
      | Some (Ok p1) =>
          if p1 =? p0 then l_errorf start
          else match slice inp p0 p1 with
               | None => LPanic
               | Some ds =>
                   match atoi ds with
                   | Ok length =>
                       match l_accept inp (beq b_at) p1 with
                       | Ok (true, p2) =>
                           match l_peek inp (wrap64 (p2 + length)) with
                           | Ok (p, p3) =>
                               if is_delimiter p then l_emit inp T_BINARY StStart start p3
                               else l_errorf start
                           | _ => LPanic
                           end
                       | Ok (false, _) => l_errorf start
                       | _ => LPanic
                       end
                   | _ => l_errorf start
                   end
               end
      | None => LFuel
      | _ => LPanic
      end
  | _ => LPanic
  end.

(** The tail shared by lexDigit (lines 244-249) and lexNumber (lines 267-272):
    after ',' was accepted, digits and either a FLOAT or free text. *)
Definition lex_fraction (inp : bytes) (start pos : Z) : lres lstate :=
  match l_accept_run (loop_fuel inp) inp is_digit pos with
  | Some (Ok p1) =>
      match l_peek inp p1 with
      | Ok (c, p2) =>
          if is_delimiter c then l_emit inp T_FLOAT StStart start p2
          else LGoto StAlnum start p2
      | _ => LPanic
      end
  | None => LFuel
  | _ => LPanic
  end.

(** token/lexer.go:234-260 lexDigit *)
Definition lex_digit (inp : bytes) (start pos : Z) : lres lstate :=
  match l_accept inp (beq b_zero) pos with
  | Ok (_, p0) =>
      match l_peek inp p0 with
      | Ok (r, p1) =>
          if is_delimiter r then l_emit inp T_NUMERIC StStart start p1
          else
            match l_accept inp (beq b_comma) p1 with
            | Ok (true, p2) => lex_fraction inp start p2
            | Ok (false, p2) =>
                match l_accept_run (loop_fuel inp) inp is_digit p2 with
                | Some (Ok p3) =>
                    match l_peek inp p3 with
                    | Ok (c, p4) =>
                        if beq c b_comma then l_errorf start
                        else match l_peek inp p4 with
                             | Ok (d, p5) =>
                                 if is_delimiter d then l_emit inp T_DIGIT StStart start p5
                                 else LGoto StAlnum start p5
                             | _ => LPanic
                             end
                    | _ => LPanic
                    end
                | None => LFuel
                | _ => LPanic
                end
            | _ => LPanic
            end
      | _ => LPanic
      end
  | _ => LPanic
  end.

(** token/lexer.go:262-280 lexNumber *)
Definition lex_number (inp : bytes) (start pos : Z) : lres lstate :=
  match l_accept_run (loop_fuel inp) inp is_digit pos with
  | Some (Ok p0) =>
      match l_accept inp (beq b_comma) p0 with
      | Ok (true, p1) => lex_fraction inp start p1
      | Ok (false, p1) =>
          match l_peek inp p1 with
          | Ok (c, p2) =>
              if is_delimiter c then l_emit inp T_NUMERIC StStart start p2
              else LGoto StAlnum start p2
          | _ => LPanic
          end
      | _ => LPanic
      end
  | None => LFuel
  | _ => LPanic
  end.

Definition lex_step (inp : bytes) (k : lstate) (start pos : Z) : lres lstate :=
  match k with
  | StStart => lex_start inp start pos
  | StAlnum => lex_alnum inp start pos
  | StBinary => lex_binary inp start pos
  | StDigit => lex_digit inp start pos
  | StNumber => lex_number inp start pos
  end.

(** How a token sequence ends for the caller: [EndDone] - the state function
    became nil, HasNext is false; [EndPanic] - the next call of Next panics. *)
Inductive lex_end := EndDone | EndPanic | EndFuel.

(** token/lexer.go:63-84 [Next] and [HasNext], called until HasNext is false. *)
Fixpoint run_lexer {S} (step : S -> Z -> Z -> lres S) (fuel : nat) (k : S) (start pos : Z)
  : list token * lex_end :=
  match fuel with
  | O => ([], EndFuel)
  | Datatypes.S f =>
      match step k start pos with
      | LEmit t k' s' p' => let '(ts, e) := run_lexer step f k' s' p' in (t :: ts, e)
      | LGoto k' s' p' => run_lexer step f k' s' p'
      | LDone t => ([t], EndDone)
      | LPanic => ([], EndPanic)
      | LFuel => ([], EndFuel)
      end
  end.

(** All tokens of [token.NewLexer(name, inp)], token/lexer.go:23-31. *)
Definition run_fuel (inp : bytes) : nat := (3 * List.length inp + 4)%nat.
Definition lex (inp : bytes) : list token * lex_end :=
  run_lexer (lex_step inp) (run_fuel inp) StStart 0 0.

(** ** The lexer object *)

(** token/lexer.go:33-41 *)
Record lexer := mkLexer {
  lx_chan : list token;       (* buffered tokens *)
  lx_closed : bool;
  lx_state : option lstate;   (* None is the nil state function *)
  lx_start : Z;
  lx_pos : Z }.

(** token/lexer.go:22-30 NewLexer *)
Definition new_lexer : lexer := mkLexer [] false (Some StStart) 0 0.

(** token/lexer.go:82-84 HasNext *)
Definition lx_has_next (x : lexer) : bool :=
  match lx_state x with Some _ => true | None => false end.

(** token/lexer.go:63-79 Next.  The outer [option] is out of fuel. *)
Fixpoint lx_next (fuel : nat) (inp : bytes) (x : lexer) : option (outcome (token * lexer)) :=
  match fuel with
  | O => None
  | S f =>
      match lx_chan x with
      | t :: q => Some (Ok (t, mkLexer q (lx_closed x) (lx_state x) (lx_start x) (lx_pos x)))
      | [] =>
          if lx_closed x then Some Panic                  (* "No items left" *)
          else match lx_state x with
               | None => Some Panic                       (* call of a nil function *)
               | Some k =>
                   match lex_step inp k (lx_start x) (lx_pos x) with
                   | LEmit t k' s' p' => lx_next f inp (mkLexer [t] false (Some k') s' p')
                   | LGoto k' s' p' => lx_next f inp (mkLexer [] false (Some k') s' p')
                   | LDone t => lx_next f inp (mkLexer [t] true None (lx_start x) (lx_pos x))
                   | LPanic => Some Panic
                   | LFuel => None
                   end
               end
      end
  end.

(** [for lexer.HasNext() { ts = append(ts, lexer.Next()) }], e.g.
    message/segment_extractor.go:28-29 *)
Fixpoint lx_drain (fuel : nat) (inp : bytes) (x : lexer) : list token * lex_end :=
  if lx_has_next x then
    match fuel with
    | O => ([], EndFuel)
    | S f =>
        match lx_next (run_fuel inp + 1) inp x with
        | Some (Ok (t, x')) => let '(ts, e) := lx_drain f inp x' in (t :: ts, e)
        | Some _ => ([], EndPanic)
        | None => ([], EndFuel)
        end
    end
  else ([], EndDone).
Definition read_all (inp : bytes) : list token * lex_end :=
  lx_drain (run_fuel inp) inp new_lexer.
