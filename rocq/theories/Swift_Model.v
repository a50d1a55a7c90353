(** * The SWIFT lexer and the extractors built on it

    token/swift_lexer.go, swift/tag_extractor.go, swift/message_extractor.go.  The
    primitives next, backup, peek, accept, acceptRun, emit and errorf are those of
    token/lexer.go in Lexer_Model.v.  Error texts are not modelled. *)
From Verif Require Import Base Lexer_Model.
Open Scope Z_scope.

Definition b_dash : byte := "-"%byte.
Definition is_capital (b : byte) : bool := (65 <=? zb b) && (zb b <=? 90).

(** The state functions. *)
Inductive sstate := SwEntry | SwTag | SwStart | SwSymbol | SwDigit | SwAlpha | SwCharacter | SwAlnum.

(** lexSwiftEntryPoint, token/swift_lexer.go:28-34 *)
Definition sw_entry (inp : bytes) (start pos : Z) : lres sstate :=
  match l_accept inp (beq b_cr) pos with
  | Ok (true, p1) =>
      match l_accept inp (beq b_lf) p1 with
      | Ok (true, p2) => l_emit inp TS_DATASET_START SwTag start p2
      | Ok (false, _) => l_errorf start
      | _ => LPanic
      end
  | Ok (false, _) => l_errorf start
  | _ => LPanic
  end.

(** lexTagID, token/swift_lexer.go:36-51 *)
Definition sw_tag (inp : bytes) (start pos : Z) : lres sstate :=
  match l_accept inp (beq b_colon) pos with
  | Ok (_, p0) =>
      match l_accept inp is_digit p0 with
      | Ok (true, p1) =>
          match l_accept_run (loop_fuel inp) inp is_digit p1 with
          | Some (Ok p2) =>
              match l_peek inp p2 with
              | Ok (c, p3) =>
                  match (if is_capital c then l_next inp p3 else Ok (c, p3)) with
                  | Ok (_, p4) =>
                      match l_accept inp (beq b_colon) p4 with
                      | Ok (true, p5) => l_emit inp TS_TAG SwStart start p5
                      | Ok (false, _) => l_errorf start
                      | _ => LPanic
                      end
                  | _ => LPanic
                  end
              | _ => LPanic
              end
          | None => LFuel
          | _ => LPanic
          end
      | Ok (false, _) => l_errorf start
      | _ => LPanic
      end
  | _ => LPanic
  end.

(** lexSwiftStart, token/swift_lexer.go:53-70 *)
Definition sw_start (inp : bytes) (start pos : Z) : lres sstate :=
  match l_next inp pos with
  | Ok (r, p) =>
      if is_digit r then LGoto SwDigit start p
      else if is_capital r then LGoto SwAlpha start p
      else if beq r b_cr then LGoto SwSymbol start (l_backup p)
      else if beq r b_nul then l_emit_eof inp start p
      else LGoto SwAlnum start p
  | _ => LPanic
  end.

(** lexSwiftSyntaxSymbol, token/swift_lexer.go:72-88 *)
Definition sw_symbol (inp : bytes) (start pos : Z) : lres sstate :=
  match l_accept inp (beq b_cr) pos with
  | Ok (true, p1) =>
      match l_accept inp (beq b_lf) p1 with
      | Ok (true, p2) =>
          match l_peek inp p2 with
          | Ok (p, p3) =>
              if beq p b_nul then l_errorf start
              else if beq p b_dash then
                match l_next inp p3 with
                | Ok (_, p4) => l_emit inp TS_MESSAGE_SEPARATOR SwStart start p4
                | _ => LPanic
                end
              else l_emit inp TS_TAG_SEPARATOR SwTag start p3
          | _ => LPanic
          end
      | Ok (false, _) => l_errorf start
      | _ => LPanic
      end
  | Ok (false, _) => l_errorf start
  | _ => LPanic
  end.

(** [s.input[s.pos:]]; [None] is a slice-bounds panic. *)
Definition l_rest (inp : bytes) (p : Z) : option bytes := slice inp p (len inp).

(** isTagBoundary, token/swift_lexer.go:166-198.  The position is restored at the end. *)
Definition tag_boundary (inp : bytes) (pos : Z) : outcome bool :=
  match l_accept inp (beq b_cr) pos with
  | Ok (true, p1) =>
      match l_accept inp (beq b_lf) p1 with
      | Ok (true, p2) =>
          match l_rest inp p2 with
          | None => Panic
          | Some t =>
              Ok (has_prefix [b_dash; b_colon] t || has_prefix [b_dash; b_cr; b_lf] t ||
                  (if len t <? 3 then false
                   else has_prefix [b_colon] t && match t with _ :: d :: _ => is_digit d | _ => false end) ||
                  bytes_eqb t [b_dash])
          end
      | Ok (false, _) => Ok false
      | _ => Panic
      end
  | Ok (false, _) => Ok false
  | _ => Panic
  end.

(** lexSwiftDigit, token/swift_lexer.go:90-106 *)
Definition sw_digit (inp : bytes) (start pos : Z) : lres sstate :=
  match l_accept_run (loop_fuel inp) inp is_digit pos with
  | Some (Ok p0) =>
      match l_accept inp (beq b_comma) p0 with
      | Ok (true, p1) =>
          match l_accept_run (loop_fuel inp) inp is_digit p1 with
          | Some (Ok p2) =>
              match l_peek inp p2 with
              | Ok (c, p3) =>
                  if beq c b_cr then l_emit inp TS_DECIMAL SwStart start p3
                  else LGoto SwAlnum start p3
              | _ => LPanic
              end
          | None => LFuel
          | _ => LPanic
          end
      | Ok (false, p1) =>
          match tag_boundary inp p1 with
          | Ok true => l_emit inp TS_NUMERIC SwStart start p1
          | Ok false => LGoto SwCharacter start p1
          | _ => LPanic
          end
      | _ => LPanic
      end
  | None => LFuel
  | _ => LPanic
  end.

(** lexSwiftAlpha, token/swift_lexer.go:108-125 *)
Definition sw_alpha (inp : bytes) (start pos : Z) : lres sstate :=
  match l_next inp pos with
  | Ok (r, p) =>
      if is_capital r then LGoto SwAlpha start p
      else if is_digit r then LGoto SwCharacter start p
      else if beq r b_cr then l_emit inp TS_ALPHA SwStart start (l_backup p)
      else if beq r b_nul then l_errorf start
      else LGoto SwAlnum start p
  | _ => LPanic
  end.

(** lexSwiftCharacter, token/swift_lexer.go:127-144 *)
Definition sw_character (inp : bytes) (start pos : Z) : lres sstate :=
  match l_next inp pos with
  | Ok (r, p) =>
      if is_capital r then LGoto SwCharacter start p
      else if is_digit r then LGoto SwCharacter start p
      else if beq r b_cr then l_emit inp TS_CHARACTER SwStart start (l_backup p)
      else if beq r b_nul then l_errorf start
      else LGoto SwAlnum start p
  | _ => LPanic
  end.

(** lexSwiftAlphaNumeric, token/swift_lexer.go:146-164 *)
Definition sw_alnum (inp : bytes) (start pos : Z) : lres sstate :=
  match l_next inp pos with
  | Ok (r, p) =>
      if beq r b_cr then
        match tag_boundary inp (l_backup p) with
        | Ok true => l_emit inp TS_ALPHANUMERIC SwSymbol start (l_backup p)
        | Ok false =>
            match l_next inp (l_backup p) with
            | Ok (_, p') => LGoto SwAlnum start p'
            | _ => LPanic
            end
        | _ => LPanic
        end
      else if beq r b_nul then l_errorf start
      else LGoto SwAlnum start p
  | _ => LPanic
  end.

Definition sw_step (inp : bytes) (k : sstate) (start pos : Z) : lres sstate :=
  match k with
  | SwEntry => sw_entry inp start pos
  | SwTag => sw_tag inp start pos
  | SwStart => sw_start inp start pos
  | SwSymbol => sw_symbol inp start pos
  | SwDigit => sw_digit inp start pos
  | SwAlpha => sw_alpha inp start pos
  | SwCharacter => sw_character inp start pos
  | SwAlnum => sw_alnum inp start pos
  end.

(** All tokens of [token.NewSwiftLexer(name, inp)] (token/swift_lexer.go:16-21), read by
    [for lexer.HasNext() { lexer.Next() }] (token/lexer.go:63-84).  The fuel is enough
    for every input (C34). *)
Definition swift_fuel (inp : bytes) : nat := (S (List.length inp) * (List.length inp + 8))%nat.
Definition swift_lex (inp : bytes) : list token * lex_end :=
  run_lexer (sw_step inp) (swift_fuel inp) SwEntry 0 0.

(** ** Extractors *)

(** The loop of tagExtractor.Extract, swift/tag_extractor.go:75-94, over the tokens of
    the lexer: an ERROR token is an error, what is still in [current] at the end is not
    returned.  (Each extractor is used once; a second call of Extract on the same object
    would panic in Next.) *)
Fixpoint tags_loop (ts : list token) (current : bytes) (acc : list bytes) : outcome (list bytes) :=
  match ts with
  | [] => Ok acc
  | t :: r =>
      if ttype_eqb (tok_type t) T_ERROR then Err
      else if ttype_eqb (tok_type t) TS_TAG_SEPARATOR || ttype_eqb (tok_type t) TS_MESSAGE_SEPARATOR
      then tags_loop r [] (acc ++ [current])
      else if ttype_eqb (tok_type t) TS_DATASET_START then tags_loop r current acc
      else tags_loop r (current ++ tok_val t) acc
  end.
Definition drained (r : list token * lex_end) {A} (f : list token -> outcome A) : outcome A :=
  match snd r with EndDone => f (fst r) | _ => Panic end.
Definition extract_tags (message : bytes) : outcome (list bytes) :=
  drained (swift_lex message) (fun ts => tags_loop ts [] []).

(** MessageExtractor.Extract, swift/message_extractor.go:27-43 *)
Fixpoint messages_loop (ts : list token) (current : bytes) (acc : list bytes) : outcome (list bytes) :=
  match ts with
  | [] => Ok acc
  | t :: r =>
      if ttype_eqb (tok_type t) T_ERROR then Err
      else if ttype_eqb (tok_type t) TS_MESSAGE_SEPARATOR
      then messages_loop r [] (acc ++ [current ++ tok_val t])
      else messages_loop r (current ++ tok_val t) acc
  end.
Definition extract_messages (data : bytes) : outcome (list bytes) :=
  drained (swift_lex data) (fun ts => messages_loop ts [] []).
