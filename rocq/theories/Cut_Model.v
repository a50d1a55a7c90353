(** * The syntax errors of SWIFT messages

    swift/message_extractor.go:46-56 SyntaxError, and the texts of the errors of
    token/swift_lexer.go, which [Swift_Model.v] leaves out. *)
From Verif Require Import Base Lexer_Model Swift_Model.
Open Scope Z_scope.

(** The text of the error a state function returns at a position if it returns one:
    token/swift_lexer.go:33, 40, 47, 77, 87, 119, 138, 158.  The states that return none
    are lexSwiftStart and lexSwiftDigit. *)
Definition sw_text (inp : bytes) (k : sstate) (pos : Z) : bytes :=
  match k with
  | SwEntry => B "Malformed swift dataset"
  | SwTag =>
      match l_accept inp (beq b_colon) pos with
      | Ok (_, p0) =>
          match l_accept inp is_digit p0 with
          | Ok (false, _) => B "malformed swift tag identifier: must start with a digit"
          | _ => B "malformed swift tag identifier: must be enclodes by ':'"
          end
      | _ => []
      end
  | SwSymbol =>
      match l_accept inp (beq b_cr) pos with
      | Ok (true, p1) =>
          match l_accept inp (beq b_lf) p1 with
          | Ok (true, _) => B "unexpected end of input"
          | _ => B "Malformed syntax symbol"
          end
      | _ => B "Malformed syntax symbol"
      end
  | SwAlpha | SwCharacter | SwAlnum => B "unexpected end of input"
  | SwStart | SwDigit => []
  end.
(** The ERROR token the lexer ends with, with the text of its state: position and value. *)
Fixpoint sw_failure (inp : bytes) (fuel : nat) (k : sstate) (start pos : Z) : option (Z * bytes) :=
  match fuel with
  | O => None
  | S f =>
      match sw_step inp k start pos with
      | LEmit _ k' s' p' | LGoto k' s' p' => sw_failure inp f k' s' p'
      | LDone t => if ttype_eqb (tok_type t) T_ERROR then Some (tok_pos t, sw_text inp k pos) else None
      | _ => None
      end
  end.
(** swift/message_extractor.go:27-33: the SyntaxError Extract returns, if any *)
Definition syntax_error (inp : bytes) : option (Z * bytes) := sw_failure inp (swift_fuel inp) SwEntry 0 0.
(** token/swift_lexer.go:9-14 and swift/message_extractor.go:54-56 IsUnexpectedEndOfInput *)
Definition is_unexpected_end (e : Z * bytes) : bool := bytes_eqb (snd e) (B "unexpected end of input").
(** swift/message_extractor.go:50-52 Error; [quote] is the verb %q of package fmt *)
Definition syntax_error_text (quote : bytes -> bytes) (inp : bytes) (e : Z * bytes) : bytes :=
  B "syntax error at position " ++ itoa (fst e) ++ B ": " ++ quote (snd e) ++ [b_lf] ++ B "(" ++ quote inp ++ B ")".
