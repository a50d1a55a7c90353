(** * The middleware for other character sets

    transport/middleware/encoding.go:13-39 UTF8Encoding, with the encoding
    charmap.ISO8859_1 of golang.org/x/text (the one charset/convert.go uses) and the
    transform.Writer and transform.Reader between it and the bodies.  Simplification: the
    buffers of the writer are as large as needed. *)
From Verif Require Import Base Codec_Model Mt940_Model Transport_Model.
Open Scope Z_scope.

(** utf8.FullRune: the bytes begin with a character or with something no more bytes can
    make one. *)
Definition rune_size (a : byte) : nat :=
  if in_range 194 223 a then 2 else if in_range 224 239 a then 3 else if in_range 240 244 a then 4 else 1.
Definition second_ok (a b : byte) : bool :=
  if zb a =? 224 then in_range 160 191 b
  else if zb a =? 237 then in_range 128 159 b
  else if zb a =? 240 then in_range 144 191 b
  else if zb a =? 244 then in_range 128 143 b
  else in_range 128 191 b.
Definition full_rune (s : bytes) : bool :=
  match s with
  | [] => false
  | a :: t =>
      if Nat.leb (rune_size a) (List.length s) then true
      else match t with
           | [] => false
           | b :: t2 =>
               if negb (second_ok a b) then true
               else match t2 with
                    | [] => false
                    | c :: _ => negb (is_cont c)
                    end
           end
  end.

(** What the encoder of charmap.ISO8859_1 makes of the bytes at hand: characters up to
    U+00FF are one byte each; it stops before a character that may not be complete, and
    with an error at any other ([None]). *)
Fixpoint latin1_transform (fuel : nat) (s : bytes) : option (bytes * bytes) :=
  match fuel, s with
  | S f, a :: _ =>
      match decode_rune s with
      | None => Some ([], s)
      | Some r =>
          if (r_code r =? 65533) && Nat.eqb (r_width r) 1 && negb (full_rune s) then Some ([], s)
          else if (r_code r <=? 255) then
            match latin1_transform f (skipn (r_width r) s) with
            | Some (out, rest) => Some (byte_of_Z (r_code r) :: out, rest)
            | None => None
            end
          else None
      end
  | _, _ => Some ([], s)
  end.
(** transform.Writer.Write: the bytes that were not encoded yet come before the new ones. *)
Record latin1_writer := mkLatin1 { lw_pending : bytes; lw_out : bytes }.
Definition latin1_write (w : latin1_writer) (chunk : bytes) : option latin1_writer :=
  let s := lw_pending w ++ chunk in
  match latin1_transform (List.length s) s with
  | Some (out, rest) => Some (mkLatin1 rest (lw_out w ++ out))
  | None => None
  end.
(** io.Copy: one Write for every piece read; the first error ends it *)
Fixpoint latin1_copy (w : latin1_writer) (chunks : list bytes) : option latin1_writer :=
  match chunks with
  | [] => Some w
  | c :: cs => match latin1_write w c with Some w' => latin1_copy w' cs | None => None end
  end.

(** transport/middleware/encoding.go:18-39 UTF8Encoding(charmap.ISO8859_1).  The writer is
    not closed.  The decoder turns every byte of the answer into a character, so pieces do
    not matter; an error of the answer's reader comes after the data. *)
Definition utf8_encoding (t : transport) : transport :=
  fun url chunks =>
    match latin1_copy (mkLatin1 [] []) chunks with
    | None => Err
    | Some w => do resp <- t url [lw_out w]; Ok (to_utf8 (fst resp), snd resp)
    end.
