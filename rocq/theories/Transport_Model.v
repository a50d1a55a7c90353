(** * Model of the transports and middlewares a PIN/TAN dialog is built from

    encoding/base64 (StdEncoding) of the Go standard library is modelled because
    the middleware is a thin wrapper around its streaming encoder and decoder. *)
From Verif Require Import Base Codec_Model.
Open Scope Z_scope.

(** ** encoding/base64 *)
Definition alphabet : bytes := B "ABCDEFGHIJKLMNOPQRSTUVWXYZabcdefghijklmnopqrstuvwxyz0123456789+/".
Definition b_eq : byte := "="%byte.
(** enc.encode[v] *)
Definition enc6 (v : Z) : byte := nth (Z.to_nat v) alphabet b_eq.
(** enc.decodeMap[c], None for 0xFF *)
Definition dec6 (c : byte) : option Z :=
  let z := zb c in
  if (65 <=? z) && (z <=? 90) then Some (z - 65)
  else if (97 <=? z) && (z <=? 122) then Some (z - 71)
  else if (48 <=? z) && (z <=? 57) then Some (z + 4)
  else if z =? 43 then Some 62
  else if z =? 47 then Some 63
  else None.

(** Encoding.Encode: three bytes become four characters, the rest is padded. *)
Fixpoint b64_encode (s : bytes) : bytes :=
  match s with
  | a :: b :: c :: r =>
      let v := zb a * 65536 + zb b * 256 + zb c in
      enc6 (v / 262144) :: enc6 (v / 4096 mod 64) :: enc6 (v / 64 mod 64) :: enc6 (v mod 64) :: b64_encode r
  | [a; b] =>
      let v := zb a * 65536 + zb b * 256 in
      [enc6 (v / 262144); enc6 (v / 4096 mod 64); enc6 (v / 64 mod 64); b_eq]
  | [a] =>
      let v := zb a * 65536 in
      [enc6 (v / 262144); enc6 (v / 4096 mod 64); b_eq; b_eq]
  | [] => []
  end.

(** base64.NewEncoder: bytes not yet encoded (at most two) and the output. *)
Record encoder := mkEncoder { en_pending : bytes; en_out : bytes }.
(** encoder.Write.  Simplification: the real one first completes the pending
    bytes and then encodes the rest in pieces of at most 768 bytes. *)
Definition encoder_write (e : encoder) (chunk : bytes) : encoder :=
  let all := en_pending e ++ chunk in
  let n := (List.length all / 3 * 3)%nat in
  mkEncoder (skipn n all) (en_out e ++ b64_encode (firstn n all)).
(** encoder.Close *)
Definition encoder_close (e : encoder) : bytes := en_out e ++ b64_encode (en_pending e).

(** Encoding.Decode / decodeQuantum on text without line breaks.  The data before
    the first error, and whether there was none.  The bits that the last
    character of a padded group has too many are ignored (not Strict).  Data
    after the padding is an error, but the padded group has been decoded. *)
Fixpoint b64_decode (s : bytes) : bytes * bool :=
  match s with
  | [] => ([], true)
  | c1 :: c2 :: c3 :: c4 :: r =>
      match dec6 c1, dec6 c2 with
      | Some a, Some b =>
          match dec6 c3 with
          | Some c =>
              match dec6 c4 with
              | Some d =>
                  let v := a * 262144 + b * 4096 + c * 64 + d in
                  let (x, ok) := b64_decode r in
                  (byte_of_Z (v / 65536) :: byte_of_Z (v / 256 mod 256) :: byte_of_Z (v mod 256) :: x, ok)
              | None =>
                  if beq c4 b_eq then
                    let v := a * 262144 + b * 4096 + c * 64 in
                    ([byte_of_Z (v / 65536); byte_of_Z (v / 256 mod 256)], match r with [] => true | _ => false end)
                  else ([], false)
              end
          | None =>
              if beq c3 b_eq && beq c4 b_eq then
                let v := a * 262144 + b * 4096 in
                ([byte_of_Z (v / 65536)], match r with [] => true | _ => false end)
              else ([], false)
          end
      | _, _ => ([], false)
      end
  | _ => ([], false)
  end.

(** newlineFilteringReader *)
Definition strip_newlines (s : bytes) : bytes :=
  filter (fun c => negb (beq c b_cr || beq c b_lf)) s.

(** decoder.Read until the end.  How many groups of four each Read decodes
    depends on the buffers and on the network: [cuts] lists it (one less than the
    number); at the end of the list the rest is decoded at once. *)
Fixpoint decode_reads (cuts : list nat) (s : bytes) : bytes * bool :=
  if (List.length s <? 4)%nat then ([], match s with [] => true | _ => false end)
  else
    let whole := (List.length s / 4 * 4)%nat in
    match cuts with
    | [] =>
        let (d, ok) := b64_decode (firstn whole s) in
        (d, ok && match skipn whole s with [] => true | _ => false end)
    | k :: cuts' =>
        let n := Nat.min (4 * S k) whole in
        let (d, ok) := b64_decode (firstn n s) in
        if ok then let (d', ok') := decode_reads cuts' (skipn n s) in (d ++ d', ok')
        else (d, false)
    end.
(** io.ReadAll of base64.NewDecoder(StdEncoding, body) *)
Definition decoder_read_all (cuts : list nat) (body : bytes) : bytes * bool :=
  decode_reads cuts (strip_newlines body).

(** ** Transports *)

(** A response body is read once; the reader yields bytes and may end in an
    error: the bytes and whether there was none. *)
Definition body := (bytes * bool)%type.
(** transport/transport.go:14-16: a transport takes the URL and the whole request
    body.  Simplification: the request body is given as the list of the pieces
    io.Copy reads, its reader does not fail, and a response is its body. *)
Definition transport := bytes -> list bytes -> outcome body.

(** transport/middleware/encoding.go:46-71 Base64Encoding *)
Definition base64_encoding (cuts : list nat) (t : transport) : transport :=
  fun url chunks =>
    let encoded := encoder_close (fold_left encoder_write chunks (mkEncoder [] [])) in
    do resp <- t url [encoded];
    let (data, ok) := decoder_read_all cuts (fst resp) in
    Ok (data, ok && snd resp).

(** transport/middleware/logging.go:19-55 Logging: both bodies are read to the
    end and replaced by what was read; an error while reading is only logged.
    What is written to the log, and that it takes the messages apart for this, is in
    Log_Model. *)
Definition logging (t : transport) : transport :=
  fun url chunks =>
    do resp <- t url [List.concat chunks];
    Ok (fst resp, true).

(** What an HTTP server answers to a POST: a status and a body, or no answer. *)
Definition server := bytes -> bytes -> outcome (Z * body).
(** transport/https/https.go:82-92 HTTPSTransport.Do *)
Definition https_do (s : server) : transport :=
  fun url chunks => do r <- s url (List.concat chunks); Ok (snd r).
(** transport/https/https.go:36-61 HTTPSBase64Transport.Do *)
Definition https_base64_do (cuts : list nat) (s : server) : transport :=
  fun url chunks =>
    let encoded := encoder_close (fold_left encoder_write chunks (mkEncoder [] [])) in
    do r <- s url encoded;
    if fst r =? 200 then
      let (data, ok) := decoder_read_all cuts (fst (snd r)) in Ok (data, ok && snd (snd r))
    else Ok (snd r).

(** dialog/pin_tan_dialog.go:46-55 the transport of a dialog *)
Definition dialog_transport (cuts : list nat) (configured : option transport) (s : server) : transport :=
  let t := match configured with None => https_do s | Some t => t end in
  logging (base64_encoding cuts t).

(** dialog/dialog.go:594-606 and transport/transport.go:46-65: the request is
    sent, and the response body is read to the end; an error of the reader is
    returned.  The extraction of the segments is not part of this model. *)
Definition exchange (t : transport) (url request : bytes) : outcome bytes :=
  do resp <- t url [request];
  if snd resp then Ok (fst resp) else Err.
