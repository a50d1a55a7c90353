(** * RSA and ISO 9796-1 padding: crypto/rsa.go and crypto/iso9796_encoding.go

    [*big.Int] values are integers.  A key has a positive modulus and an exponent that is
    not negative (the theorems say so); nil numbers in a key are not modelled.  Slices are
    taken to have no spare capacity, so [s[a:b]] needs [b <= len(s)]. *)
From Verif Require Import Base.
Open Scope Z_scope.

(** ** math/big and slices *)

(** Go's conversion [byte(z)] *)
Definition bz (z : Z) : byte := match Byte.of_N (Z.to_N (z mod 256)) with Some b => b | None => b_nul end.

Definition len (l : bytes) : Z := Z.of_nat (List.length l).

(** [new(big.Int).SetBytes(l)] *)
Definition set_bytes (l : bytes) : Z := fold_left (fun v b => v * 256 + zb b) l 0.

(** [x.BitLen()] for [x >= 0] *)
Definition bit_len (x : Z) : Z := if x <=? 0 then 0 else Z.log2 x + 1.

(** [x.Bytes()] for [x >= 0]: big-endian, without leading zeros *)
Fixpoint digits (fuel : nat) (x : Z) (acc : bytes) : bytes :=
  match fuel with
  | O => acc
  | S f => if x <=? 0 then acc else digits f (x / 256) (bz x :: acc)
  end.
Definition big_bytes (x : Z) : bytes := digits (Z.to_nat (bit_len x)) x [].

(** [l[i]] *)
Definition get (l : bytes) (i : Z) : outcome byte :=
  if i <? 0 then Panic else match nth_error l (Z.to_nat i) with Some b => Ok b | None => Panic end.

(** [l[i] = v] *)
Definition put (l : bytes) (i : Z) (v : byte) : outcome bytes :=
  if (0 <=? i) && (i <? len l)
  then Ok (firstn (Z.to_nat i) l ++ v :: skipn (S (Z.to_nat i)) l)
  else Panic.

(** [l[a:b]] *)
Definition slice (l : bytes) (a b : Z) : outcome bytes :=
  if (0 <=? a) && (a <=? b) && (b <=? len l)
  then Ok (firstn (Z.to_nat (b - a)) (skipn (Z.to_nat a) l))
  else Panic.

(** arrayCopy, crypto/iso9796_encoding.go:224-226, with the Go [copy] it calls; the result
    is the new contents of [dst] *)
Definition array_copy (src : bytes) (src_off : Z) (dst : bytes) (dst_off length' : Z) : outcome bytes :=
  do d <- slice dst dst_off (len dst);
  do s <- slice src src_off (src_off + length');
  Ok (firstn (Z.to_nat dst_off) dst ++ firstn (List.length d) s ++ skipn (List.length s) d).

(** ** RSA: crypto/rsa.go *)

(** RSAKeyParameters: NewRSAKeyParameters, crypto/rsa.go:14-30, and
    NewRSAPrivateCrtKeyParameters, crypto/rsa.go:32-67 *)
Inductive key : Type :=
| Plain (private : bool) (modulus exponent : Z)
| Crt (modulus e d p q dP dQ qInv : Z).

(** Modulus, crypto/rsa.go:28 *)
Definition modulus_of (k : key) : Z := match k with Plain _ n _ => n | Crt n _ _ _ _ _ _ _ => n end.

(** RSACoreEngine after Init, crypto/rsa.go:91-99 *)
Record core : Type := mkCore { c_key : key; c_enc : bool }.

(** RSAEngine, crypto/rsa.go:69-78: no core before Init *)
Definition engine := option core.
Definition engine_init (enc : bool) (k : key) (_ : engine) : engine := Some (mkCore k enc).

(** InputBlockSize, crypto/rsa.go:101-108 *)
Definition input_block_size (c : core) : Z :=
  let s := bit_len (modulus_of (c_key c)) in
  if c_enc c then (s + 7) / 8 - 1 else (s + 7) / 8.
(** OutputBlockSize, crypto/rsa.go:110-117 *)
Definition output_block_size (c : core) : Z :=
  let s := bit_len (modulus_of (c_key c)) in
  if c_enc c then (s + 7) / 8 else (s + 7) / 8 - 1.

(** ConvertInput, crypto/rsa.go:119-141 *)
Definition convert_input (c : core) (inp : bytes) (off n : Z) : outcome Z :=
  if input_block_size c + 1 <? n then Panic
  else if (n =? input_block_size c + 1) && negb (c_enc c) then Panic
  else
    do block <- (if negb (off =? 0) || negb (n =? len inp)
                 then if n <? 0 then Panic else array_copy inp off (repeat b_nul (Z.to_nat n)) 0 n
                 else Ok inp);
    let res := Z.abs (set_bytes block) in
    if modulus_of (c_key c) <=? res then Panic else Ok res.

(** ConvertOutput, crypto/rsa.go:143-177.  [output[0]] is read first in both branches. *)
Definition convert_output (c : core) (result : Z) : outcome bytes :=
  let output := big_bytes result in
  do b0 <- get output 0;
  let drop := array_copy output 1 (repeat b_nul (List.length output - 1)) 0 (len output - 1) in
  if c_enc c then
    if beq b0 b_nul && (output_block_size c <? len output) then drop
    else if len output <? output_block_size c
    then array_copy output 0 (repeat b_nul (Z.to_nat (output_block_size c)))
           (output_block_size c - len output) (len output)
    else Ok output
  else if beq b0 b_nul then drop else Ok output.

(** RSACoreEngine.ProcessBlock, crypto/rsa.go:179-214.  With a CRT key the first
    [mP.Exp(...)] is called on a nil [*big.Int] and writes through it. *)
Definition core_process (k : key) (x : Z) : outcome Z :=
  match k with
  | Crt _ _ _ _ _ _ _ _ => Panic
  | Plain _ n e => Ok (x ^ e mod n)
  end.

(** RSAEngine.ProcessBlock, crypto/rsa.go:80-85 *)
Definition engine_process (g : engine) (inp : bytes) (off n : Z) : outcome bytes :=
  match g with
  | None => Panic
  | Some c =>
      do x <- convert_input c inp off n;
      do y <- core_process (c_key c) x;
      convert_output c y
  end.

(** ** ISO 9796-1 padding: crypto/iso9796_encoding.go *)

(** shadows and inverse, crypto/iso9796_encoding.go:18-21 *)
Definition shadows : list Z := [14; 3; 5; 8; 9; 4; 2; 15; 0; 13; 11; 6; 7; 10; 12; 1].
Definition inverse : list Z := [8; 15; 6; 1; 5; 2; 11; 12; 3; 4; 13; 10; 14; 9; 0; 7].
Definition shadow (x : Z) : Z := nth (Z.to_nat x) shadows 0.
Definition unshadow (x : Z) : Z := nth (Z.to_nat x) inverse 0.

(** [(shadows[(val&0xff)>>4] << 4) | shadows[val&0x0f]], crypto/iso9796_encoding.go:131,181,187 *)
Definition shadow_byte (v : byte) : byte :=
  bz (Z.lor (Z.shiftl (shadow (Z.shiftr (zb v) 4)) 4) (shadow (Z.land (zb v) 15))).

(** ISO9796d1Encoding, crypto/iso9796_encoding.go:31-37, over an RSAEngine *)
Record encoding : Type := mkEncoding {
  i_bits : Z; i_pad : Z; i_modulus : Z; i_engine : engine; i_enc : bool }.
(** NewISO9796d1Encoding, crypto/iso9796_encoding.go:39-41 *)
Definition new_encoding (g : engine) : encoding := mkEncoding 0 0 0 g false.
(** Init, crypto/iso9796_encoding.go:47-52 *)
Definition iso_init (enc : bool) (k : key) (i : encoding) : encoding :=
  mkEncoding (bit_len (modulus_of k)) (i_pad i) (modulus_of k) (engine_init enc k (i_engine i)) enc.
(** SetPadBits, crypto/iso9796_encoding.go:90-96 *)
Definition set_pad_bits (n : Z) (i : encoding) : outcome encoding :=
  if 7 <? n then Panic else Ok (mkEncoding (i_bits i) n (i_modulus i) (i_engine i) (i_enc i)).
(** InputBlockSize and OutputBlockSize, crypto/iso9796_encoding.go:63-84 *)
Definition iso_input_block_size (i : encoding) : outcome Z :=
  match i_engine i with
  | None => Panic
  | Some c => Ok (if i_enc i then (input_block_size c + 1) / 2 else input_block_size c)
  end.
Definition iso_output_block_size (i : encoding) : outcome Z :=
  match i_engine i with
  | None => Panic
  | Some c => Ok (if i_enc i then output_block_size c else (output_block_size c + 1) / 2)
  end.

(** First loop of encodeBlock, crypto/iso9796_encoding.go:119-127: [i] runs from 0 in steps
    of [z] while it is less than [t].  [None]: the loop never ends. *)
Fixpoint fill (fuel : nat) (inp : bytes) (off z t i : Z) (block : bytes) : option (outcome bytes) :=
  if i <? t then
    match fuel with
    | O => None
    | S f =>
        match (if t - z <? i
               then array_copy inp (off + z - (t - i)) block (len block - t) (t - i)
               else array_copy inp off block (len block - (i + z)) z) with
        | Ok block' => fill f inp off z t (i + z) block'
        | Err => Some Err
        | Panic => Some Panic
        end
    end
  else Some (Ok block).

(** Second loop of encodeBlock, crypto/iso9796_encoding.go:129-133: [n] more rounds; it ends
    after [t] rounds because it starts at [len(block)-2*t], counts by two and ends at
    [len(block)]. *)
Fixpoint spread (n : nat) (t i : Z) (block : bytes) : outcome bytes :=
  match n with
  | O => Ok block
  | S n' =>
      do v <- get block (len block - t + Z.quot i 2);
      do b1 <- put block i (shadow_byte v);
      do b2 <- put b1 (i + 1) v;
      spread n' t (i + 2) b2
  end.

(** The rest of encodeBlock up to the call of the cipher, crypto/iso9796_encoding.go:135-147:
    the block and the offset given to the cipher *)
Definition force (bits z r : Z) (block : bytes) : outcome (bytes * Z) :=
  let l := len block in
  do b <- get block (l - 2 * z);
  do block <- put block (l - 2 * z) (bz (Z.lxor (zb b) (r mod 256)));
  do b <- get block (l - 1);
  do block <- put block (l - 1) (bz (Z.lor (Z.shiftl (zb b) 4 mod 256) 6));
  let max_bit := 8 - Z.rem (bits - 1) 8 in
  if negb (max_bit =? 8) then
    do b <- get block 0;
    do block <- put block 0 (bz (Z.lor (Z.land (zb b) (Z.shiftr 255 max_bit)) (Z.shiftr 128 max_bit)));
    Ok (block, 0)
  else
    do block <- put block 0 b_nul;
    do b <- get block 1;
    do block <- put block 1 (bz (Z.lor (zb b) 128));
    Ok (block, 1).

(** encodeBlock, crypto/iso9796_encoding.go:113-150; [None]: it never returns *)
Definition encode_block (i : encoding) (inp : bytes) (off z : Z) : option (outcome bytes) :=
  let block := repeat b_nul (Z.to_nat ((i_bits i + 7) / 8)) in
  let r := i_pad i + 1 in
  let t := (i_bits i + 13) / 16 in
  match fill (Z.to_nat t) inp off z t 0 block with
  | None => None
  | Some o => Some (
      do block <- o;
      do block <- spread (Z.to_nat t) t (len block - 2 * t) block;
      do (block, o) <- force (i_bits i) z r block;
      engine_process (i_engine i) block o (len block - o))
  end.

(** convertOutputDecryptOnly, crypto/iso9796_encoding.go:213-222 *)
Definition decrypt_only (result : Z) : outcome bytes :=
  let output := big_bytes result in
  do b0 <- get output 0;
  if beq b0 b_nul then array_copy output 1 (repeat b_nul (List.length output - 1)) 0 (len output - 1) else Ok output.

(** The loop of decodeBlock that looks for the boundary, crypto/iso9796_encoding.go:186-198,
    with its condition as written, [i < len(block)-2*t].  [found]: the boundary and [r].
    [fuel]: [i] decreases, and a negative index panics, so [length block] rounds are
    enough. *)
Fixpoint boundary_loop (fuel : nat) (t i : Z) (block : bytes) (found : option (Z * Z)) : outcome (option (Z * Z)) :=
  if i <? len block - 2 * t then
    do b <- get block i;
    do a <- get block (i - 1);
    let x := Z.lxor (zb a) (zb (shadow_byte b)) in
    match fuel with
    | O => Panic
    | S f =>
        if x =? 0 then boundary_loop f t (i - 2) block found
        else match found with
             | None => boundary_loop f t (i - 2) block (Some (i - 1, x))
             | Some _ => Err
             end
    end
  else Ok found.

(** [nblock[i] = block[2*i+boundary+1]] for the next [n] indices,
    crypto/iso9796_encoding.go:202-206 *)
Fixpoint gather (n : nat) (j boundary : Z) (block : bytes) : outcome bytes :=
  match n with
  | O => Ok []
  | S n' =>
      do b <- get block (2 * j + boundary + 1);
      do r <- gather n' (j + 1) boundary block;
      Ok (b :: r)
  end.

(** decodeBlock, crypto/iso9796_encoding.go:156-211: the message, and the new [padBits].
    [iR.Sub(i.modulus, iS)] is called on a nil [*big.Int]. *)
Definition decode_block (i : encoding) (inp : bytes) (off n : Z) : outcome (bytes * Z) :=
  do block <- engine_process (i_engine i) inp off n;
  let t := (i_bits i + 13) / 16 in
  let iS := set_bytes block in
  do iR <- (if iS mod 16 =? 6 then Ok iS
            else if (i_modulus i - iS) mod 16 =? 6 then Panic
            else Err);
  do block <- decrypt_only iR;
  let l := len block in
  do last <- get block (l - 1);
  if negb (Z.land (zb last) 15 =? 6) then Err
  else
    do before <- get block (l - 2);
    do block <- put block (l - 1)
                 (bz (Z.lor (Z.shiftr (zb last) 4) (Z.shiftl (unshadow (Z.shiftr (zb before) 4)) 4)));
    do second <- get block 1;
    do block <- put block 0 (shadow_byte second);
    do found <- boundary_loop (List.length block) t (l - 1) block None;
    let '(boundary, r) := match found with Some p => p | None => (0, 1) end in
    do block <- put block boundary b_nul;
    do nblock <- gather (Z.to_nat ((l - boundary) / 2)) 0 boundary block;
    Ok (nblock, r - 1).

(** ProcessBlock, crypto/iso9796_encoding.go:105-111: the encoding afterwards and what is
    returned; [None]: it never returns *)
Definition iso_process (i : encoding) (inp : bytes) (off n : Z) : option (outcome (encoding * bytes)) :=
  if i_enc i then option_map (omap (fun b => (i, b))) (encode_block i inp off n)
  else Some (omap (fun '(b, p) => (mkEncoding (i_bits i) p (i_modulus i) (i_engine i) (i_enc i), b))
               (decode_block i inp off n)).
