(** * Keys, key management and RSA signatures

    domain/key.go, element/key_management.go, segment/key_management.go, the RSA (RDH)
    provider of message/signature.go, String() of segments, and dialog/rdh_dialog.go.
    Nil [*PublicKey] arguments are not modelled. *)
From Verif Require Import Base Lexer_Model Codec_Model Wire_Model Message_Model Dialog_Model Client_Model Seg_Model
  Request_Model Crypto_Model.
Open Scope Z_scope.

(** ** Key names: domain/key.go:38-78 *)
Record key_name := mkKN {
  kn_bank : bank_ref; kn_user : bytes; kn_type : bytes; kn_number : Z; kn_version : Z }.
(** domain/key.go:39-47 *)
Definition pin_tan_key_name (bank : bank_ref) (user type_ : bytes) : key_name := mkKN bank user type_ 0 0.
(** domain/key.go:50-58, with the constants of 28-29 *)
Definition initial_key_name (country : Z) (bank user type_ : bytes) : key_name :=
  mkKN (mkBank country bank) user type_ 999 999.
(** domain/key.go:70-72 *)
Definition is_initial (k : key_name) : bool := (kn_number k =? 999) && (kn_version k =? 999).
(** domain/key.go:75-78 *)
Definition set_initial (k : key_name) : key_name := mkKN (kn_bank k) (kn_user k) (kn_type k) 999 999.
Definition with_number (n : Z) (k : key_name) : key_name := mkKN (kn_bank k) (kn_user k) (kn_type k) n (kn_version k).
Definition with_key_version (v : Z) (k : key_name) : key_name := mkKN (kn_bank k) (kn_user k) (kn_type k) (kn_number k) v.

(** ** RSA keys of crypto/rsa *)

(** An rsa.PrivateKey: modulus, public and private exponent *)
Record private_key := mkPriv { pr_modulus : Z; pr_public : Z; pr_private : Z }.
(** domain/key.go:211-217; an rsa.PublicKey is a modulus and an exponent, nil pointers
    are [None] *)
Record public_key := mkPub {
  pk_type : bytes; pk_modulus : bytes; pk_exponent : bytes;
  pk_sign : option private_key; pk_encrypt : option (Z * Z) }.

(** Go's conversion of [big.Int.Int64()]: the low 64 bits in two's complement *)
Definition to_int64 (x : Z) : Z := let y := x mod 2 ^ 64 in if y <? 2 ^ 63 then y else y - 2 ^ 64.

(** domain/key.go:143-155 GenerateSigningKey, for the key rsa.GenerateKey returned *)
Definition generated_key (k : private_key) : public_key :=
  mkPub (B "S") (big_bytes (pr_modulus k)) (big_bytes (pr_public k)) (Some k) None.
(** domain/key.go:194-208 NewEncryptionKey; [copy] into the nil slices Modulus and
    Exponent copies nothing *)
Definition new_encryption_key (modulus exponent : bytes) : public_key :=
  mkPub (B "V") [] [] None (Some (set_bytes modulus, to_int64 (set_bytes exponent))).

(** [big.Int.FillBytes] of a buffer of [n] bytes, for a number that fits *)
Definition fill_bytes (n x : Z) : bytes :=
  let b := big_bytes x in repeat b_nul (Z.to_nat (n - len b)) ++ b.
(** [(pub.N.BitLen() + 7) / 8] of crypto/rsa *)
Definition size_of (modulus : Z) : Z := (bit_len modulus + 7) / 8.

(** crypto/rsa SignPKCS1v15 with hash 0 (domain/key.go:226), with the check of the
    result in decryptAndCheck *)
Definition pkcs1_sign (k : private_key) (m : bytes) : outcome bytes :=
  let n := size_of (pr_modulus k) in
  if n <? len m + 11 then Err
  else
    let em := set_bytes ([b_nul; bz 1] ++ repeat (bz 255) (Z.to_nat (n - len m - 3)) ++ [b_nul] ++ m) in
    if pr_modulus k <? em then Err
    else
      let s := em ^ pr_private k mod pr_modulus k in
      if s ^ pr_public k mod pr_modulus k =? em then Ok (fill_bytes n s) else Err.
(** crypto/rsa EncryptPKCS1v15 (domain/key.go:231) with checkPub; [random n]: [n] bytes
    that are not zero from rand.Reader, or its error *)
Definition pkcs1_encrypt (random : nat -> outcome bytes) (k : Z * Z) (m : bytes) : outcome bytes :=
  let '(modulus, e) := k in
  if (e <? 2) || (2 ^ 31 - 1 <? e) then Err
  else
    let n := size_of modulus in
    if n - 11 <? len m then Err
    else
      do ps <- random (Z.to_nat (n - len m - 3));
      Ok (fill_bytes n (set_bytes ([b_nul; bz 2] ++ ps ++ [b_nul] ++ m) ^ e mod modulus)).
(** domain/key.go:225-232; crypto/rsa dereferences the nil key *)
Definition public_key_sign (k : public_key) (m : bytes) : outcome bytes :=
  match pk_sign k with Some p => pkcs1_sign p m | None => Panic end.
Definition public_key_encrypt (random : nat -> outcome bytes) (k : public_key) (m : bytes) : outcome bytes :=
  match pk_encrypt k with Some p => pkcs1_encrypt random p m | None => Panic end.

(** ** Keys: domain/key.go:80-191.  The name is a pointer, nil is [None]; [names] is
    what the pointers point to. *)
Inductive key :=
| PinKey (pin : bytes) (name : option nat)
| RsaKey (pub : public_key) (name : option nat).
Definition names := nat -> key_name.
Definition name_pointer (k : key) : option nat := match k with PinKey _ p | RsaKey _ p => p end.
Definition store (a : nat) (v : key_name) (s : names) : names := fun b => if Nat.eqb b a then v else s b.
(** domain/key.go:92-94, 169-171: a copy *)
Definition key_name_of (s : names) (k : key) : outcome key_name :=
  match name_pointer k with Some a => Ok (s a) | None => Panic end.
(** domain/key.go:97-104, 174-181 *)
Definition set_key_number (n : Z) (k : key) (s : names) : outcome names :=
  match name_pointer k with Some a => Ok (store a (with_number n (s a)) s) | None => Panic end.
Definition set_key_version (v : Z) (k : key) (s : names) : outcome names :=
  match name_pointer k with Some a => Ok (store a (with_key_version v (s a)) s) | None => Panic end.
(** domain/key.go:107-114, 184-191 *)
Definition can_sign (k : key) : bool :=
  match k with PinKey _ _ => true | RsaKey p _ => match pk_sign p with Some _ => true | None => false end end.
Definition can_encrypt (k : key) : bool :=
  match k with PinKey _ _ => true | RsaKey p _ => match pk_encrypt p with Some _ => true | None => false end end.
(** domain/key.go:122-124 and the promoted 225-227 *)
Definition key_sign (k : key) (m : bytes) : outcome bytes :=
  match k with PinKey pin _ => Ok pin | RsaKey p _ => public_key_sign p m end.
(** domain/key.go:127-132 and the promoted 230-232 *)
Definition key_encrypt (random : nat -> outcome bytes) (k : key) (m : bytes) : outcome bytes :=
  match k with PinKey _ _ => Ok m | RsaKey p _ => public_key_encrypt random p m end.
(** domain/key.go:135-140; RSA keys have no Decrypt *)
Definition pin_decrypt (m : bytes) : outcome bytes := Ok m.

(** What a program does to key names: SetKeyNumber and SetKeyVersion of a key, and
    SetInitial of the name itself *)
Inductive name_call := CNumber (k : key) (n : Z) | CVersion (k : key) (v : Z) | CInitial (a : nat).
Definition name_step (c : name_call) (s : names) : outcome names :=
  match c with
  | CNumber k n => set_key_number n k s
  | CVersion k v => set_key_version v k s
  | CInitial a => Ok (store a (set_initial (s a)) s)
  end.
(** The calls one after the other; a panic ends the program. *)
Fixpoint name_run (l : list name_call) (s : names) : outcome names :=
  match l with [] => Ok s | c :: r => do s' <- name_step c s; name_run r s' end.

(** ** Key management elements and segments.  All but HKISA embed the interface Segment, which
    has no MarshalHBCI: what there is of them is String(), below. *)

(** element/signature.go:309-319, 347-355 *)
Definition name_de (k : key_name) : option delem :=
  Some (DEG [bank_de (kn_bank k); text_de (kn_user k); text_de (kn_type k); number_de (kn_number k); number_de (kn_version k)]).
(** element/key_management.go:11-26, 48-58.  The exponent is compared with the five
    characters 65537.  Simplification: an empty and a nil slice differ for
    reflect.DeepEqual, but neither has five bytes. *)
Definition public_key_de (k : public_key) : outcome (option delem) :=
  if bytes_eqb (pk_exponent k) (B "65537") then
    Ok (Some (DEG [text_de (pk_type k); text_de (B "16"); text_de (B "10"); Some (DE (EBinary (pk_modulus k)));
                   text_de (B "12"); Some (DE (EBinary (pk_exponent k))); text_de (B "13")]))
  else Panic.
(** segment/key_management.go:12-24, 43-51 *)
Definition renewal_seg (number : Z) (name : key_name) (k : public_key) : outcome seg :=
  if bytes_eqb (kn_type name) (B "B") then Panic
  else
    do pk <- public_key_de k;
    Ok (mkSeg (B "HKSAK") number 2 None [number_de 2; number_de 112; name_de name; pk; None]).
(** segment/key_management.go:53-61, 78-85 *)
Definition key_request_seg (number : Z) (name : key_name) : seg :=
  mkSeg (B "HKISA") number 2 None [number_de 2; number_de 124; name_de name; None].
(** segment/key_management.go:87-102, 122-132; [asked]: the position of the segment
    answered *)
Definition key_answer_seg (dialog : bytes) (number reference : Z) (name : key_name) (k : public_key) (asked : Z) : outcome seg :=
  if reference <=? 0 then Panic
  else
    do pk <- public_key_de k;
    Ok (mkSeg (B "HIISA") number 2 (Some asked)
          [number_de 1; text_de dialog; number_de reference; number_de 224; name_de name; pk; None]).
(** sort.SearchStrings: the first index with an element not less than [x], or the length *)
Fixpoint bytes_ltb (a b : bytes) : bool :=
  match a, b with
  | _, [] => false
  | [], _ :: _ => true
  | x :: a', y :: b' => if beq x y then bytes_ltb a' b' else zb x <? zb y
  end.
Fixpoint search_strings (l : list bytes) (x : bytes) : nat :=
  match l with [] => O | y :: r => if bytes_ltb y x then S (search_strings r x) else O end.
(** segment/key_management.go:134-144 *)
Definition revocation_reasons : list bytes := [B "1"; B "501"; B "999"].
(** segment/key_management.go:146-159, 181-190; [at_]: time.Now() *)
Definition revocation_seg (number : Z) (name : key_name) (reason : bytes) (at_ : date * tod) : outcome seg :=
  if Nat.ltb (List.length revocation_reasons) (search_strings revocation_reasons reason) then Panic
  else Ok (mkSeg (B "HKSSP") number 2 None [number_de 2; number_de 130; name_de name; text_de reason; security_date_de at_; None]).
(** segment/key_management.go:192-211, 235-246 *)
Definition revocation_answer_seg (dialog : bytes) (number reference : Z) (name : key_name) (reason : bytes) (at_ : date * tod) (asked : Z) : outcome seg :=
  if reference <=? 0 then Panic
  else if Nat.ltb (List.length revocation_reasons) (search_strings revocation_reasons reason) then Panic
  else Ok (mkSeg (B "HISSP") number 2 (Some asked)
             [number_de 1; text_de dialog; number_de reference; number_de 231; name_de name; text_de reason; security_date_de at_; None]).

(** ** String() *)

(** element/data_element.go:64, 254-256, 285-287, 316-319, 377-384, 440-442, 495-500,
    571-573, 629-631 *)
Definition elem_string (e : elem) : bytes :=
  match e with
  | EText v => escape v
  | EDigit w z => itoa_pad w z
  | ENumber z => itoa z
  | EFloat f => float_string f
  | EBinary d => B "@" ++ itoa_N (N.of_nat (List.length d)) ++ B "@" ++ d
  | EBool b => if b then B "J" else B "N"
  | EDate d => format_date d
  | ETime t => format_time t
  end.
(** element/data_element.go:133-141 *)
Fixpoint de_string (d : delem) : bytes :=
  match d with
  | DE e => elem_string e
  | DEG cs => join [b_colon] (map (fun o => match o with Some x => de_string x | None => [] end) cs)
  end.
Definition opt_string (o : option delem) : bytes := match o with Some x => de_string x | None => [] end.
(** segment/segment.go:84-94 *)
Definition seg_string (s : seg) : bytes :=
  join [b_plus] (de_string (segment_header (sg_id s) (sg_pos s) (sg_version s) (sg_ref s)) :: map opt_string (sg_elems s)) ++ [b_quote].

(** ** The RSA signature provider: message/signature.go:93-136 *)
Record rdh_provider := mkRdh { rp_key : key; rp_system : bytes; rp_fn : bytes; rp_reference : bytes; rp_id : Z }.
(** message/signature.go:37-47 *)
Definition key_reference (k : key_name) : bytes :=
  hex 8 (crc32 (itoa (bank_country (kn_bank k)) ++ bank_code (kn_bank k) ++ kn_user k ++ kn_type k ++
                itoa (kn_number k) ++ itoa (kn_version k))).
(** message/signature.go:93-101 *)
Definition new_rdh_provider (s : names) (pub : public_key) (name : option nat) (id : Z) : outcome rdh_provider :=
  do k <- key_name_of s (RsaKey pub name);
  Ok (mkRdh (RsaKey pub name) [] (B "1") (key_reference k) id).
(** message/signature.go:111-117 *)
Definition rdh_set_system (system : bytes) (p : rdh_provider) : rdh_provider :=
  mkRdh (rp_key p) system (rp_fn p) (rp_reference p) (rp_id p).
Definition rdh_set_function (fn : bytes) (p : rdh_provider) : rdh_provider :=
  mkRdh (rp_key p) (rp_system p) fn (rp_reference p) (rp_id p).
(** message/signature.go:124-130 with segment/signature_header.go:111-129, 213-236 *)
Definition rdh_write_header (version : Z) (name : key_name) (p : rdh_provider) (es : list (option delem)) : list (option delem) :=
  let fn := text_de (rp_fn p) in
  let ref := text_de (rp_reference p) in
  let sid := security_id_de (rp_system p) in
  if version =? 300 then
    match es with
    | [_; _; _; range; role; _; _; at_; hash; alg; _; cert] =>
        [profile_de (rp_fn p); fn; ref; range; role; sid; number_de (rp_id p); at_; hash; alg; name_de name; cert]
    | _ => es
    end
  else
    match es with
    | [_; _; range; role; _; _; at_; hash; alg; _; cert] =>
        [fn; ref; range; role; sid; number_de (rp_id p); at_; hash; alg; name_de name; cert]
    | _ => es
    end.
(** message/signature.go:132-135 with segment/signature_end.go:53-59, 94-100 *)
Definition rdh_write_end (p : rdh_provider) (signature : bytes) (es : list (option delem)) : list (option delem) :=
  match es with
  | [_; _; third] => [text_de (rp_reference p); Some (DE (EBinary signature)); third]
  | _ => es
  end.

Section Rdh.
  (** golang.org/x/crypto/ripemd160 (message/signature.go:24-29) *)
  Variable hash : bytes -> bytes.
  (** message/signature.go:119-122 *)
  Definition rdh_sign (p : rdh_provider) (text : bytes) : outcome bytes := key_sign (rp_key p) (hash text).
  (** Sign of message/message.go:233-256 with this provider *)
  Definition rdh_sign_message (s : names) (st : settings) (at_ : date * tod) (p : rdh_provider) (m : message) : outcome message :=
    do name <- key_name_of s (rp_key p);
    sign seg_string (sig_header st at_) (sig_end st)
      (mkSP (rdh_write_header (st_version st) name p) (rdh_sign p) (rdh_write_end p)) m.
End Rdh.

(** ** Dialogs for card readers: dialog/rdh_dialog.go *)

(** What changes in a dialog that NewRDHDialog made (rdh_dialog.go:10-21): client
    system ID, dialog ID, message number and the provider.  Its cryptoProvider and
    transport are nil, and no method sets them. *)
Record rdh_dialog := mkRD { rd_system : bytes; rd_dialog : bytes; rd_count : Z; rd_provider : rdh_provider }.
(** rdh_dialog.go:15-19, dialog/dialog.go:36-61; [name]: where the key name is allocated *)
Definition new_rdh_dialog (generated : outcome private_key) (bank : bank_ref) (user : bytes) (name : nat) (s : names) : outcome (names * rdh_dialog) :=
  match generated with
  | Ok k =>
      let s' := store name (initial_key_name (bank_country bank) (bank_code bank) user (B "S")) s in
      do p <- new_rdh_provider s' (generated_key k) (Some name) 12345;
      Ok (s', mkRD (B "0") (B "0") 0 p)
  | _ => Panic
  end.
Inductive rdh_call := RSetSystem (system : bytes) | RSetFunction (fn : bytes) | RSend | RSync | RSyncUser | RAnonymous.
Section RdhDialog.
  (** Whether signing the next message succeeds *)
  Variable signs : rdh_dialog -> outcome unit.
  (** Signing, then the first use of the nil cryptoProvider: dialog/dialog.go:170 and,
      through message/message.go:287, 358 *)
  Definition sign_and_encrypt (d : rdh_dialog) : outcome unit := do _ <- signs d; Panic.
  Definition counted_up (d : rdh_dialog) : rdh_dialog := mkRD (rd_system d) (rd_dialog d) (rd_count d + 1) (rd_provider d).
  (** dialog/dialog.go:157-174 SyncClientSystemID, up to where it ends *)
  Definition rdh_sync (d : rdh_dialog) : rdh_dialog * outcome unit :=
    let d := counted_up d in (d, sign_and_encrypt d).
  (** dialog/dialog.go:337-362 init, up to where it ends *)
  Definition rdh_init (d : rdh_dialog) : rdh_dialog * outcome unit :=
    if bytes_eqb (rd_system d) (B "0") then rdh_sync d
    else let d := mkRD (rd_system d) (B "0") 1 (rd_provider d) in (d, sign_and_encrypt d).
  (** The dialog afterwards, also after a panic, what the call returned, and the messages
      given to the transport.  SetClientSystemID, SetSecurityFunction: dialog/dialog.go:97-107,
      the cryptoProvider comes last.  SendMessage: 109-113; SyncUserParameterData: 144-149;
      SendAnonymousMessage: 232-236 with 261-271 and 582-600: the transport is nil. *)
  Definition rdh_step (c : rdh_call) (d : rdh_dialog) : rdh_dialog * outcome unit * list bytes :=
    match c with
    | RSetSystem system => (mkRD system (rd_dialog d) (rd_count d) (rdh_set_system system (rd_provider d)), Panic, [])
    | RSetFunction fn => (mkRD (rd_system d) (rd_dialog d) (rd_count d) (rdh_set_function fn (rd_provider d)), Panic, [])
    | RSend | RSyncUser => (rdh_init d, [])
    | RSync => (rdh_sync d, [])
    | RAnonymous => (mkRD (rd_system d) (B "0") 1 (rd_provider d), Panic, [])
    end.
  (** A program that recovers from every panic *)
  Fixpoint rdh_run (l : list rdh_call) (d : rdh_dialog) : list (outcome unit) * list bytes :=
    match l with
    | [] => ([], [])
    | c :: r =>
        let '(d', o, sent) := rdh_step c d in
        let '(os, more) := rdh_run r d' in
        (o :: os, sent ++ more)
    end.
End RdhDialog.
