(** * What keys, signatures and key management are to do

    PKCS #1 v1.5 as a bank that holds the other half of a key applies it; key names; the
    strings of the key management segments. *)
From Verif Require Import Base Codec_Model Codec_Spec Wire_Model Wire_Spec Message_Model Seg_Model Seg_Spec Request_Model Request_Spec Crypto_Spec Key_Model.
Open Scope Z_scope.

Definition size (l : bytes) : Z := Z.of_nat (List.length l).

(** ** PKCS #1 v1.5, for moduli of [k] bytes *)
Definition type_1 (k : Z) (m : bytes) : bytes :=
  [x00; x01] ++ repeat xff (Z.to_nat (k - 3 - size m)) ++ [x00] ++ m.
Definition type_2 (padding m : bytes) : bytes := [x00; x02] ++ padding ++ [x00] ++ m.
(** Checking a signature with the public exponent *)
Definition accepts (n e k : Z) (m signature : bytes) : Prop :=
  size signature = k /\ value signature ^ e mod n = value (type_1 k m).
(** Reading an encrypted message with the private exponent: padding up to the first zero byte *)
Definition deciphers (n d k : Z) (c m : bytes) : Prop :=
  size c = k /\ exists padding block, ~ In x00 padding /\ 8 <= size padding /\ size block = k /\
    block = type_2 padding m /\ value c ^ d mod n = value block.

(** A source of padding: as many bytes as asked for, none of them zero, or an error *)
Definition padding_source (random : nat -> outcome bytes) : Prop :=
  forall n, random n = Err \/ exists ps, random n = Ok ps /\ List.length ps = n /\ ~ In x00 ps.
(** The public exponents that crypto/rsa takes *)
Definition usable (e : Z) : Prop := 2 <= e < 2 ^ 31.

(** A key pair of an RSA key with a modulus of [k] bytes *)
Definition private_pair (p : private_key) (k : Z) : Prop :=
  rsa_pair (pr_modulus p) (pr_public p) (pr_private p) /\ byte_size (pr_modulus p) k.
(** rsa.GenerateKey always takes this public exponent. *)
Definition generated_exponent : Z := 65537.

(** ** Key names *)
(** The name behind a pointer after some calls on keys, latest call first: number and version
    as last set through any key that holds the pointer. *)
Definition touches (k : key) (a : nat) : bool := match name_pointer k with Some b => Nat.eqb a b | None => false end.
Fixpoint last_number (a : nat) (first : Z) (latest_first : list name_call) : Z :=
  match latest_first with
  | [] => first
  | CNumber k n :: r => if touches k a then n else last_number a first r
  | CInitial b :: r => if Nat.eqb a b then 999 else last_number a first r
  | _ :: r => last_number a first r
  end.
Fixpoint last_version (a : nat) (first : Z) (latest_first : list name_call) : Z :=
  match latest_first with
  | [] => first
  | CVersion k v :: r => if touches k a then v else last_version a first r
  | CInitial b :: r => if Nat.eqb a b then 999 else last_version a first r
  | _ :: r => last_version a first r
  end.
(** The call is on a key that has a name. *)
Definition named (c : name_call) : Prop :=
  match c with CNumber k _ | CVersion k _ => name_pointer k <> None | CInitial _ => True end.

(** ** Key management *)
(** A key name with texts as Latin-1 characters, in a request *)
Record bank_key := mkBankKey { bk_country : Z; bk_bank : bytes; bk_user : bytes; bk_type : bytes; bk_number : Z; bk_version : Z }.
Definition key_for (k : bank_key) : key_name :=
  mkKN (mkBank (bk_country k) (utf8 (bk_bank k))) (utf8 (bk_user k)) (utf8 (bk_type k)) (bk_number k) (bk_version k).
Definition name_items (k : bank_key) : list item :=
  [TDigits 3 (bk_country k); TText (bk_bank k); TText (bk_user k); TText (bk_type k); TNumber (bk_number k); TNumber (bk_version k)].
Definition key_request (k : bank_key) : part := mkPart (B "HKISA") 2 [[TNumber 2]; [TNumber 124]; name_items k].
(** A bank code that the library does not shorten *)
Definition bank_code_ok (k : bank_key) : Prop := bk_bank k <> [] /\ ~ ends_with ":"%byte (bk_bank k).

(** String() of a segment: all data elements, also the empty ones at the end *)
Definition with_colons (l : list bytes) : bytes := join [":"%byte] l.
Definition segment_string (id : bytes) (number version : Z) (reference : bytes) (fields : list bytes) : bytes :=
  join ["+"%byte] (with_colons [id; itoa number; itoa version; reference] :: fields) ++ ["'"%byte].
Definition name_string (k : key_name) : bytes :=
  with_colons [itoa_pad 3 (bank_country (kn_bank k)); escaped (bank_code (kn_bank k)); escaped (kn_user k); escaped (kn_type k);
               itoa (kn_number k); itoa (kn_version k)].
Definition binary_string (d : bytes) : bytes := B "@" ++ itoa (size d) ++ B "@" ++ d.
Definition public_string (use modulus : bytes) : bytes :=
  with_colons [escaped use; B "16"; B "10"; binary_string modulus; B "12"; binary_string (B "65537"); B "13"].
Definition stamp_string (at_ : date * tod) : bytes := with_colons [B "1"; yyyymmdd (fst at_); hhmmss (snd at_)].

(** ** Messages signed with RSA keys *)
(** The signature header of such a message *)
Definition rsa_profile (version : Z) (fn : bytes) : list (list item) :=
  if version =? 300 then [[text "PIN"; TNumber (if list_eq_dec byte_eq_dec fn (B "999") then 1 else 2)]] else [].
Definition rsa_signature_header (version : Z) (k : bank_key) (system fn reference : bytes) (id : Z) (at_ : date * tod) : part :=
  mkPart (B "HNSHK") (if version =? 300 then 4 else 3)
    (rsa_profile version fn ++
     [[TText fn]; [TText reference]; [text "1"]; [text "1"]; sender_items system; [TNumber id]; stamp_items at_;
      [text "1"; text "999"; text "1"]; [text "6"; text "10"; text "16"]; name_items k]).
(** String() of its signature header and of all segments between it and the signature end *)
Definition strings_of (m : message) : bytes :=
  match m_sigbegin m with Some s => seg_string s | None => [] end ++
  List.concat (map (fun p => match p with Ptr a => seg_string (m_heap m a) | _ => [] end)
                 (match m_body m with Some ps => ps | None => [] end)).
(** The bytes sent for the same segments: the content [content] of the envelope up to the signature end *)
Definition covered (m : message) (w : bytes) : Prop :=
  exists content signature_end, marshal_inner m = Ok content /\ marshal_optseg (m_sigend m) = Ok signature_end /\
    content = w ++ signature_end.
Definition signature_in (m : message) (signature : bytes) : Prop :=
  exists s r x, m_sigend m = Some s /\ sg_id s = B "HNSHA" /\ sg_elems s = [r; Some (DE (EBinary signature)); x].
(** A message that can be signed *)
Definition complete (m : message) : Prop :=
  m_header m <> None /\ m_end m <> None /\ exists ps, m_body m = Some ps /\ ~ In NilInterface ps.
