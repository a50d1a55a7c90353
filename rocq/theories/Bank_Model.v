(** * Model of the bank table lookup (bankinfo) and of client.New *)
From Verif Require Import Base Iban_Model.
Open Scope Z_scope.

(** bankinfo/bank_info.go:36-45 *)
Record bank_info := mkBi {
  bi_id : bytes; bi_bic : bytes; bi_number : bytes; bi_url : bytes;
  bi_name : bytes; bi_institute : bytes; bi_city : bytes; bi_changed : bytes }.
(** The zero value of BankInfo. *)
Definition no_info : bank_info := mkBi [] [] [] [] [] [] [] [].

(** bankinfo/bank_info.go:23-31 FindByBankID: the loop over the table with the
    variable bankInfo. *)
Fixpoint find_loop (table : list bank_info) (id : bytes) (info : bank_info) : bank_info :=
  match table with
  | [] => info
  | entry :: r => find_loop r id (if bytes_eqb (bi_id entry) id then entry else info)
  end.
Definition find_by_bank_id (table : list bank_info) (id : bytes) : bank_info :=
  find_loop table id no_info.

(** bankinfo/bank_info.go:80-95 parseVersionName, with the constants of lines 9-19 *)
Definition parse_version_name (s : bytes) : outcome Z :=
  if bytes_eqb s (B "HBCI 2.2 Erweiterung PIN/TAN V1.01") then Ok 220
  else if bytes_eqb s (B "FinTS V3.0") then Ok 300
  else if bytes_eqb s (B "FinTS V4.0") then Ok 400
  else if bytes_eqb s (B "FinTS V4.1") then Ok 410
  else if bytes_eqb s [] then Ok (-1)
  else Err.
(** bankinfo/bank_info.go:97-114 parseVersionNumber *)
Definition parse_version_number (s : bytes) : outcome Z :=
  if bytes_eqb s (B "2.1") then Ok 210
  else if bytes_eqb s (B "2.2") then Ok 220
  else if bytes_eqb s (B "3.0") then Ok 300
  else if bytes_eqb s (B "4.0") then Ok 400
  else if bytes_eqb s (B "4.1") then Ok 410
  else if bytes_eqb s [] then Ok (-1)
  else Err.
(** bankinfo/bank_info.go:64-78 hbciVersion; math.Max on float64 is exact on these
    small integers. *)
Definition hbci_version_of (name number : bytes) : outcome Z :=
  do a <- parse_version_name name;
  do b <- parse_version_number number;
  Ok (Z.max b a).
(** bankinfo/bank_info.go:51-57 BankInfo.HbciVersion *)
Definition hbci_version (info : bank_info) : outcome Z :=
  match hbci_version_of (bi_name info) (bi_number info) with
  | Ok v => Ok v
  | _ => Panic
  end.

(** strings.TrimSpace (bankinfo/parser.go:48-55): unicode.IsSpace in UTF-8, that is the
    ASCII ones, U+0085, U+00A0, and U+1680, U+2000-U+200A, U+2028, U+2029, U+202F, U+205F,
    U+3000.  What utf8.DecodeRune and DecodeLastRune find are the bytes of such a character,
    also in text that is not UTF-8 elsewhere. *)
Definition space1 (a : byte) : bool := ((9 <=? zb a) && (zb a <=? 13)) || (zb a =? 32).
Definition space2 (a b : byte) : bool := (zb a =? 194) && ((zb b =? 133) || (zb b =? 160)).
Definition space3 (a b c : byte) : bool :=
  (zb a =? 225) && (zb b =? 154) && (zb c =? 128)
  || (zb a =? 226) && (zb b =? 128) && (((128 <=? zb c) && (zb c <=? 138)) || (zb c =? 168) || (zb c =? 169) || (zb c =? 175))
  || (zb a =? 226) && (zb b =? 129) && (zb c =? 159)
  || (zb a =? 227) && (zb b =? 128) && (zb c =? 128).
Section Trim.
  Variable s1 : byte -> bool.
  Variable s2 : byte -> byte -> bool.
  Variable s3 : byte -> byte -> byte -> bool.
  Fixpoint trim_by (l : bytes) : bytes :=
    match l with
    | [] => []
    | a :: r =>
        if s1 a then trim_by r
        else match r with
             | [] => l
             | b :: r' =>
                 if s2 a b then trim_by r'
                 else match r' with
                      | [] => l
                      | c :: r'' => if s3 a b c then trim_by r'' else l
                      end
             end
    end.
End Trim.
Definition trim_blanks_left : bytes -> bytes := trim_by space1 space2 space3.
Definition trim_blanks_right (l : bytes) : bytes :=
  rev (trim_by space1 (fun b a => space2 a b) (fun c b a => space3 a b c) (rev l)).
Definition trim_blanks (l : bytes) : bytes := trim_blanks_right (trim_blanks_left l).

(** A record of the CSV file: its columns under their headers, bankinfo/parser.go:11-20. *)
Definition csv_record := list (bytes * bytes).
(** record.Get(header): "" if there is no such column. *)
Fixpoint column (r : csv_record) (h : bytes) : bytes :=
  match r with
  | [] => []
  | (k, v) :: r' => if bytes_eqb k h then v else column r' h
  end.
(** The header "Datum letzte Änderung" in UTF-8. *)
Definition changed_header : bytes := B "Datum letzte " ++ ["195"; "132"]%byte ++ B "nderung".
(** bankinfo/parser.go:42-57, the loop of ParseBankInfos *)
Fixpoint bank_infos (records : list csv_record) : list bank_info :=
  match records with
  | [] => []
  | r :: rs =>
      if bytes_eqb (column r (B "BLZ")) [] then bank_infos rs
      else mkBi (trim_blanks (column r (B "BLZ"))) (trim_blanks (column r (B "BIC")))
                (trim_blanks (column r (B "HBCI-Version"))) (trim_blanks (column r (B "PIN/TAN-Zugang URL")))
                (trim_blanks (column r (B "Version"))) (trim_blanks (column r (B "Institut")))
                (trim_blanks (column r (B "Ort"))) (trim_blanks (column r changed_header))
           :: bank_infos rs
  end.

(** segment/hbci_version.go:11-14, the keys of SupportedHBCIVersions; the version
    field of the value is the key, segment/fints300.go:4 and segment/hbci220.go:4 *)
Definition supported_hbci_version (v : Z) : option Z :=
  if (v =? 220) || (v =? 300) then Some v else None.

(** client/client.go:19-29 Config.  Transport and the debug flag are left out. *)
Record config := mkCfg {
  cfg_bank : bytes; cfg_account : bytes; cfg_pin : bytes; cfg_url : bytes; cfg_version : Z;
  cfg_product : bytes; cfg_product_version : bytes }.
(** What the dialog of the new client is given, client/client.go:75-86 *)
Record new_client := mkClient {
  nc_country : Z; nc_bank : bytes; nc_url : bytes; nc_user : bytes; nc_version : Z;
  nc_product : bytes; nc_product_version : bytes; nc_pin : bytes }.

(** client/client.go:45-92 New, with config.hbciVersion (lines 31-37) *)
Definition client_new (table : list bank_info) (cfg : config) : outcome new_client :=
  let info := find_by_bank_id table (cfg_bank cfg) in
  let url := if bytes_eqb (cfg_url cfg) [] then bi_url info else cfg_url cfg in
  do v <-
    (if 0 <? cfg_version cfg then
       match supported_hbci_version (cfg_version cfg) with Some v => Ok v | None => Err end
     else
       do n <- hbci_version info;
       match supported_hbci_version n with Some v => Ok v | None => Err end);
  Ok (mkClient 280 (cfg_bank cfg) url (cfg_account cfg) v (cfg_product cfg) (cfg_product_version cfg) (cfg_pin cfg)).
