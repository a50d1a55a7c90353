(** * The segments whose readers are generated

    For every segment with a generated reader (segment/*_unmarshaler.go) its struct and its
    method elements(), as they are in the source.  This table is made by a script from the
    sources; interfaces are left out. *)
From Verif Require Import Base Gen_Model.
Open Scope Z_scope.

Record library_segment := mkLib {
  ls_name : bytes; ls_id : bytes; ls_version : Z; ls_fields : list gsfield; ls_elements : list (bytes * Z) }.
(** A pointer field and an embedded one *)
Definition ptr (name type : string) : gsfield := mkSField [B name] (GPointer (B type)).
Definition emb (type : string) : gsfield := mkSField [] (GPlain (B type)).
Definition at_line (name : string) (line : Z) : bytes * Z := (B name, line).
Local Open Scope string_scope.
Local Open Scope list_scope.
Local Open Scope Z_scope.

(** segment/account_balance.go:205-218, 265-279 *)
Definition lib_AccountBalanceResponseSegmentV5 : library_segment :=
  mkLib (B "AccountBalanceResponseSegmentV5") (B "HISAL") 5
    [emb "Segment";
     ptr "AccountConnection" "element.AccountConnectionDataElement";
     ptr "AccountProductName" "element.AlphaNumericDataElement";
     ptr "AccountCurrency" "element.CurrencyDataElement";
     ptr "BookedBalance" "element.BalanceDataElement";
     ptr "EarmarkedBalance" "element.BalanceDataElement";
     ptr "CreditLimit" "element.AmountDataElement";
     ptr "AvailableAmount" "element.AmountDataElement";
     ptr "UsedAmount" "element.AmountDataElement";
     ptr "BookingDate" "element.DateDataElement";
     ptr "BookingTime" "element.TimeDataElement";
     ptr "DueDate" "element.DateDataElement"]
    [at_line "AccountConnection" 267; at_line "AccountProductName" 268; at_line "AccountCurrency" 269; at_line "BookedBalance" 270; at_line "EarmarkedBalance" 271; at_line "CreditLimit" 272; at_line "AvailableAmount" 273; at_line "UsedAmount" 274; at_line "BookingDate" 275; at_line "BookingTime" 276; at_line "DueDate" 277].

(** segment/account_balance.go:281-294, 341-355 *)
Definition lib_AccountBalanceResponseSegmentV6 : library_segment :=
  mkLib (B "AccountBalanceResponseSegmentV6") (B "HISAL") 6
    [emb "Segment";
     ptr "AccountConnection" "element.AccountConnectionDataElement";
     ptr "AccountProductName" "element.AlphaNumericDataElement";
     ptr "AccountCurrency" "element.CurrencyDataElement";
     ptr "BookedBalance" "element.BalanceDataElement";
     ptr "EarmarkedBalance" "element.BalanceDataElement";
     ptr "CreditLimit" "element.AmountDataElement";
     ptr "AvailableAmount" "element.AmountDataElement";
     ptr "UsedAmount" "element.AmountDataElement";
     ptr "BookingDate" "element.DateDataElement";
     ptr "BookingTime" "element.TimeDataElement";
     ptr "DueDate" "element.DateDataElement"]
    [at_line "AccountConnection" 343; at_line "AccountProductName" 344; at_line "AccountCurrency" 345; at_line "BookedBalance" 346; at_line "EarmarkedBalance" 347; at_line "CreditLimit" 348; at_line "AvailableAmount" 349; at_line "UsedAmount" 350; at_line "BookingDate" 351; at_line "BookingTime" 352; at_line "DueDate" 353].

(** segment/account_balance.go:357-370, 452-466 *)
Definition lib_AccountBalanceResponseSegmentV7 : library_segment :=
  mkLib (B "AccountBalanceResponseSegmentV7") (B "HISAL") 7
    [emb "Segment";
     ptr "AccountConnection" "element.InternationalAccountConnectionDataElement";
     ptr "AccountProductName" "element.AlphaNumericDataElement";
     ptr "AccountCurrency" "element.CurrencyDataElement";
     ptr "BookedBalance" "element.BalanceDataElement";
     ptr "EarmarkedBalance" "element.BalanceDataElement";
     ptr "CreditLimit" "element.AmountDataElement";
     ptr "AvailableAmount" "element.AmountDataElement";
     ptr "UsedAmount" "element.AmountDataElement";
     ptr "BookingDate" "element.DateDataElement";
     ptr "BookingTime" "element.TimeDataElement";
     ptr "DueDate" "element.DateDataElement"]
    [at_line "AccountConnection" 454; at_line "AccountProductName" 455; at_line "AccountCurrency" 456; at_line "BookedBalance" 457; at_line "EarmarkedBalance" 458; at_line "CreditLimit" 459; at_line "AvailableAmount" 460; at_line "UsedAmount" 461; at_line "BookingDate" 462; at_line "BookingTime" 463; at_line "DueDate" 464].

(** segment/account_balance.go:468-482, 568-583 *)
Definition lib_AccountBalanceResponseSegmentV8 : library_segment :=
  mkLib (B "AccountBalanceResponseSegmentV8") (B "HISAL") 8
    [emb "Segment";
     ptr "AccountConnection" "element.InternationalAccountConnectionDataElement";
     ptr "AccountProductName" "element.AlphaNumericDataElement";
     ptr "AccountCurrency" "element.CurrencyDataElement";
     ptr "BookedBalance" "element.BalanceDataElement";
     ptr "EarmarkedBalance" "element.BalanceDataElement";
     ptr "CreditLimit" "element.AmountDataElement";
     ptr "AvailableAmount" "element.AmountDataElement";
     ptr "UsedAmount" "element.AmountDataElement";
     ptr "BookingDate" "element.DateDataElement";
     ptr "BookingTime" "element.TimeDataElement";
     ptr "DueDate" "element.DateDataElement";
     ptr "SeizableAfterMonth" "element.AmountDataElement"]
    [at_line "AccountConnection" 570; at_line "AccountProductName" 571; at_line "AccountCurrency" 572; at_line "BookedBalance" 573; at_line "EarmarkedBalance" 574; at_line "CreditLimit" 575; at_line "AvailableAmount" 576; at_line "UsedAmount" 577; at_line "BookingDate" 578; at_line "BookingTime" 579; at_line "DueDate" 580; at_line "SeizableAfterMonth" 581].

(** segment/account_information.go:225-243, 250-269 *)
Definition lib_AccountInformationResponseSegment : library_segment :=
  mkLib (B "AccountInformationResponseSegment") (B "HIKIF") 1
    [emb "Segment";
     ptr "AccountConnection" "element.AccountConnectionDataElement";
     ptr "AccountKind" "element.NumberDataElement";
     ptr "Name1" "element.AlphaNumericDataElement";
     ptr "Name2" "element.AlphaNumericDataElement";
     ptr "AccountProductID" "element.AlphaNumericDataElement";
     ptr "AccountCurrency" "element.CurrencyDataElement";
     ptr "OpeningDate" "element.DateDataElement";
     ptr "DebitInterest" "element.ValueDataElement";
     ptr "CreditInterest" "element.ValueDataElement";
     ptr "OverDebitInterest" "element.ValueDataElement";
     ptr "CreditLimit" "element.AmountDataElement";
     ptr "ReferenceAccount" "element.AccountConnectionDataElement";
     ptr "AccountStatementShippingType" "element.NumberDataElement";
     ptr "AccountStatementShippingRotation" "element.NumberDataElement";
     ptr "AdditionalInformation" "element.TextDataElement";
     ptr "DisposalEligiblePersons" "element.DisposalEligiblePersonsDataElement"]
    [at_line "AccountConnection" 252; at_line "AccountKind" 253; at_line "Name1" 254; at_line "Name2" 255; at_line "AccountProductID" 256; at_line "AccountCurrency" 257; at_line "OpeningDate" 258; at_line "DebitInterest" 259; at_line "CreditInterest" 260; at_line "OverDebitInterest" 261; at_line "CreditLimit" 262; at_line "ReferenceAccount" 263; at_line "AccountStatementShippingType" 264; at_line "AccountStatementShippingRotation" 265; at_line "AdditionalInformation" 266; at_line "DisposalEligiblePersons" 267].

(** segment/account_transaction.go:232-236, 247-252 *)
Definition lib_AccountTransactionResponseSegmentV5 : library_segment :=
  mkLib (B "AccountTransactionResponseSegmentV5") (B "HIKAZ") 5
    [emb "Segment";
     ptr "BookedTransactions" "element.SwiftMT940DataElement";
     ptr "UnbookedTransactions" "element.BinaryDataElement"]
    [at_line "BookedTransactions" 249; at_line "UnbookedTransactions" 250].

(** segment/account_transaction.go:254-258, 269-274 *)
Definition lib_AccountTransactionResponseSegmentV6 : library_segment :=
  mkLib (B "AccountTransactionResponseSegmentV6") (B "HIKAZ") 6
    [emb "Segment";
     ptr "BookedTransactions" "element.SwiftMT940DataElement";
     ptr "UnbookedTransactions" "element.BinaryDataElement"]
    [at_line "BookedTransactions" 271; at_line "UnbookedTransactions" 272].

(** segment/account_transaction.go:276-280, 291-296 *)
Definition lib_AccountTransactionResponseSegmentV7 : library_segment :=
  mkLib (B "AccountTransactionResponseSegmentV7") (B "HIKAZ") 7
    [emb "Segment";
     ptr "BookedTransactions" "element.SwiftMT940DataElement";
     ptr "UnbookedTransactions" "element.BinaryDataElement"]
    [at_line "BookedTransactions" 293; at_line "UnbookedTransactions" 294].

(** segment/bank_announcement.go:9-13, 20-25 *)
Definition lib_BankAnnouncementSegment : library_segment :=
  mkLib (B "BankAnnouncementSegment") (B "HIKIM") 2
    [emb "Segment";
     ptr "Subject" "element.AlphaNumericDataElement";
     ptr "Body" "element.TextDataElement"]
    [at_line "Subject" 22; at_line "Body" 23].

(** segment/basic_account_information.go:26-36, 67-78 *)
Definition lib_AccountInformationV4 : library_segment :=
  mkLib (B "AccountInformationV4") (B "HIUPD") 4
    [emb "Segment";
     ptr "AccountConnection" "element.AccountConnectionDataElement";
     ptr "UserID" "element.IdentificationDataElement";
     ptr "AccountCurrency" "element.CurrencyDataElement";
     ptr "Name1" "element.AlphaNumericDataElement";
     ptr "Name2" "element.AlphaNumericDataElement";
     ptr "AccountProductID" "element.AlphaNumericDataElement";
     ptr "AccountLimit" "element.AccountLimitDataElement";
     ptr "AllowedBusinessTransactions" "element.AllowedBusinessTransactionsDataElement"]
    [at_line "AccountConnection" 69; at_line "UserID" 70; at_line "AccountCurrency" 71; at_line "Name1" 72; at_line "Name2" 73; at_line "AccountProductID" 74; at_line "AccountLimit" 75; at_line "AllowedBusinessTransactions" 76].

(** segment/basic_account_information.go:80-91, 125-137 *)
Definition lib_AccountInformationV5 : library_segment :=
  mkLib (B "AccountInformationV5") (B "HIUPD") 5
    [emb "Segment";
     ptr "AccountConnection" "element.AccountConnectionDataElement";
     ptr "UserID" "element.IdentificationDataElement";
     ptr "AccountType" "element.NumberDataElement";
     ptr "AccountCurrency" "element.CurrencyDataElement";
     ptr "Name1" "element.AlphaNumericDataElement";
     ptr "Name2" "element.AlphaNumericDataElement";
     ptr "AccountProductID" "element.AlphaNumericDataElement";
     ptr "AccountLimit" "element.AccountLimitDataElement";
     ptr "AllowedBusinessTransactions" "element.AllowedBusinessTransactionsDataElement"]
    [at_line "AccountConnection" 127; at_line "UserID" 128; at_line "AccountType" 129; at_line "AccountCurrency" 130; at_line "Name1" 131; at_line "Name2" 132; at_line "AccountProductID" 133; at_line "AccountLimit" 134; at_line "AllowedBusinessTransactions" 135].

(** segment/basic_account_information.go:139-152, 186-200 *)
Definition lib_AccountInformationV6 : library_segment :=
  mkLib (B "AccountInformationV6") (B "HIUPD") 6
    [emb "Segment";
     ptr "AccountConnection" "element.AccountConnectionDataElement";
     ptr "IBAN" "element.AlphaNumericDataElement";
     ptr "UserID" "element.IdentificationDataElement";
     ptr "AccountType" "element.NumberDataElement";
     ptr "AccountCurrency" "element.CurrencyDataElement";
     ptr "Name1" "element.AlphaNumericDataElement";
     ptr "Name2" "element.AlphaNumericDataElement";
     ptr "AccountProductID" "element.AlphaNumericDataElement";
     ptr "AccountLimit" "element.AccountLimitDataElement";
     ptr "AllowedBusinessTransactions" "element.AllowedBusinessTransactionsDataElement";
     ptr "AccountExtensions" "element.AlphaNumericDataElement"]
    [at_line "AccountConnection" 188; at_line "IBAN" 189; at_line "UserID" 190; at_line "AccountType" 191; at_line "AccountCurrency" 192; at_line "Name1" 193; at_line "Name2" 194; at_line "AccountProductID" 195; at_line "AccountLimit" 196; at_line "AllowedBusinessTransactions" 197; at_line "AccountExtensions" 198].

(** segment/basic_account_information.go:202-215, 249-263 *)
Definition lib_AccountInformationV7 : library_segment :=
  mkLib (B "AccountInformationV7") (B "HIUPD") 7
    [emb "Segment";
     ptr "AccountConnection" "element.AccountConnectionDataElement";
     ptr "IBAN" "element.AlphaNumericDataElement";
     ptr "UserID" "element.IdentificationDataElement";
     ptr "AccountType" "element.NumberDataElement";
     ptr "AccountCurrency" "element.CurrencyDataElement";
     ptr "Name1" "element.AlphaNumericDataElement";
     ptr "Name2" "element.AlphaNumericDataElement";
     ptr "AccountProductID" "element.AlphaNumericDataElement";
     ptr "AccountLimit" "element.AccountLimitDataElement";
     ptr "AllowedBusinessTransactions" "element.AllowedBusinessTransactionsDataElement";
     ptr "AccountExtensions" "element.AlphaNumericDataElement"]
    [at_line "AccountConnection" 251; at_line "IBAN" 252; at_line "UserID" 253; at_line "AccountType" 254; at_line "AccountCurrency" 255; at_line "Name1" 256; at_line "Name2" 257; at_line "AccountProductID" 258; at_line "AccountLimit" 259; at_line "AllowedBusinessTransactions" 260; at_line "AccountExtensions" 261].

(** segment/common_bank_parameter_data.go:26-35, 42-52 *)
Definition lib_CommonBankParameterV2 : library_segment :=
  mkLib (B "CommonBankParameterV2") (B "HIBPA") 2
    [emb "Segment";
     ptr "BPDVersion" "element.NumberDataElement";
     ptr "BankID" "element.BankIdentificationDataElement";
     ptr "BankName" "element.AlphaNumericDataElement";
     ptr "BusinessTransactionCount" "element.NumberDataElement";
     ptr "SupportedLanguages" "element.SupportedLanguagesDataElement";
     ptr "SupportedHBCIVersions" "element.SupportedHBCIVersionsDataElement";
     ptr "MaxMessageSize" "element.NumberDataElement"]
    [at_line "BPDVersion" 44; at_line "BankID" 45; at_line "BankName" 46; at_line "BusinessTransactionCount" 47; at_line "SupportedLanguages" 48; at_line "SupportedHBCIVersions" 49; at_line "MaxMessageSize" 50].

(** segment/common_bank_parameter_data.go:67-78, 85-97 *)
Definition lib_CommonBankParameterV3 : library_segment :=
  mkLib (B "CommonBankParameterV3") (B "HIBPA") 3
    [emb "Segment";
     ptr "BPDVersion" "element.NumberDataElement";
     ptr "BankID" "element.BankIdentificationDataElement";
     ptr "BankName" "element.AlphaNumericDataElement";
     ptr "BusinessTransactionCount" "element.NumberDataElement";
     ptr "SupportedLanguages" "element.SupportedLanguagesDataElement";
     ptr "SupportedHBCIVersions" "element.SupportedHBCIVersionsDataElement";
     ptr "MaxMessageSize" "element.NumberDataElement";
     ptr "MinTimeoutValue" "element.NumberDataElement";
     ptr "MaxTimeoutValue" "element.NumberDataElement"]
    [at_line "BPDVersion" 87; at_line "BankID" 88; at_line "BankName" 89; at_line "BusinessTransactionCount" 90; at_line "SupportedLanguages" 91; at_line "SupportedHBCIVersions" 92; at_line "MaxMessageSize" 93; at_line "MinTimeoutValue" 94; at_line "MaxTimeoutValue" 95].

(** segment/communication_access.go:58-63, 70-76 *)
Definition lib_CommunicationAccessResponseSegment : library_segment :=
  mkLib (B "CommunicationAccessResponseSegment") (B "HIKOM") 3
    [emb "Segment";
     ptr "BankID" "element.BankIdentificationDataElement";
     ptr "StandardLanguage" "element.NumberDataElement";
     ptr "CommunicationParams" "element.CommunicationParameterDataElement"]
    [at_line "BankID" 72; at_line "StandardLanguage" 73; at_line "CommunicationParams" 74].

(** segment/encrypted_data.go:15-18, 25-29 *)
Definition lib_EncryptedDataSegment : library_segment :=
  mkLib (B "EncryptedDataSegment") (B "HNVSD") 1
    [emb "ClientSegment";
     ptr "Data" "element.BinaryDataElement"]
    [at_line "Data" 27].

(** segment/encryption_header.go:67-82, 89-100 *)
Definition lib_EncryptionHeaderV2 : library_segment :=
  mkLib (B "EncryptionHeaderV2") (B "HNVSK") 2
    [emb "ClientSegment";
     ptr "SecurityFunction" "element.AlphaNumericDataElement";
     ptr "SecuritySupplierRole" "element.AlphaNumericDataElement";
     ptr "SecurityID" "element.SecurityIdentificationDataElement";
     ptr "SecurityDate" "element.SecurityDateDataElement";
     ptr "EncryptionAlgorithm" "element.EncryptionAlgorithmDataElement";
     ptr "KeyName" "element.KeyNameDataElement";
     ptr "CompressionFunction" "element.AlphaNumericDataElement";
     ptr "Certificate" "element.CertificateDataElement"]
    [at_line "SecurityFunction" 91; at_line "SecuritySupplierRole" 92; at_line "SecurityID" 93; at_line "SecurityDate" 94; at_line "EncryptionAlgorithm" 95; at_line "KeyName" 96; at_line "CompressionFunction" 97; at_line "Certificate" 98].

(** segment/encryption_header.go:137-162, 169-181 *)
Definition lib_EncryptionHeaderSegmentV3 : library_segment :=
  mkLib (B "EncryptionHeaderSegmentV3") (B "HNVSK") 3
    [emb "ClientSegment";
     ptr "SecurityProfile" "element.SecurityProfileDataElement";
     ptr "SecurityFunction" "element.CodeDataElement";
     ptr "SecuritySupplierRole" "element.CodeDataElement";
     ptr "SecurityID" "element.SecurityIdentificationDataElement";
     ptr "SecurityDate" "element.SecurityDateDataElement";
     ptr "EncryptionAlgorithm" "element.EncryptionAlgorithmDataElement";
     ptr "KeyName" "element.KeyNameDataElement";
     ptr "CompressionFunction" "element.CodeDataElement";
     ptr "Certificate" "element.CertificateDataElement"]
    [at_line "SecurityProfile" 171; at_line "SecurityFunction" 172; at_line "SecuritySupplierRole" 173; at_line "SecurityID" 174; at_line "SecurityDate" 175; at_line "EncryptionAlgorithm" 176; at_line "KeyName" 177; at_line "CompressionFunction" 178; at_line "Certificate" 179].

(** segment/message_end.go:15-18, 25-29 *)
Definition lib_MessageEndSegment : library_segment :=
  mkLib (B "MessageEndSegment") (B "HNHBS") 1
    [emb "ClientSegment";
     ptr "Number" "element.NumberDataElement"]
    [at_line "Number" 27].

(** segment/message_header.go:29-36, 55-63 *)
Definition lib_MessageHeaderSegment : library_segment :=
  mkLib (B "MessageHeaderSegment") (B "HNHBK") 3
    [emb "ClientSegment";
     ptr "Size" "element.DigitDataElement";
     ptr "HBCIVersion" "element.NumberDataElement";
     ptr "DialogID" "element.IdentificationDataElement";
     ptr "Number" "element.NumberDataElement";
     ptr "Ref" "element.ReferencingMessageDataElement"]
    [at_line "Size" 57; at_line "HBCIVersion" 58; at_line "DialogID" 59; at_line "Number" 60; at_line "Ref" 61].

(** segment/pin_bpd.go:24-31, 38-45 *)
Definition lib_PinTanBankParameterV1 : library_segment :=
  mkLib (B "PinTanBankParameterV1") (B "HIPINS") 1
    [emb "Segment";
     ptr "MaxJobs" "element.NumberDataElement";
     ptr "MinSignatures" "element.NumberDataElement";
     ptr "XXX_Unknown" "element.NumberDataElement";
     ptr "PinTanSpecificParams" "element.PinTanSpecificParamDataElement"]
    [at_line "MaxJobs" 40; at_line "MinSignatures" 41; at_line "XXX_Unknown" 42; at_line "PinTanSpecificParams" 43].

(** segment/signature_end.go:33-38, 45-51 *)
Definition lib_SignatureEndV1 : library_segment :=
  mkLib (B "SignatureEndV1") (B "HNSHA") 1
    [emb "ClientSegment";
     ptr "SecurityControlRef" "element.AlphaNumericDataElement";
     ptr "Signature" "element.BinaryDataElement";
     ptr "PinTan" "element.PinTanDataElement"]
    [at_line "SecurityControlRef" 47; at_line "Signature" 48; at_line "PinTan" 49].

(** segment/signature_end.go:74-79, 86-92 *)
Definition lib_SignatureEndV2 : library_segment :=
  mkLib (B "SignatureEndV2") (B "HNSHA") 2
    [emb "ClientSegment";
     ptr "SecurityControlRef" "element.AlphaNumericDataElement";
     ptr "Signature" "element.BinaryDataElement";
     ptr "CustomSignature" "element.CustomSignatureDataElement"]
    [at_line "SecurityControlRef" 88; at_line "Signature" 89; at_line "CustomSignature" 90].

(** segment/signature_header.go:88-109, 136-150 *)
Definition lib_SignatureHeaderV3 : library_segment :=
  mkLib (B "SignatureHeaderV3") (B "HNSHK") 3
    [emb "ClientSegment";
     ptr "SecurityFunction" "element.AlphaNumericDataElement";
     ptr "SecurityControlRef" "element.AlphaNumericDataElement";
     ptr "SecurityApplicationRange" "element.AlphaNumericDataElement";
     ptr "SecuritySupplierRole" "element.AlphaNumericDataElement";
     ptr "SecurityID" "element.SecurityIdentificationDataElement";
     ptr "SecurityRefNumber" "element.NumberDataElement";
     ptr "SecurityDate" "element.SecurityDateDataElement";
     ptr "HashAlgorithm" "element.HashAlgorithmDataElement";
     ptr "SignatureAlgorithm" "element.SignatureAlgorithmDataElement";
     ptr "KeyName" "element.KeyNameDataElement";
     ptr "Certificate" "element.CertificateDataElement"]
    [at_line "SecurityFunction" 138; at_line "SecurityControlRef" 139; at_line "SecurityApplicationRange" 140; at_line "SecuritySupplierRole" 141; at_line "SecurityID" 142; at_line "SecurityRefNumber" 143; at_line "SecurityDate" 144; at_line "HashAlgorithm" 145; at_line "SignatureAlgorithm" 146; at_line "KeyName" 147; at_line "Certificate" 148].

(** segment/signature_header.go:189-211, 243-258 *)
Definition lib_SignatureHeaderSegmentV4 : library_segment :=
  mkLib (B "SignatureHeaderSegmentV4") (B "HNSHK") 4
    [emb "ClientSegment";
     ptr "SecurityProfile" "element.SecurityProfileDataElement";
     ptr "SecurityFunction" "element.CodeDataElement";
     ptr "SecurityControlRef" "element.AlphaNumericDataElement";
     ptr "SecurityApplicationRange" "element.CodeDataElement";
     ptr "SecuritySupplierRole" "element.CodeDataElement";
     ptr "SecurityID" "element.SecurityIdentificationDataElement";
     ptr "SecurityRefNumber" "element.NumberDataElement";
     ptr "SecurityDate" "element.SecurityDateDataElement";
     ptr "HashAlgorithm" "element.HashAlgorithmDataElement";
     ptr "SignatureAlgorithm" "element.SignatureAlgorithmDataElement";
     ptr "KeyName" "element.KeyNameDataElement";
     ptr "Certificate" "element.CertificateDataElement"]
    [at_line "SecurityProfile" 245; at_line "SecurityFunction" 246; at_line "SecurityControlRef" 247; at_line "SecurityApplicationRange" 248; at_line "SecuritySupplierRole" 249; at_line "SecurityID" 250; at_line "SecurityRefNumber" 251; at_line "SecurityDate" 252; at_line "HashAlgorithm" 253; at_line "SignatureAlgorithm" 254; at_line "KeyName" 255; at_line "Certificate" 256].

(** segment/status_protocol.go:112-119, 126-134 *)
Definition lib_StatusProtocolResponseSegmentV3 : library_segment :=
  mkLib (B "StatusProtocolResponseSegmentV3") (B "HIPRO") 3
    [emb "Segment";
     ptr "ReferencingMessage" "element.ReferencingMessageDataElement";
     ptr "ReferencingSegment" "element.NumberDataElement";
     ptr "Date" "element.DateDataElement";
     ptr "Time" "element.TimeDataElement";
     ptr "Acknowledgement" "element.AcknowledgementDataElement"]
    [at_line "ReferencingMessage" 128; at_line "ReferencingSegment" 129; at_line "Date" 130; at_line "Time" 131; at_line "Acknowledgement" 132].

(** segment/status_protocol.go:152-159, 166-174 *)
Definition lib_StatusProtocolResponseSegmentV4 : library_segment :=
  mkLib (B "StatusProtocolResponseSegmentV4") (B "HIPRO") 4
    [emb "Segment";
     ptr "ReferencingMessage" "element.ReferencingMessageDataElement";
     ptr "ReferencingSegment" "element.NumberDataElement";
     ptr "Date" "element.DateDataElement";
     ptr "Time" "element.TimeDataElement";
     ptr "Acknowledgement" "element.AcknowledgementDataElement"]
    [at_line "ReferencingMessage" 168; at_line "ReferencingSegment" 169; at_line "Date" 170; at_line "Time" 171; at_line "Acknowledgement" 172].

(** segment/supported_compression_method.go:7-10, 17-21 *)
Definition lib_CompressionMethodSegment : library_segment :=
  mkLib (B "CompressionMethodSegment") (B "HIKPV") 1
    [emb "Segment";
     ptr "SupportedCompressionMethods" "element.SupportedCompressionMethodsDataElement"]
    [at_line "SupportedCompressionMethods" 19].

(** segment/supported_security_method.go:7-11, 18-23 *)
Definition lib_SecurityMethodSegment : library_segment :=
  mkLib (B "SecurityMethodSegment") (B "HISHV") 2
    [emb "Segment";
     ptr "MixAllowed" "element.BooleanDataElement";
     ptr "SupportedMethods" "element.SupportedSecurityMethodDataElement"]
    [at_line "MixAllowed" 20; at_line "SupportedMethods" 21].

(** segment/sync.go:103-108, 115-121 *)
Definition lib_SynchronisationResponseSegmentV3 : library_segment :=
  mkLib (B "SynchronisationResponseSegmentV3") (B "HISYN") 3
    [emb "Segment";
     ptr "ClientSystemIDResponse" "element.IdentificationDataElement";
     ptr "MessageNumberResponse" "element.NumberDataElement";
     ptr "SignatureIDResponse" "element.NumberDataElement"]
    [at_line "ClientSystemIDResponse" 117; at_line "MessageNumberResponse" 118; at_line "SignatureIDResponse" 119].

(** segment/sync.go:135-140, 147-153 *)
Definition lib_SynchronisationResponseSegmentV4 : library_segment :=
  mkLib (B "SynchronisationResponseSegmentV4") (B "HISYN") 4
    [emb "Segment";
     ptr "ClientSystemIDResponse" "element.IdentificationDataElement";
     ptr "MessageNumberResponse" "element.NumberDataElement";
     ptr "SignatureIDResponse" "element.NumberDataElement"]
    [at_line "ClientSystemIDResponse" 149; at_line "MessageNumberResponse" 150; at_line "SignatureIDResponse" 151].

(** segment/tan.go:135-144, 151-157 *)
Definition lib_TanResponseSegmentV6 : library_segment :=
  mkLib (B "TanResponseSegmentV6") (B "HITAN") 6
    [emb "Segment";
     ptr "TANProcess" "element.AlphaNumericDataElement";
     ptr "JobHash" "element.BinaryDataElement";
     ptr "JobReference" "element.AlphaNumericDataElement";
     ptr "Challenge" "element.AlphaNumericDataElement";
     ptr "ChallengeHHD_UC" "element.BinaryDataElement";
     ptr "TANMediumDescription" "element.AlphaNumericDataElement";
     ptr "ChallengeExpiryDate" "element.TanChallengeExpiryDate"]
    [at_line "TANProcess" 153; at_line "JobHash" 154; at_line "JobReference" 155].

(** segment/tan_bpd.go:23-29, 36-43 *)
Definition lib_TanBankParameterV6 : library_segment :=
  mkLib (B "TanBankParameterV6") (B "HITANS") 6
    [emb "Segment";
     ptr "MaxJobs" "element.NumberDataElement";
     ptr "MinSignatures" "element.NumberDataElement";
     ptr "SecurityClass" "element.CodeDataElement";
     ptr "Tan2StepSubmissionParameter" "element.Tan2StepSubmissionParameterV6"]
    [at_line "MaxJobs" 38; at_line "MinSignatures" 39; at_line "SecurityClass" 40; at_line "Tan2StepSubmissionParameter" 41].

(** segment/user_parameter_data.go:26-39, 46-52 *)
Definition lib_CommonUserParameterDataV2 : library_segment :=
  mkLib (B "CommonUserParameterDataV2") (B "HIUPA") 2
    [emb "Segment";
     ptr "UserID" "element.IdentificationDataElement";
     ptr "UPDVersion" "element.NumberDataElement";
     ptr "UPDUsage" "element.NumberDataElement"]
    [at_line "UserID" 48; at_line "UPDVersion" 49; at_line "UPDUsage" 50].

(** segment/user_parameter_data.go:62-77, 84-92 *)
Definition lib_CommonUserParameterDataV3 : library_segment :=
  mkLib (B "CommonUserParameterDataV3") (B "HIUPA") 3
    [emb "Segment";
     ptr "UserID" "element.IdentificationDataElement";
     ptr "UPDVersion" "element.NumberDataElement";
     ptr "UPDUsage" "element.NumberDataElement";
     ptr "UserName" "element.AlphaNumericDataElement";
     ptr "CommonExtensions" "element.AlphaNumericDataElement"]
    [at_line "UserID" 86; at_line "UPDVersion" 87; at_line "UPDUsage" 88; at_line "UserName" 89; at_line "CommonExtensions" 90].

(** segment/user_parameter_data.go:102-117, 124-132 *)
Definition lib_CommonUserParameterDataV4 : library_segment :=
  mkLib (B "CommonUserParameterDataV4") (B "HIUPA") 4
    [emb "Segment";
     ptr "UserID" "element.IdentificationDataElement";
     ptr "UPDVersion" "element.NumberDataElement";
     ptr "UPDUsage" "element.NumberDataElement";
     ptr "UserName" "element.AlphaNumericDataElement";
     ptr "CommonExtensions" "element.AlphaNumericDataElement"]
    [at_line "UserID" 126; at_line "UPDVersion" 127; at_line "UPDUsage" 128; at_line "UserName" 129; at_line "CommonExtensions" 130].

Definition library : list library_segment :=
  [lib_AccountBalanceResponseSegmentV5;
   lib_AccountBalanceResponseSegmentV6;
   lib_AccountBalanceResponseSegmentV7;
   lib_AccountBalanceResponseSegmentV8;
   lib_AccountInformationResponseSegment;
   lib_AccountTransactionResponseSegmentV5;
   lib_AccountTransactionResponseSegmentV6;
   lib_AccountTransactionResponseSegmentV7;
   lib_BankAnnouncementSegment;
   lib_AccountInformationV4;
   lib_AccountInformationV5;
   lib_AccountInformationV6;
   lib_AccountInformationV7;
   lib_CommonBankParameterV2;
   lib_CommonBankParameterV3;
   lib_CommunicationAccessResponseSegment;
   lib_EncryptedDataSegment;
   lib_EncryptionHeaderV2;
   lib_EncryptionHeaderSegmentV3;
   lib_MessageEndSegment;
   lib_MessageHeaderSegment;
   lib_PinTanBankParameterV1;
   lib_SignatureEndV1;
   lib_SignatureEndV2;
   lib_SignatureHeaderV3;
   lib_SignatureHeaderSegmentV4;
   lib_StatusProtocolResponseSegmentV3;
   lib_StatusProtocolResponseSegmentV4;
   lib_CompressionMethodSegment;
   lib_SecurityMethodSegment;
   lib_SynchronisationResponseSegmentV3;
   lib_SynchronisationResponseSegmentV4;
   lib_TanResponseSegmentV6;
   lib_TanBankParameterV6;
   lib_CommonUserParameterDataV2;
   lib_CommonUserParameterDataV3;
   lib_CommonUserParameterDataV4].

(** The declarations of a segment in its file *)
Definition source_of (s : library_segment) : list gdecl :=
  [DStruct (ls_name s) (ls_fields s);
   DMethod [RPointer (ls_name s)] (B "elements")
     (Some [SReturn [RComposite (B "[]element.DataElement") (map (fun e => mkElem (XSel (XIdent (name_var (ls_name s))) (fst e)) (snd e)) (ls_elements s))]])].
