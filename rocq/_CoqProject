-Q theories Verif
theories/Base.v
theories/BaseFacts.v
theories/Lexer_Model.v
theories/Lexer_Spec.v
theories/Lexer_Proofs.v
theories/Lexer_Facts.v
theories/Lexer_Props.v
theories/Codec_Model.v
theories/Codec_Spec.v
theories/Codec_Proofs.v
theories/Codec_Props.v
theories/Wire_Model.v
theories/Wire_Spec.v
theories/Wire_Proofs.v
theories/Wire_Facts.v
theories/Wire_Facts2.v
theories/Wire_Facts3.v
theories/Wire_Props.v
theories/Message_Model.v
theories/Message_Spec.v
theories/Message_Proofs.v
theories/Message_Facts.v
theories/Message_Facts2.v
theories/Message_Facts3.v
theories/Message_Props.v
theories/Dialog_Model.v
theories/Dialog_Spec.v
theories/Dialog_Proofs.v
theories/Dialog_Facts.v
theories/Dialog_Facts2.v
theories/Dialog_Facts3.v
theories/Dialog_Facts4.v
theories/Dialog_Props.v
theories/Merge_Model.v
theories/Merge_Proofs.v
theories/Merge_Props.v
theories/Client_Model.v
theories/Client_Spec.v
theories/Client_Proofs.v
theories/Client_Facts.v
theories/Client_Facts2.v
theories/Client_Props.v
theories/Iban_Model.v
theories/Iban_Spec.v
theories/Iban_Proofs.v
theories/Iban_Facts.v
theories/Iban_Props.v
theories/Swift_Model.v
theories/Swift_Spec.v
theories/Swift_Proofs.v
theories/Swift_Facts.v
theories/Swift_Facts2.v
theories/Swift_Facts3.v
theories/Swift_Facts4.v
theories/Swift_Props.v
theories/Mt940_Model.v
theories/Mt940_Spec.v
theories/Mt940_Proofs.v
theories/Mt940_Facts.v
theories/Mt940_Facts2.v
theories/Mt940_Facts3.v
theories/Mt940_Facts4.v
theories/Mt940_Props.v
theories/Time_Model.v
theories/Time_Spec.v
theories/Time_Props.v
theories/Bank_Model.v
theories/Bank_Spec.v
theories/Bank_Data.v
theories/Bank_Props.v
theories/Csv_Model.v
theories/Csv_Spec.v
theories/Csv_Facts.v
theories/Csv_Facts2.v
theories/Csv_Props.v
theories/Gosrc_Model.v
theories/Gosrc_Spec.v
theories/Gosrc_Facts.v
theories/Gosrc_Facts2.v
theories/Gosrc_Facts3.v
theories/Gosrc_Props.v
theories/Utf8_Model.v
theories/Utf8_Spec.v
theories/Utf8_Facts.v
theories/Utf8_Props.v
theories/Gen_Model.v
theories/Gen_Spec.v
theories/Gen_Facts.v
theories/Gen_Facts2.v
theories/Gen_Props.v
theories/Gen_Text.v
theories/Gen_Library.v
theories/Gen_Index.v
theories/Transport_Model.v
theories/Transport_Spec.v
theories/Transport_Proofs.v
theories/Transport_Props.v
theories/Seg_Model.v
theories/Seg_Spec.v
theories/Seg_Facts.v
theories/Seg_Facts2.v
theories/Seg_Facts3.v
theories/Seg_Facts4.v
theories/Seg_Facts5.v
theories/Seg_Props.v
theories/Seg_Props2.v
theories/Request_Model.v
theories/Request_Spec.v
theories/Request_Facts.v
theories/Request_Facts2.v
theories/Request_Facts3.v
theories/Request_Facts4.v
theories/Crc_Facts.v
theories/Request_Props.v
theories/Answer_Spec.v
theories/Kept_Facts.v
theories/Answer_Facts.v
theories/Answer_Facts2.v
theories/Answer_Props.v
theories/Kept_Props.v
theories/Crash_Spec.v
theories/Crash_Facts.v
theories/Crash_Facts2.v
theories/Crash_Facts3.v
theories/Crash_Facts4.v
theories/Crash_Props.v
theories/Stack_Spec.v
theories/Stack_Facts.v
theories/Stack_Props.v
theories/Rsa_Facts.v
theories/Crypto_Model.v
theories/Crypto_Spec.v
theories/Crypto_Facts.v
theories/Crypto_Facts2.v
theories/Crypto_Facts3.v
theories/Crypto_Facts4.v
theories/Crypto_Props.v
theories/Iso_Props.v
theories/Log_Model.v
theories/Log_Spec.v
theories/Log_Facts.v
theories/Log_Facts2.v
theories/Log_Facts3.v
theories/Log_Props.v
theories/Read_Spec.v
theories/Read_Facts.v
theories/Read_Facts2.v
theories/Read_Props.v
theories/Key_Model.v
theories/Key_Spec.v
theories/Key_Facts.v
theories/Key_Facts2.v
theories/Key_Witness.v
theories/Key_Props.v
theories/Key_Props2.v
theories/Valid_Model.v
theories/Valid_Spec.v
theories/Valid_Facts.v
theories/Valid_Props.v
theories/Valid_Props2.v
theories/Error_Model.v
theories/Error_Spec.v
theories/Error_Facts.v
theories/Error_Facts2.v
theories/Error_Facts3.v
theories/Error_Props.v
theories/Print_Model.v
theories/Print_Spec.v
theories/Print_Facts.v
theories/Print_Facts2.v
theories/Print_Props.v
theories/Print_Tables.v
theories/Print_Props2.v
theories/Cli_Model.v
theories/Cli_Spec.v
theories/Cli_Dates.v
theories/Cli_Props.v
theories/Cli_Stack.v
theories/Anon_Model.v
theories/Anon_Spec.v
theories/Anon_Facts.v
theories/Anon_Facts2.v
theories/Anon_Props.v
theories/Accept_Spec.v
theories/Accept_Facts.v
theories/Accept_Facts2.v
theories/Accept_Facts3.v
theories/Accept_Facts4.v
theories/Accept_Props.v
theories/Reason_Spec.v
theories/Reason_Facts.v
theories/Reason_Facts2.v
theories/Reason_Props.v
theories/Mock_Model.v
theories/Mock_Spec.v
theories/Mock_Props.v
theories/Lookup_Model.v
theories/Lookup_Spec.v
theories/Lookup_Props.v
theories/Params_Model.v
theories/Params_Spec.v
theories/Params_Props.v
theories/Cut_Model.v
theories/Cut_Spec.v
theories/Cut_Props.v
theories/Today_Model.v
theories/Today_Spec.v
theories/Today_Props.v
theories/Switch_Model.v
theories/Switch_Spec.v
theories/Switch_Props.v
theories/Switch_Props2.v
theories/Status_Model.v
theories/Status_Spec.v
theories/Status_Props.v
theories/Tags_Model.v
theories/Tags_Spec.v
theories/Tags_Props.v
theories/Keyname_Model.v
theories/Keyname_Spec.v
theories/Keyname_Props.v
theories/Pintan_Model.v
theories/Pintan_Props.v
theories/Signer_Model.v
theories/Signer_Props.v
