(** * The bank table bankinfo/data.go:1-36457, entry by entry in its order

    Generated from that file: bank ID, version number, URL and version name.
    Simplification: BIC, institute, city and date of the last change, which the
    client does not use, are left empty. *)
From Verif Require Import Base Bank_Model.

(** bankinfo/data.go, one entry *)
Definition E (id number url name : string) : bank_info :=
  mkBi (B id) [] (B number) (B url) (B name) [] [] [].
Arguments E (id number url name)%string_scope.

(** bankinfo/data.go:6-2505 *)
Definition table_00 : list bank_info :=
  [E "10010010" "" "https://hbci.postbank.de/banking/hbci.do" "FinTS V3.0";
   E "10020200" "3.0" "https://www.bv-activebanking.de/hbciTunnel/hbciTransfer.jsp" "FinTS V3.0";
   E "10020890" "3.0" "https://hbci-01.hypovereinsbank.de/bank/hbci" "FinTS V3.0";
   E "10020890" "3.0" "https://hbci-01.hypovereinsbank.de/bank/hbci" "FinTS V3.0";
   E "10020890" "3.0" "https://hbci-01.hypovereinsbank.de/bank/hbci" "FinTS V3.0";
   E "10020890" "3.0" "https://hbci-01.hypovereinsbank.de/bank/hbci" "FinTS V3.0";
   E "10020890" "3.0" "https://hbci-01.hypovereinsbank.de/bank/hbci" "FinTS V3.0";
   E "10020890" "3.0" "https://hbci-01.hypovereinsbank.de/bank/hbci" "FinTS V3.0";
   E "10030500" "3.0" "https://www.warburg-bank.de/fints" "FinTS V3.0";
   E "10030600" "3.0" "https://fints2.atruvia.de/cgi-bin/hbciservlet" "FinTS V3.0";
   E "10030700" "3.0" "https://fints2.atruvia.de/cgi-bin/hbciservlet" "FinTS V3.0";
   E "10033300" "3.0" "" "";
   E "10040000" "3.0" "" "";
   E "10050000" "" "https://banking-be3.s-fints-pt-be.de/fints30" "FinTS V3.0";
   E "10070000" "3.0" "https://fints.deutsche-bank.de/" "FinTS V3.0";
   E "10070024" "3.0" "https://fints.deutsche-bank.de/" "FinTS V3.0";
   E "10070100" "3.0" "https://fints.deutsche-bank.de/" "FinTS V3.0";
   E "10070124" "3.0" "https://fints.deutsche-bank.de/" "FinTS V3.0";
   E "10077777" "" "https://fints.norisbank.de/" "FinTS V3.0";
   E "10090000" "3.0" "https://fints2.atruvia.de/cgi-bin/hbciservlet" "FinTS V3.0";
   E "10090900" "" "https://fints2.atruvia.de/cgi-bin/hbciservlet" "FinTS V3.0";
   E "10120100" "" "https://banking-bb6.s-fints-pt-bb.de/fints30" "FinTS V3.0";
   E "10130600" "" "https://www.bv-activebanking.de/hbciTunnel/hbciTransfer.jsp" "FinTS V3.0";
   E "10130800" "3.0" "https://konto.biw-bank.de/hbci/" "FinTS V3.0";
   E "12030000" "" "https://banking-dkb.s-fints-pt-dkb.de/fints30" "FinTS V3.0";
   E "12030000" "" "https://banking-dkb.s-fints-pt-dkb.de/fints30" "FinTS V3.0";
   E "12030900" "3.0" "https://www.bv-activebanking.de/hbciTunnel/hbciTransfer.jsp" "FinTS V3.0";
   E "12040000" "3.0" "" "";
   E "12070000" "3.0" "https://fints.deutsche-bank.de/" "FinTS V3.0";
   E "12070000" "3.0" "https://fints.deutsche-bank.de/" "FinTS V3.0";
   E "12070000" "3.0" "https://fints.deutsche-bank.de/" "FinTS V3.0";
   E "12070000" "3.0" "https://fints.deutsche-bank.de/" "FinTS V3.0";
   E "12070000" "3.0" "https://fints.deutsche-bank.de/" "FinTS V3.0";
   E "12070000" "3.0" "https://fints.deutsche-bank.de/" "FinTS V3.0";
   E "12070000" "3.0" "https://fints.deutsche-bank.de/" "FinTS V3.0";
   E "12070000" "3.0" "https://fints.deutsche-bank.de/" "FinTS V3.0";
   E "12070000" "3.0" "https://fints.deutsche-bank.de/" "FinTS V3.0";
   E "12070000" "3.0" "https://fints.deutsche-bank.de/" "FinTS V3.0";
   E "12070000" "3.0" "https://fints.deutsche-bank.de/" "FinTS V3.0";
   E "12070000" "3.0" "https://fints.deutsche-bank.de/" "FinTS V3.0";
   E "12070000" "3.0" "https://fints.deutsche-bank.de/" "FinTS V3.0";
   E "12070000" "3.0" "https://fints.deutsche-bank.de/" "FinTS V3.0";
   E "12070000" "3.0" "https://fints.deutsche-bank.de/" "FinTS V3.0";
   E "12070000" "3.0" "https://fints.deutsche-bank.de/" "FinTS V3.0";
   E "12070000" "3.0" "https://fints.deutsche-bank.de/" "FinTS V3.0";
   E "12070000" "3.0" "https://fints.deutsche-bank.de/" "FinTS V3.0";
   E "12070000" "3.0" "https://fints.deutsche-bank.de/" "FinTS V3.0";
   E "12070000" "3.0" "https://fints.deutsche-bank.de/" "FinTS V3.0";
   E "12070000" "3.0" "https://fints.deutsche-bank.de/" "FinTS V3.0";
   E "12070000" "3.0" "https://fints.deutsche-bank.de/" "FinTS V3.0";
   E "12070000" "3.0" "https://fints.deutsche-bank.de/" "FinTS V3.0";
   E "12070000" "3.0" "https://fints.deutsche-bank.de/" "FinTS V3.0";
   E "12070000" "3.0" "https://fints.deutsche-bank.de/" "FinTS V3.0";
   E "12070000" "3.0" "https://fints.deutsche-bank.de/" "FinTS V3.0";
   E "12070000" "3.0" "https://fints.deutsche-bank.de/" "FinTS V3.0";
   E "12070000" "3.0" "https://fints.deutsche-bank.de/" "FinTS V3.0";
   E "12070000" "3.0" "https://fints.deutsche-bank.de/" "FinTS V3.0";
   E "12070000" "3.0" "https://fints.deutsche-bank.de/" "FinTS V3.0";
   E "12070000" "3.0" "https://fints.deutsche-bank.de/" "FinTS V3.0";
   E "12070000" "3.0" "https://fints.deutsche-bank.de/" "FinTS V3.0";
   E "12070000" "3.0" "https://fints.deutsche-bank.de/" "FinTS V3.0";
   E "12070000" "3.0" "https://fints.deutsche-bank.de/" "FinTS V3.0";
   E "12070000" "3.0" "https://fints.deutsche-bank.de/" "FinTS V3.0";
   E "12070000" "3.0" "https://fints.deutsche-bank.de/" "FinTS V3.0";
   E "12070000" "3.0" "https://fints.deutsche-bank.de/" "FinTS V3.0";
   E "12070000" "3.0" "https://fints.deutsche-bank.de/" "FinTS V3.0";
   E "12070024" "3.0" "https://fints.deutsche-bank.de/" "FinTS V3.0";
   E "12070024" "3.0" "https://fints.deutsche-bank.de/" "FinTS V3.0";
   E "12070024" "3.0" "https://fints.deutsche-bank.de/" "FinTS V3.0";
   E "12070024" "3.0" "https://fints.deutsche-bank.de/" "FinTS V3.0";
   E "12070024" "3.0" "https://fints.deutsche-bank.de/" "FinTS V3.0";
   E "12070024" "3.0" "https://fints.deutsche-bank.de/" "FinTS V3.0";
   E "12070024" "3.0" "https://fints.deutsche-bank.de/" "FinTS V3.0";
   E "12070024" "3.0" "https://fints.deutsche-bank.de/" "FinTS V3.0";
   E "12070024" "3.0" "https://fints.deutsche-bank.de/" "FinTS V3.0";
   E "12070024" "3.0" "https://fints.deutsche-bank.de/" "FinTS V3.0";
   E "12070024" "3.0" "https://fints.deutsche-bank.de/" "FinTS V3.0";
   E "12070024" "3.0" "https://fints.deutsche-bank.de/" "FinTS V3.0";
   E "12070024" "3.0" "https://fints.deutsche-bank.de/" "FinTS V3.0";
   E "12070024" "3.0" "https://fints.deutsche-bank.de/" "FinTS V3.0";
   E "12070024" "3.0" "https://fints.deutsche-bank.de/" "FinTS V3.0";
   E "12070024" "3.0" "https://fints.deutsche-bank.de/" "FinTS V3.0";
   E "12070024" "3.0" "https://fints.deutsche-bank.de/" "FinTS V3.0";
   E "12070024" "3.0" "https://fints.deutsche-bank.de/" "FinTS V3.0";
   E "12070024" "3.0" "https://fints.deutsche-bank.de/" "FinTS V3.0";
   E "12070024" "3.0" "https://fints.deutsche-bank.de/" "FinTS V3.0";
   E "12070024" "3.0" "https://fints.deutsche-bank.de/" "FinTS V3.0";
   E "12070024" "3.0" "https://fints.deutsche-bank.de/" "FinTS V3.0";
   E "12070024" "3.0" "https://fints.deutsche-bank.de/" "FinTS V3.0";
   E "12070024" "3.0" "https://fints.deutsche-bank.de/" "FinTS V3.0";
   E "12070024" "3.0" "https://fints.deutsche-bank.de/" "FinTS V3.0";
   E "12070024" "3.0" "https://fints.deutsche-bank.de/" "FinTS V3.0";
   E "12070024" "3.0" "https://fints.deutsche-bank.de/" "FinTS V3.0";
   E "12070024" "3.0" "https://fints.deutsche-bank.de/" "FinTS V3.0";
   E "12070024" "3.0" "https://fints.deutsche-bank.de/" "FinTS V3.0";
   E "12070024" "3.0" "https://fints.deutsche-bank.de/" "FinTS V3.0";
   E "12070024" "3.0" "https://fints.deutsche-bank.de/" "FinTS V3.0";
   E "12070024" "3.0" "https://fints.deutsche-bank.de/" "FinTS V3.0";
   E "12070024" "3.0" "https://fints.deutsche-bank.de/" "FinTS V3.0";
   E "12070024" "3.0" "https://fints.deutsche-bank.de/" "FinTS V3.0";
   E "12070024" "3.0" "https://fints.deutsche-bank.de/" "FinTS V3.0";
   E "12070024" "3.0" "https://fints.deutsche-bank.de/" "FinTS V3.0";
   E "12070024" "3.0" "https://fints.deutsche-bank.de/" "FinTS V3.0";
   E "12070024" "3.0" "https://fints.deutsche-bank.de/" "FinTS V3.0";
   E "12096597" "3.0" "https://fints2.atruvia.de/cgi-bin/hbciservlet" "FinTS V3.0";
   E "13040000" "3.0" "" "";
   E "13040000" "3.0" "" "";
   E "13040000" "3.0" "" "";
   E "13050000" "" "https://banking-mv6.s-fints-pt-mv.de/fints30" "FinTS V3.0";
   E "13070000" "3.0" "https://fints.deutsche-bank.de/" "FinTS V3.0";
   E "13070000" "3.0" "https://fints.deutsche-bank.de/" "FinTS V3.0";
   E "13070000" "3.0" "https://fints.deutsche-bank.de/" "FinTS V3.0";
   E "13070000" "3.0" "https://fints.deutsche-bank.de/" "FinTS V3.0";
   E "13070000" "3.0" "https://fints.deutsche-bank.de/" "FinTS V3.0";
   E "13070000" "3.0" "https://fints.deutsche-bank.de/" "FinTS V3.0";
   E "13070000" "3.0" "https://fints.deutsche-bank.de/" "FinTS V3.0";
   E "13070000" "3.0" "https://fints.deutsche-bank.de/" "FinTS V3.0";
   E "13070000" "3.0" "https://fints.deutsche-bank.de/" "FinTS V3.0";
   E "13070000" "3.0" "https://fints.deutsche-bank.de/" "FinTS V3.0";
   E "13070000" "3.0" "https://fints.deutsche-bank.de/" "FinTS V3.0";
   E "13070000" "3.0" "https://fints.deutsche-bank.de/" "FinTS V3.0";
   E "13070000" "3.0" "https://fints.deutsche-bank.de/" "FinTS V3.0";
   E "13070000" "3.0" "https://fints.deutsche-bank.de/" "FinTS V3.0";
   E "13070000" "3.0" "https://fints.deutsche-bank.de/" "FinTS V3.0";
   E "13070000" "3.0" "https://fints.deutsche-bank.de/" "FinTS V3.0";
   E "13070000" "3.0" "https://fints.deutsche-bank.de/" "FinTS V3.0";
   E "13070000" "3.0" "https://fints.deutsche-bank.de/" "FinTS V3.0";
   E "13070000" "3.0" "https://fints.deutsche-bank.de/" "FinTS V3.0";
   E "13070000" "3.0" "https://fints.deutsche-bank.de/" "FinTS V3.0";
   E "13070000" "3.0" "https://fints.deutsche-bank.de/" "FinTS V3.0";
   E "13070000" "3.0" "https://fints.deutsche-bank.de/" "FinTS V3.0";
   E "13070000" "3.0" "https://fints.deutsche-bank.de/" "FinTS V3.0";
   E "13070000" "3.0" "https://fints.deutsche-bank.de/" "FinTS V3.0";
   E "13070000" "3.0" "https://fints.deutsche-bank.de/" "FinTS V3.0";
   E "13070000" "3.0" "https://fints.deutsche-bank.de/" "FinTS V3.0";
   E "13070000" "3.0" "https://fints.deutsche-bank.de/" "FinTS V3.0";
   E "13070000" "3.0" "https://fints.deutsche-bank.de/" "FinTS V3.0";
   E "13070000" "3.0" "https://fints.deutsche-bank.de/" "FinTS V3.0";
   E "13070000" "3.0" "https://fints.deutsche-bank.de/" "FinTS V3.0";
   E "13070000" "3.0" "https://fints.deutsche-bank.de/" "FinTS V3.0";
   E "13070000" "3.0" "https://fints.deutsche-bank.de/" "FinTS V3.0";
   E "13070000" "3.0" "https://fints.deutsche-bank.de/" "FinTS V3.0";
   E "13070000" "3.0" "https://fints.deutsche-bank.de/" "FinTS V3.0";
   E "13070000" "3.0" "https://fints.deutsche-bank.de/" "FinTS V3.0";
   E "13070024" "3.0" "https://fints.deutsche-bank.de/" "FinTS V3.0";
   E "13070024" "3.0" "https://fints.deutsche-bank.de/" "FinTS V3.0";
   E "13070024" "3.0" "https://fints.deutsche-bank.de/" "FinTS V3.0";
   E "13070024" "3.0" "https://fints.deutsche-bank.de/" "FinTS V3.0";
   E "13070024" "3.0" "https://fints.deutsche-bank.de/" "FinTS V3.0";
   E "13070024" "3.0" "https://fints.deutsche-bank.de/" "FinTS V3.0";
   E "13070024" "3.0" "https://fints.deutsche-bank.de/" "FinTS V3.0";
   E "13070024" "3.0" "https://fints.deutsche-bank.de/" "FinTS V3.0";
   E "13070024" "3.0" "https://fints.deutsche-bank.de/" "FinTS V3.0";
   E "13070024" "3.0" "https://fints.deutsche-bank.de/" "FinTS V3.0";
   E "13070024" "3.0" "https://fints.deutsche-bank.de/" "FinTS V3.0";
   E "13070024" "3.0" "https://fints.deutsche-bank.de/" "FinTS V3.0";
   E "13070024" "3.0" "https://fints.deutsche-bank.de/" "FinTS V3.0";
   E "13070024" "3.0" "https://fints.deutsche-bank.de/" "FinTS V3.0";
   E "13070024" "3.0" "https://fints.deutsche-bank.de/" "FinTS V3.0";
   E "13070024" "3.0" "https://fints.deutsche-bank.de/" "FinTS V3.0";
   E "13070024" "3.0" "https://fints.deutsche-bank.de/" "FinTS V3.0";
   E "13070024" "3.0" "https://fints.deutsche-bank.de/" "FinTS V3.0";
   E "13070024" "3.0" "https://fints.deutsche-bank.de/" "FinTS V3.0";
   E "13070024" "3.0" "https://fints.deutsche-bank.de/" "FinTS V3.0";
   E "13070024" "3.0" "https://fints.deutsche-bank.de/" "FinTS V3.0";
   E "13070024" "3.0" "https://fints.deutsche-bank.de/" "FinTS V3.0";
   E "13070024" "3.0" "https://fints.deutsche-bank.de/" "FinTS V3.0";
   E "13070024" "3.0" "https://fints.deutsche-bank.de/" "FinTS V3.0";
   E "13070024" "3.0" "https://fints.deutsche-bank.de/" "FinTS V3.0";
   E "13070024" "3.0" "https://fints.deutsche-bank.de/" "FinTS V3.0";
   E "13070024" "3.0" "https://fints.deutsche-bank.de/" "FinTS V3.0";
   E "13070024" "3.0" "https://fints.deutsche-bank.de/" "FinTS V3.0";
   E "13070024" "3.0" "https://fints.deutsche-bank.de/" "FinTS V3.0";
   E "13070024" "3.0" "https://fints.deutsche-bank.de/" "FinTS V3.0";
   E "13070024" "3.0" "https://fints.deutsche-bank.de/" "FinTS V3.0";
   E "13070024" "3.0" "https://fints.deutsche-bank.de/" "FinTS V3.0";
   E "13070024" "3.0" "https://fints.deutsche-bank.de/" "FinTS V3.0";
   E "13070024" "3.0" "https://fints.deutsche-bank.de/" "FinTS V3.0";
   E "13070024" "3.0" "https://fints.deutsche-bank.de/" "FinTS V3.0";
   E "13091054" "3.0" "https://fints1.atruvia.de/cgi-bin/hbciservlet" "FinTS V3.0";
   E "14051000" "" "https://banking-mv6.s-fints-pt-mv.de/fints30" "FinTS V3.0";
   E "14052000" "" "https://banking-mv6.s-fints-pt-mv.de/fints30" "FinTS V3.0";
   E "14061308" "3.0" "https://fints1.atruvia.de/cgi-bin/hbciservlet" "FinTS V3.0";
   E "15050100" "" "https://banking-mv6.s-fints-pt-mv.de/fints30" "FinTS V3.0";
   E "15050200" "" "https://banking-mv6.s-fints-pt-mv.de/fints30" "FinTS V3.0";
   E "15050400" "" "https://banking-mv6.s-fints-pt-mv.de/fints30" "FinTS V3.0";
   E "15050500" "" "https://banking-mv6.s-fints-pt-mv.de/fints30" "FinTS V3.0";
   E "15051732" "" "https://banking-mv6.s-fints-pt-mv.de/fints30" "FinTS V3.0";
   E "15061618" "3.0" "https://fints1.atruvia.de/cgi-bin/hbciservlet" "FinTS V3.0";
   E "15061618" "3.0" "https://fints1.atruvia.de/cgi-bin/hbciservlet" "FinTS V3.0";
   E "15091674" "3.0" "https://fints1.atruvia.de/cgi-bin/hbciservlet" "FinTS V3.0";
   E "15091704" "3.0" "https://fints1.atruvia.de/cgi-bin/hbciservlet" "FinTS V3.0";
   E "16020086" "3.0" "https://hbci-01.hypovereinsbank.de/bank/hbci" "FinTS V3.0";
   E "16050000" "" "https://banking-bb6.s-fints-pt-bb.de/fints30" "FinTS V3.0";
   E "16050101" "" "https://banking-bb6.s-fints-pt-bb.de/fints30" "FinTS V3.0";
   E "16050202" "" "https://banking-bb6.s-fints-pt-bb.de/fints30" "FinTS V3.0";
   E "16060122" "3.0" "https://fints1.atruvia.de/cgi-bin/hbciservlet" "FinTS V3.0";
   E "16061938" "3.0" "https://fints1.atruvia.de/cgi-bin/hbciservlet" "FinTS V3.0";
   E "16062008" "3.0" "https://fints1.atruvia.de/cgi-bin/hbciservlet" "FinTS V3.0";
   E "16062073" "3.0" "https://fints1.atruvia.de/cgi-bin/hbciservlet" "FinTS V3.0";
   E "16091994" "3.0" "https://fints1.atruvia.de/cgi-bin/hbciservlet" "FinTS V3.0";
   E "17020086" "3.0" "https://hbci-01.hypovereinsbank.de/bank/hbci" "FinTS V3.0";
   E "17052000" "" "https://banking-bb6.s-fints-pt-bb.de/fints30" "FinTS V3.0";
   E "17052302" "" "https://banking-bb6.s-fints-pt-bb.de/fints30" "FinTS V3.0";
   E "17054040" "" "https://banking-bb6.s-fints-pt-bb.de/fints30" "FinTS V3.0";
   E "17055050" "" "https://banking-bb6.s-fints-pt-bb.de/fints30" "FinTS V3.0";
   E "17056060" "" "https://banking-bb6.s-fints-pt-bb.de/fints30" "FinTS V3.0";
   E "17062428" "3.0" "https://fints1.atruvia.de/cgi-bin/hbciservlet" "FinTS V3.0";
   E "17092404" "3.0" "https://fints1.atruvia.de/cgi-bin/hbciservlet" "FinTS V3.0";
   E "18020086" "3.0" "https://hbci-01.hypovereinsbank.de/bank/hbci" "FinTS V3.0";
   E "18050000" "" "https://banking-bb6.s-fints-pt-bb.de/fints30" "FinTS V3.0";
   E "18051000" "" "https://banking-bb6.s-fints-pt-bb.de/fints30" "FinTS V3.0";
   E "18055000" "" "https://banking-bb6.s-fints-pt-bb.de/fints30" "FinTS V3.0";
   E "18062678" "3.0" "https://fints1.atruvia.de/cgi-bin/hbciservlet" "FinTS V3.0";
   E "18092684" "3.0" "https://fints1.atruvia.de/cgi-bin/hbciservlet" "FinTS V3.0";
   E "18092744" "3.0" "https://fints1.atruvia.de/cgi-bin/hbciservlet" "FinTS V3.0";
   E "20010020" "" "https://hbci.postbank.de/banking/hbci.do" "FinTS V3.0";
   E "20030000" "3.0" "https://hbci-01.hypovereinsbank.de/bank/hbci" "FinTS V3.0";
   E "20030000" "3.0" "https://hbci-01.hypovereinsbank.de/bank/hbci" "FinTS V3.0";
   E "20030000" "3.0" "https://hbci-01.hypovereinsbank.de/bank/hbci" "FinTS V3.0";
   E "20030000" "3.0" "https://hbci-01.hypovereinsbank.de/bank/hbci" "FinTS V3.0";
   E "20030000" "3.0" "https://hbci-01.hypovereinsbank.de/bank/hbci" "FinTS V3.0";
   E "20030000" "3.0" "https://hbci-01.hypovereinsbank.de/bank/hbci" "FinTS V3.0";
   E "20030000" "3.0" "https://hbci-01.hypovereinsbank.de/bank/hbci" "FinTS V3.0";
   E "20030000" "3.0" "https://hbci-01.hypovereinsbank.de/bank/hbci" "FinTS V3.0";
   E "20030000" "3.0" "https://hbci-01.hypovereinsbank.de/bank/hbci" "FinTS V3.0";
   E "20030000" "3.0" "https://hbci-01.hypovereinsbank.de/bank/hbci" "FinTS V3.0";
   E "20030000" "3.0" "https://hbci-01.hypovereinsbank.de/bank/hbci" "FinTS V3.0";
   E "20030000" "3.0" "https://hbci-01.hypovereinsbank.de/bank/hbci" "FinTS V3.0";
   E "20030000" "3.0" "https://hbci-01.hypovereinsbank.de/bank/hbci" "FinTS V3.0";
   E "20030000" "3.0" "https://hbci-01.hypovereinsbank.de/bank/hbci" "FinTS V3.0";
   E "20030000" "3.0" "https://hbci-01.hypovereinsbank.de/bank/hbci" "FinTS V3.0";
   E "20030000" "3.0" "https://hbci-01.hypovereinsbank.de/bank/hbci" "FinTS V3.0";
   E "20030000" "3.0" "https://hbci-01.hypovereinsbank.de/bank/hbci" "FinTS V3.0";
   E "20030000" "3.0" "https://hbci-01.hypovereinsbank.de/bank/hbci" "FinTS V3.0";
   E "20030000" "3.0" "https://hbci-01.hypovereinsbank.de/bank/hbci" "FinTS V3.0";
   E "20030000" "3.0" "https://hbci-01.hypovereinsbank.de/bank/hbci" "FinTS V3.0";
   E "20030000" "3.0" "https://hbci-01.hypovereinsbank.de/bank/hbci" "FinTS V3.0";
   E "20030000" "3.0" "https://hbci-01.hypovereinsbank.de/bank/hbci" "FinTS V3.0";
   E "20030000" "3.0" "https://hbci-01.hypovereinsbank.de/bank/hbci" "FinTS V3.0";
   E "20030000" "3.0" "https://hbci-01.hypovereinsbank.de/bank/hbci" "FinTS V3.0";
   E "20030000" "3.0" "https://hbci-01.hypovereinsbank.de/bank/hbci" "FinTS V3.0";
   E "20030000" "3.0" "https://hbci-01.hypovereinsbank.de/bank/hbci" "FinTS V3.0";
   E "20030000" "3.0" "https://hbci-01.hypovereinsbank.de/bank/hbci" "FinTS V3.0";
   E "20030000" "3.0" "https://hbci-01.hypovereinsbank.de/bank/hbci" "FinTS V3.0";
   E "20030000" "3.0" "https://hbci-01.hypovereinsbank.de/bank/hbci" "FinTS V3.0";
   E "20030000" "3.0" "https://hbci-01.hypovereinsbank.de/bank/hbci" "FinTS V3.0";
   E "20030000" "3.0" "https://hbci-01.hypovereinsbank.de/bank/hbci" "FinTS V3.0";
   E "20030000" "3.0" "https://hbci-01.hypovereinsbank.de/bank/hbci" "FinTS V3.0";
   E "20030000" "3.0" "https://hbci-01.hypovereinsbank.de/bank/hbci" "FinTS V3.0"].
(** bankinfo/data.go:2506-5005 *)
Definition table_01 : list bank_info :=
  [E "20030000" "3.0" "https://hbci-01.hypovereinsbank.de/bank/hbci" "FinTS V3.0";
   E "20030000" "3.0" "https://hbci-01.hypovereinsbank.de/bank/hbci" "FinTS V3.0";
   E "20030000" "3.0" "https://hbci-01.hypovereinsbank.de/bank/hbci" "FinTS V3.0";
   E "20030000" "3.0" "https://hbci-01.hypovereinsbank.de/bank/hbci" "FinTS V3.0";
   E "20030000" "3.0" "https://hbci-01.hypovereinsbank.de/bank/hbci" "FinTS V3.0";
   E "20030000" "3.0" "https://hbci-01.hypovereinsbank.de/bank/hbci" "FinTS V3.0";
   E "20030000" "3.0" "https://hbci-01.hypovereinsbank.de/bank/hbci" "FinTS V3.0";
   E "20030000" "3.0" "https://hbci-01.hypovereinsbank.de/bank/hbci" "FinTS V3.0";
   E "20030000" "3.0" "https://hbci-01.hypovereinsbank.de/bank/hbci" "FinTS V3.0";
   E "20030000" "3.0" "https://hbci-01.hypovereinsbank.de/bank/hbci" "FinTS V3.0";
   E "20030000" "3.0" "https://hbci-01.hypovereinsbank.de/bank/hbci" "FinTS V3.0";
   E "20030000" "3.0" "https://hbci-01.hypovereinsbank.de/bank/hbci" "FinTS V3.0";
   E "20030000" "3.0" "https://hbci-01.hypovereinsbank.de/bank/hbci" "FinTS V3.0";
   E "20030000" "3.0" "https://hbci-01.hypovereinsbank.de/bank/hbci" "FinTS V3.0";
   E "20030000" "3.0" "https://hbci-01.hypovereinsbank.de/bank/hbci" "FinTS V3.0";
   E "20030000" "3.0" "https://hbci-01.hypovereinsbank.de/bank/hbci" "FinTS V3.0";
   E "20030000" "3.0" "https://hbci-01.hypovereinsbank.de/bank/hbci" "FinTS V3.0";
   E "20030000" "3.0" "https://hbci-01.hypovereinsbank.de/bank/hbci" "FinTS V3.0";
   E "20030000" "3.0" "https://hbci-01.hypovereinsbank.de/bank/hbci" "FinTS V3.0";
   E "20030000" "3.0" "https://hbci-01.hypovereinsbank.de/bank/hbci" "FinTS V3.0";
   E "20030000" "3.0" "https://hbci-01.hypovereinsbank.de/bank/hbci" "FinTS V3.0";
   E "20030000" "3.0" "https://hbci-01.hypovereinsbank.de/bank/hbci" "FinTS V3.0";
   E "20030000" "3.0" "https://hbci-01.hypovereinsbank.de/bank/hbci" "FinTS V3.0";
   E "20030000" "3.0" "https://hbci-01.hypovereinsbank.de/bank/hbci" "FinTS V3.0";
   E "20030000" "3.0" "https://hbci-01.hypovereinsbank.de/bank/hbci" "FinTS V3.0";
   E "20030000" "3.0" "https://hbci-01.hypovereinsbank.de/bank/hbci" "FinTS V3.0";
   E "20030000" "3.0" "https://hbci-01.hypovereinsbank.de/bank/hbci" "FinTS V3.0";
   E "20030000" "3.0" "https://hbci-01.hypovereinsbank.de/bank/hbci" "FinTS V3.0";
   E "20030000" "3.0" "https://hbci-01.hypovereinsbank.de/bank/hbci" "FinTS V3.0";
   E "20030000" "3.0" "https://hbci-01.hypovereinsbank.de/bank/hbci" "FinTS V3.0";
   E "20030000" "3.0" "https://hbci-01.hypovereinsbank.de/bank/hbci" "FinTS V3.0";
   E "20030000" "3.0" "https://hbci-01.hypovereinsbank.de/bank/hbci" "FinTS V3.0";
   E "20030000" "3.0" "https://hbci-01.hypovereinsbank.de/bank/hbci" "FinTS V3.0";
   E "20030000" "3.0" "https://hbci-01.hypovereinsbank.de/bank/hbci" "FinTS V3.0";
   E "20030000" "3.0" "https://hbci-01.hypovereinsbank.de/bank/hbci" "FinTS V3.0";
   E "20030000" "3.0" "https://hbci-01.hypovereinsbank.de/bank/hbci" "FinTS V3.0";
   E "20030000" "3.0" "https://hbci-01.hypovereinsbank.de/bank/hbci" "FinTS V3.0";
   E "20030000" "3.0" "https://hbci-01.hypovereinsbank.de/bank/hbci" "FinTS V3.0";
   E "20030000" "3.0" "https://hbci-01.hypovereinsbank.de/bank/hbci" "FinTS V3.0";
   E "20030000" "3.0" "https://hbci-01.hypovereinsbank.de/bank/hbci" "FinTS V3.0";
   E "20030000" "3.0" "https://hbci-01.hypovereinsbank.de/bank/hbci" "FinTS V3.0";
   E "20030000" "3.0" "https://hbci-01.hypovereinsbank.de/bank/hbci" "FinTS V3.0";
   E "20030000" "3.0" "https://hbci-01.hypovereinsbank.de/bank/hbci" "FinTS V3.0";
   E "20030000" "3.0" "https://hbci-01.hypovereinsbank.de/bank/hbci" "FinTS V3.0";
   E "20030000" "3.0" "https://hbci-01.hypovereinsbank.de/bank/hbci" "FinTS V3.0";
   E "20030000" "3.0" "https://hbci-01.hypovereinsbank.de/bank/hbci" "FinTS V3.0";
   E "20030000" "3.0" "https://hbci-01.hypovereinsbank.de/bank/hbci" "FinTS V3.0";
   E "20030000" "3.0" "https://hbci-01.hypovereinsbank.de/bank/hbci" "FinTS V3.0";
   E "20030000" "3.0" "https://hbci-01.hypovereinsbank.de/bank/hbci" "FinTS V3.0";
   E "20030000" "3.0" "https://hbci-01.hypovereinsbank.de/bank/hbci" "FinTS V3.0";
   E "20030000" "3.0" "https://hbci-01.hypovereinsbank.de/bank/hbci" "FinTS V3.0";
   E "20030000" "3.0" "https://hbci-01.hypovereinsbank.de/bank/hbci" "FinTS V3.0";
   E "20030000" "3.0" "https://hbci-01.hypovereinsbank.de/bank/hbci" "FinTS V3.0";
   E "20030000" "3.0" "https://hbci-01.hypovereinsbank.de/bank/hbci" "FinTS V3.0";
   E "20030000" "3.0" "https://hbci-01.hypovereinsbank.de/bank/hbci" "FinTS V3.0";
   E "20030000" "3.0" "https://hbci-01.hypovereinsbank.de/bank/hbci" "FinTS V3.0";
   E "20030000" "3.0" "https://hbci-01.hypovereinsbank.de/bank/hbci" "FinTS V3.0";
   E "20030000" "3.0" "https://hbci-01.hypovereinsbank.de/bank/hbci" "FinTS V3.0";
   E "20030000" "3.0" "https://hbci-01.hypovereinsbank.de/bank/hbci" "FinTS V3.0";
   E "20030300" "3.0" "https://fints1.atruvia.de/cgi-bin/hbciservlet" "FinTS V3.0";
   E "20030400" "3.0" "https://online-banking.marcard.de/fints/" "FinTS V3.0";
   E "20030600" "3.0" "https://www.bv-activebanking.de/hbciTunnel/hbciTransfer.jsp" "FinTS V3.0";
   E "20030700" "3.0" "https://www.bv-activebanking.de/hbciTunnel/hbciTransfer.jsp" "FinTS V3.0";
   E "20041111" "" "https://fints.comdirect.de/fints" "FinTS V3.0";
   E "20041133" "" "https://fints.comdirect.de/fints" "FinTS V3.0";
   E "20041144" "" "https://fints.comdirect.de/fints" "FinTS V3.0";
   E "20041155" "" "https://fints.comdirect.de/fints" "FinTS V3.0";
   E "20041166" "" "https://fints.comdirect.de/fints" "FinTS V3.0";
   E "20041177" "" "https://fints.comdirect.de/fints" "FinTS V3.0";
   E "20041188" "" "https://fints.comdirect.de/fints" "FinTS V3.0";
   E "20041199" "" "https://fints.comdirect.de/fints" "FinTS V3.0";
   E "20050550" "" "https://banking-hh7.s-fints-pt-hh.de/fints30" "FinTS V3.0";
   E "20069144" "3.0" "https://fints1.atruvia.de/cgi-bin/hbciservlet" "FinTS V3.0";
   E "20069177" "3.0" "https://fints1.atruvia.de/cgi-bin/hbciservlet" "FinTS V3.0";
   E "20069641" "3.0" "https://fints1.atruvia.de/cgi-bin/hbciservlet" "FinTS V3.0";
   E "20069782" "3.0" "https://fints1.atruvia.de/cgi-bin/hbciservlet" "FinTS V3.0";
   E "20069800" "3.0" "https://fints1.atruvia.de/cgi-bin/hbciservlet" "FinTS V3.0";
   E "20069812" "3.0" "https://fints1.atruvia.de/cgi-bin/hbciservlet" "FinTS V3.0";
   E "20069965" "3.0" "https://fints1.atruvia.de/cgi-bin/hbciservlet" "FinTS V3.0";
   E "20070000" "3.0" "https://fints.deutsche-bank.de/" "FinTS V3.0";
   E "20070000" "3.0" "https://fints.deutsche-bank.de/" "FinTS V3.0";
   E "20070000" "3.0" "https://fints.deutsche-bank.de/" "FinTS V3.0";
   E "20070000" "3.0" "https://fints.deutsche-bank.de/" "FinTS V3.0";
   E "20070000" "3.0" "https://fints.deutsche-bank.de/" "FinTS V3.0";
   E "20070000" "3.0" "https://fints.deutsche-bank.de/" "FinTS V3.0";
   E "20070000" "3.0" "https://fints.deutsche-bank.de/" "FinTS V3.0";
   E "20070000" "3.0" "https://fints.deutsche-bank.de/" "FinTS V3.0";
   E "20070000" "3.0" "https://fints.deutsche-bank.de/" "FinTS V3.0";
   E "20070000" "3.0" "https://fints.deutsche-bank.de/" "FinTS V3.0";
   E "20070000" "3.0" "https://fints.deutsche-bank.de/" "FinTS V3.0";
   E "20070000" "3.0" "https://fints.deutsche-bank.de/" "FinTS V3.0";
   E "20070000" "3.0" "https://fints.deutsche-bank.de/" "FinTS V3.0";
   E "20070000" "3.0" "https://fints.deutsche-bank.de/" "FinTS V3.0";
   E "20070000" "3.0" "https://fints.deutsche-bank.de/" "FinTS V3.0";
   E "20070024" "3.0" "https://fints.deutsche-bank.de/" "FinTS V3.0";
   E "20070024" "3.0" "https://fints.deutsche-bank.de/" "FinTS V3.0";
   E "20070024" "3.0" "https://fints.deutsche-bank.de/" "FinTS V3.0";
   E "20070024" "3.0" "https://fints.deutsche-bank.de/" "FinTS V3.0";
   E "20070024" "3.0" "https://fints.deutsche-bank.de/" "FinTS V3.0";
   E "20070024" "3.0" "https://fints.deutsche-bank.de/" "FinTS V3.0";
   E "20070024" "3.0" "https://fints.deutsche-bank.de/" "FinTS V3.0";
   E "20070024" "3.0" "https://fints.deutsche-bank.de/" "FinTS V3.0";
   E "20070024" "3.0" "https://fints.deutsche-bank.de/" "FinTS V3.0";
   E "20070024" "3.0" "https://fints.deutsche-bank.de/" "FinTS V3.0";
   E "20070024" "3.0" "https://fints.deutsche-bank.de/" "FinTS V3.0";
   E "20070024" "3.0" "https://fints.deutsche-bank.de/" "FinTS V3.0";
   E "20070024" "3.0" "https://fints.deutsche-bank.de/" "FinTS V3.0";
   E "20070024" "3.0" "https://fints.deutsche-bank.de/" "FinTS V3.0";
   E "20070024" "3.0" "https://fints.deutsche-bank.de/" "FinTS V3.0";
   E "20090400" "3.0" "https://fints1.atruvia.de/cgi-bin/hbciservlet" "FinTS V3.0";
   E "20090500" "" "https://banking.netbank.de/hbci" "FinTS V3.0";
   E "20090700" "3.0" "https://fints1.atruvia.de/cgi-bin/hbciservlet" "FinTS V3.0";
   E "20090900" "" "https://fints2.atruvia.de/cgi-bin/hbciservlet" "FinTS V3.0";
   E "20120100" "3.0" "https://www.warburg-bank.de/fints" "FinTS V3.0";
   E "20120600" "3.0" "https://fints2.atruvia.de/cgi-bin/hbciservlet" "FinTS V3.0";
   E "20130400" "3.0" "https://fints2.atruvia.de/cgi-bin/hbciservlet" "FinTS V3.0";
   E "20133300" "3.0" "" "";
   E "20190003" "3.0" "https://fints1.atruvia.de/cgi-bin/hbciservlet" "FinTS V3.0";
   E "20190003" "3.0" "https://fints1.atruvia.de/cgi-bin/hbciservlet" "FinTS V3.0";
   E "20190109" "3.0" "https://fints1.atruvia.de/cgi-bin/hbciservlet" "FinTS V3.0";
   E "20190800" "3.0" "https://fints1.atruvia.de/cgi-bin/hbciservlet" "FinTS V3.0";
   E "20230300" "3.0" "https://fints2.atruvia.de/cgi-bin/hbciservlet" "FinTS V3.0";
   E "20230600" "3.0" "https://www.bv-activebanking.de/hbciTunnel/hbciTransfer.jsp" "FinTS V3.0";
   E "20310300" "3.0" "https://www.bv-activebanking.de/hbciTunnel/hbciTransfer.jsp" "FinTS V3.0";
   E "20690500" "" "https://fints2.atruvia.de/cgi-bin/hbciservlet" "FinTS V3.0";
   E "20750000" "" "https://banking-ni3.s-fints-pt-ni.de/fints30" "FinTS V3.0";
   E "21020600" "3.0" "https://www.bv-activebanking.de/hbciTunnel/hbciTransfer.jsp" "FinTS V3.0";
   E "21050000" "" "https://homebanking.hsh-nordbank-banking.de/tristan/hbci" "FinTS V3.0";
   E "21050170" "" "https://banking-sh1.s-fints-pt-sh.de/fints30" "FinTS V3.0";
   E "21051275" "" "https://banking-sh1.s-fints-pt-sh.de/fints30" "FinTS V3.0";
   E "21070020" "3.0" "https://fints.deutsche-bank.de/" "FinTS V3.0";
   E "21070020" "3.0" "https://fints.deutsche-bank.de/" "FinTS V3.0";
   E "21070024" "3.0" "https://fints.deutsche-bank.de/" "FinTS V3.0";
   E "21070024" "3.0" "https://fints.deutsche-bank.de/" "FinTS V3.0";
   E "21090007" "3.0" "https://fints1.atruvia.de/cgi-bin/hbciservlet" "FinTS V3.0";
   E "21092023" "3.0" "https://fints1.atruvia.de/cgi-bin/hbciservlet" "FinTS V3.0";
   E "21270020" "3.0" "https://fints.deutsche-bank.de/" "FinTS V3.0";
   E "21270024" "3.0" "https://fints.deutsche-bank.de/" "FinTS V3.0";
   E "21290016" "3.0" "https://fints1.atruvia.de/cgi-bin/hbciservlet" "FinTS V3.0";
   E "21352240" "" "https://banking-sh2.s-fints-pt-sh.de/fints30" "FinTS V3.0";
   E "21390008" "3.0" "https://fints1.atruvia.de/cgi-bin/hbciservlet" "FinTS V3.0";
   E "21392218" "3.0" "https://fints1.atruvia.de/cgi-bin/hbciservlet" "FinTS V3.0";
   E "21450000" "" "https://banking-sh1.s-fints-pt-sh.de/fints30" "FinTS V3.0";
   E "21464671" "3.0" "https://fints1.atruvia.de/cgi-bin/hbciservlet" "FinTS V3.0";
   E "21510600" "3.0" "https://www.bv-activebanking.de/hbciTunnel/hbciTransfer.jsp" "FinTS V3.0";
   E "21520100" "3.0" "https://fints1.atruvia.de/cgi-bin/hbciservlet" "FinTS V3.0";
   E "21570011" "3.0" "https://fints.deutsche-bank.de/" "FinTS V3.0";
   E "21570011" "3.0" "https://fints.deutsche-bank.de/" "FinTS V3.0";
   E "21570024" "3.0" "https://fints.deutsche-bank.de/" "FinTS V3.0";
   E "21570024" "3.0" "https://fints.deutsche-bank.de/" "FinTS V3.0";
   E "21690020" "3.0" "https://fints1.atruvia.de/cgi-bin/hbciservlet" "FinTS V3.0";
   E "21750000" "" "https://banking-sh1.s-fints-pt-sh.de/fints30" "FinTS V3.0";
   E "21762550" "3.0" "https://fints1.atruvia.de/cgi-bin/hbciservlet" "FinTS V3.0";
   E "21763542" "3.0" "https://fints1.atruvia.de/cgi-bin/hbciservlet" "FinTS V3.0";
   E "21770011" "3.0" "https://fints.deutsche-bank.de/" "FinTS V3.0";
   E "21770024" "3.0" "https://fints.deutsche-bank.de/" "FinTS V3.0";
   E "21791805" "3.0" "https://fints1.atruvia.de/cgi-bin/hbciservlet" "FinTS V3.0";
   E "21791906" "3.0" "https://fints1.atruvia.de/cgi-bin/hbciservlet" "FinTS V3.0";
   E "21890022" "3.0" "https://fints1.atruvia.de/cgi-bin/hbciservlet" "FinTS V3.0";
   E "22150000" "" "https://banking-sh1.s-fints-pt-sh.de/fints30" "FinTS V3.0";
   E "22151730" "" "https://banking-sh2.s-fints-pt-sh.de/fints30" "FinTS V3.0";
   E "22163114" "3.0" "https://fints1.atruvia.de/cgi-bin/hbciservlet" "FinTS V3.0";
   E "22191405" "3.0" "https://fints1.atruvia.de/cgi-bin/hbciservlet" "FinTS V3.0";
   E "22191405" "3.0" "https://fints1.atruvia.de/cgi-bin/hbciservlet" "FinTS V3.0";
   E "22250020" "" "https://banking-sh2.s-fints-pt-sh.de/fints30" "FinTS V3.0";
   E "23050101" "" "https://banking-sh2.s-fints-pt-sh.de/fints30" "FinTS V3.0";
   E "23051030" "" "https://banking-sh2.s-fints-pt-sh.de/fints30" "FinTS V3.0";
   E "23051030" "" "" "";
   E "23052750" "" "https://banking-sh1.s-fints-pt-sh.de/fints30" "FinTS V3.0";
   E "23061220" "3.0" "https://fints1.atruvia.de/cgi-bin/hbciservlet" "FinTS V3.0";
   E "23063129" "3.0" "https://fints1.atruvia.de/cgi-bin/hbciservlet" "FinTS V3.0";
   E "23064107" "3.0" "https://fints1.atruvia.de/cgi-bin/hbciservlet" "FinTS V3.0";
   E "23070700" "3.0" "https://fints.deutsche-bank.de/" "FinTS V3.0";
   E "23070700" "3.0" "https://fints.deutsche-bank.de/" "FinTS V3.0";
   E "23070700" "3.0" "https://fints.deutsche-bank.de/" "FinTS V3.0";
   E "23070700" "3.0" "https://fints.deutsche-bank.de/" "FinTS V3.0";
   E "23070700" "3.0" "https://fints.deutsche-bank.de/" "FinTS V3.0";
   E "23070700" "3.0" "https://fints.deutsche-bank.de/" "FinTS V3.0";
   E "23070700" "3.0" "https://fints.deutsche-bank.de/" "FinTS V3.0";
   E "23070700" "3.0" "https://fints.deutsche-bank.de/" "FinTS V3.0";
   E "23070700" "3.0" "https://fints.deutsche-bank.de/" "FinTS V3.0";
   E "23070700" "3.0" "https://fints.deutsche-bank.de/" "FinTS V3.0";
   E "23070700" "3.0" "https://fints.deutsche-bank.de/" "FinTS V3.0";
   E "23070700" "3.0" "https://fints.deutsche-bank.de/" "FinTS V3.0";
   E "23070700" "3.0" "https://fints.deutsche-bank.de/" "FinTS V3.0";
   E "23070700" "3.0" "https://fints.deutsche-bank.de/" "FinTS V3.0";
   E "23070710" "3.0" "https://fints.deutsche-bank.de/" "FinTS V3.0";
   E "23090142" "3.0" "https://fints1.atruvia.de/cgi-bin/hbciservlet" "FinTS V3.0";
   E "24050110" "" "https://banking-ni3.s-fints-pt-ni.de/fints30" "FinTS V3.0";
   E "24060300" "3.0" "https://fints2.atruvia.de/cgi-bin/hbciservlet" "FinTS V3.0";
   E "24070024" "3.0" "https://fints.deutsche-bank.de/" "FinTS V3.0";
   E "24070024" "3.0" "https://fints.deutsche-bank.de/" "FinTS V3.0";
   E "24070075" "3.0" "https://fints.deutsche-bank.de/" "FinTS V3.0";
   E "24070075" "3.0" "https://fints.deutsche-bank.de/" "FinTS V3.0";
   E "24121000" "3.0" "https://fints1.atruvia.de/cgi-bin/hbciservlet" "FinTS V3.0";
   E "24150001" "" "https://banking-ni1.s-fints-pt-ni.de/fints30" "FinTS V3.0";
   E "24151005" "" "https://banking-ni3.s-fints-pt-ni.de/fints30" "FinTS V3.0";
   E "24151116" "" "https://banking-ni3.s-fints-pt-ni.de/fints30" "FinTS V3.0";
   E "24151235" "" "https://banking-ni1.s-fints-pt-ni.de/fints30" "FinTS V3.0";
   E "24162898" "3.0" "https://fints1.atruvia.de/cgi-bin/hbciservlet" "FinTS V3.0";
   E "24191015" "3.0" "https://fints1.atruvia.de/cgi-bin/hbciservlet" "FinTS V3.0";
   E "25010030" "" "https://hbci.postbank.de/banking/hbci.do" "FinTS V3.0";
   E "25010900" "3.0" "https://fints1.atruvia.de/cgi-bin/hbciservlet" "FinTS V3.0";
   E "25040066" "3.0" "" "";
   E "25050000" "" "https://banking-li1.s-fints-pt-li.de/fints30" "FinTS V3.0";
   E "25050180" "" "https://banking-ni4.s-fints-pt-ni.de/fints30" "FinTS V3.0";
   E "25060180" "3.0" "https://www.warburg-bank.de/fints" "FinTS V3.0";
   E "25069262" "3.0" "https://fints1.atruvia.de/cgi-bin/hbciservlet" "FinTS V3.0";
   E "25070024" "3.0" "https://fints.deutsche-bank.de/" "FinTS V3.0";
   E "25070024" "3.0" "https://fints.deutsche-bank.de/" "FinTS V3.0";
   E "25070024" "3.0" "https://fints.deutsche-bank.de/" "FinTS V3.0";
   E "25070024" "3.0" "https://fints.deutsche-bank.de/" "FinTS V3.0";
   E "25070024" "3.0" "https://fints.deutsche-bank.de/" "FinTS V3.0";
   E "25070024" "3.0" "https://fints.deutsche-bank.de/" "FinTS V3.0";
   E "25070024" "3.0" "https://fints.deutsche-bank.de/" "FinTS V3.0";
   E "25070024" "3.0" "https://fints.deutsche-bank.de/" "FinTS V3.0";
   E "25070024" "3.0" "https://fints.deutsche-bank.de/" "FinTS V3.0";
   E "25070024" "3.0" "https://fints.deutsche-bank.de/" "FinTS V3.0";
   E "25070066" "3.0" "https://fints.deutsche-bank.de/" "FinTS V3.0";
   E "25070070" "3.0" "https://fints.deutsche-bank.de/" "FinTS V3.0";
   E "25070070" "3.0" "https://fints.deutsche-bank.de/" "FinTS V3.0";
   E "25070070" "3.0" "https://fints.deutsche-bank.de/" "FinTS V3.0";
   E "25070070" "3.0" "https://fints.deutsche-bank.de/" "FinTS V3.0";
   E "25070070" "3.0" "https://fints.deutsche-bank.de/" "FinTS V3.0";
   E "25070077" "3.0" "https://fints.deutsche-bank.de/" "FinTS V3.0";
   E "25070084" "3.0" "https://fints.deutsche-bank.de/" "FinTS V3.0";
   E "25070084" "3.0" "https://fints.deutsche-bank.de/" "FinTS V3.0";
   E "25070086" "3.0" "https://fints.deutsche-bank.de/" "FinTS V3.0";
   E "25090500" "" "https://fints2.atruvia.de/cgi-bin/hbciservlet" "FinTS V3.0";
   E "25090900" "" "https://fints2.atruvia.de/cgi-bin/hbciservlet" "FinTS V3.0";
   E "25151270" "" "https://banking-ni2.s-fints-pt-ni.de/fints30" "FinTS V3.0";
   E "25151371" "" "https://banking-ni2.s-fints-pt-ni.de/fints30" "FinTS V3.0";
   E "25152375" "" "https://banking-ni3.s-fints-pt-ni.de/fints30" "FinTS V3.0";
   E "25152490" "" "https://banking-ni2.s-fints-pt-ni.de/fints30" "FinTS V3.0";
   E "25190001" "3.0" "https://fints2.atruvia.de/cgi-bin/hbciservlet" "FinTS V3.0";
   E "25193331" "3.0" "https://fints2.atruvia.de/cgi-bin/hbciservlet" "FinTS V3.0";
   E "25450110" "" "https://banking-ni2.s-fints-pt-ni.de/fints30" "FinTS V3.0";
   E "25451345" "" "https://banking-ni2.s-fints-pt-ni.de/fints30" "FinTS V3.0";
   E "25462160" "3.0" "https://fints1.atruvia.de/cgi-bin/hbciservlet" "FinTS V3.0";
   E "25462680" "3.0" "https://fints1.atruvia.de/cgi-bin/hbciservlet" "FinTS V3.0";
   E "25470024" "3.0" "https://fints.deutsche-bank.de/" "FinTS V3.0";
   E "25470024" "3.0" "https://fints.deutsche-bank.de/" "FinTS V3.0";
   E "25470073" "3.0" "https://fints.deutsche-bank.de/" "FinTS V3.0";
   E "25471024" "3.0" "https://fints.deutsche-bank.de/" "FinTS V3.0";
   E "25471073" "3.0" "https://fints.deutsche-bank.de/" "FinTS V3.0";
   E "25551480" "" "https://banking-ni2.s-fints-pt-ni.de/fints30" "FinTS V3.0";
   E "25591413" "3.0" "https://fints1.atruvia.de/cgi-bin/hbciservlet" "FinTS V3.0";
   E "25650106" "" "https://banking-ni3.s-fints-pt-ni.de/fints30" "FinTS V3.0";
   E "25651325" "" "https://banking-ni1.s-fints-pt-ni.de/fints30" "FinTS V3.0";
   E "25691633" "3.0" "https://fints1.atruvia.de/cgi-bin/hbciservlet" "FinTS V3.0"].
(** bankinfo/data.go:5006-7505 *)
Definition table_02 : list bank_info :=
  [E "25770024" "3.0" "https://fints.deutsche-bank.de/" "FinTS V3.0";
   E "25770069" "3.0" "https://fints.deutsche-bank.de/" "FinTS V3.0";
   E "25791635" "3.0" "https://fints2.atruvia.de/cgi-bin/hbciservlet" "FinTS V3.0";
   E "25850110" "" "https://banking-ni3.s-fints-pt-ni.de/fints30" "FinTS V3.0";
   E "25851660" "" "https://banking-ni3.s-fints-pt-ni.de/fints30" "FinTS V3.0";
   E "25862292" "3.0" "https://fints1.atruvia.de/cgi-bin/hbciservlet" "FinTS V3.0";
   E "25863489" "3.0" "https://fints1.atruvia.de/cgi-bin/hbciservlet" "FinTS V3.0";
   E "25940033" "3.0" "" "";
   E "25950130" "" "https://banking-ni2.s-fints-pt-ni.de/fints30" "FinTS V3.0";
   E "25970024" "3.0" "https://fints.deutsche-bank.de/" "FinTS V3.0";
   E "25970074" "3.0" "https://fints.deutsche-bank.de/" "FinTS V3.0";
   E "25971024" "3.0" "https://fints.deutsche-bank.de/" "FinTS V3.0";
   E "25971024" "3.0" "https://fints.deutsche-bank.de/" "FinTS V3.0";
   E "25971071" "3.0" "https://fints.deutsche-bank.de/" "FinTS V3.0";
   E "25971071" "3.0" "https://fints.deutsche-bank.de/" "FinTS V3.0";
   E "26040030" "3.0" "" "";
   E "26050001" "" "https://banking-ni2.s-fints-pt-ni.de/fints30" "FinTS V3.0";
   E "26051260" "" "https://banking-ni2.s-fints-pt-ni.de/fints30" "FinTS V3.0";
   E "26061556" "3.0" "https://fints1.atruvia.de/cgi-bin/hbciservlet" "FinTS V3.0";
   E "26062433" "3.0" "https://fints1.atruvia.de/cgi-bin/hbciservlet" "FinTS V3.0";
   E "26070024" "3.0" "https://fints.deutsche-bank.de/" "FinTS V3.0";
   E "26070024" "3.0" "https://fints.deutsche-bank.de/" "FinTS V3.0";
   E "26070072" "3.0" "https://fints.deutsche-bank.de/" "FinTS V3.0";
   E "26070072" "3.0" "https://fints.deutsche-bank.de/" "FinTS V3.0";
   E "26240039" "3.0" "" "";
   E "26240039" "3.0" "" "";
   E "26250001" "" "https://banking-ni2.s-fints-pt-ni.de/fints30" "FinTS V3.0";
   E "26251425" "" "https://banking-ni2.s-fints-pt-ni.de/fints30" "FinTS V3.0";
   E "26261693" "3.0" "https://fints1.atruvia.de/cgi-bin/hbciservlet" "FinTS V3.0";
   E "26271424" "3.0" "https://fints.deutsche-bank.de/" "FinTS V3.0";
   E "26271471" "3.0" "https://fints.deutsche-bank.de/" "FinTS V3.0";
   E "26340056" "3.0" "" "";
   E "26341072" "3.0" "" "";
   E "26351015" "" "https://banking-ni2.s-fints-pt-ni.de/fints30" "FinTS V3.0";
   E "26540070" "3.0" "" "";
   E "26540070" "3.0" "" "";
   E "26550105" "" "https://banking-ni3.s-fints-pt-ni.de/fints30" "FinTS V3.0";
   E "26551540" "" "https://banking-ni3.s-fints-pt-ni.de/fints30" "FinTS V3.0";
   E "26552286" "" "https://banking-ni3.s-fints-pt-ni.de/fints30" "FinTS V3.0";
   E "26562490" "3.0" "https://fints1.atruvia.de/cgi-bin/hbciservlet" "FinTS V3.0";
   E "26565928" "3.0" "https://fints1.atruvia.de/cgi-bin/hbciservlet" "FinTS V3.0";
   E "26567943" "3.0" "https://fints1.atruvia.de/cgi-bin/hbciservlet" "FinTS V3.0";
   E "26567943" "3.0" "https://fints1.atruvia.de/cgi-bin/hbciservlet" "FinTS V3.0";
   E "26570024" "3.0" "https://fints.deutsche-bank.de/" "FinTS V3.0";
   E "26570024" "3.0" "https://fints.deutsche-bank.de/" "FinTS V3.0";
   E "26570024" "3.0" "https://fints.deutsche-bank.de/" "FinTS V3.0";
   E "26570024" "3.0" "https://fints.deutsche-bank.de/" "FinTS V3.0";
   E "26570024" "3.0" "https://fints.deutsche-bank.de/" "FinTS V3.0";
   E "26570024" "3.0" "https://fints.deutsche-bank.de/" "FinTS V3.0";
   E "26570024" "3.0" "https://fints.deutsche-bank.de/" "FinTS V3.0";
   E "26570090" "3.0" "https://fints.deutsche-bank.de/" "FinTS V3.0";
   E "26570090" "3.0" "https://fints.deutsche-bank.de/" "FinTS V3.0";
   E "26570090" "3.0" "https://fints.deutsche-bank.de/" "FinTS V3.0";
   E "26570090" "3.0" "https://fints.deutsche-bank.de/" "FinTS V3.0";
   E "26570090" "3.0" "https://fints.deutsche-bank.de/" "FinTS V3.0";
   E "26570090" "3.0" "https://fints.deutsche-bank.de/" "FinTS V3.0";
   E "26570090" "3.0" "https://fints.deutsche-bank.de/" "FinTS V3.0";
   E "26590025" "3.0" "https://fints1.atruvia.de/cgi-bin/hbciservlet" "FinTS V3.0";
   E "26640049" "3.0" "" "";
   E "26640049" "3.0" "" "";
   E "26650001" "" "https://banking-ni3.s-fints-pt-ni.de/fints30" "FinTS V3.0";
   E "26660060" "3.0" "https://fints1.atruvia.de/cgi-bin/hbciservlet" "FinTS V3.0";
   E "26661380" "3.0" "https://fints1.atruvia.de/cgi-bin/hbciservlet" "FinTS V3.0";
   E "26740044" "3.0" "" "";
   E "26750001" "" "https://banking-ni3.s-fints-pt-ni.de/fints30" "FinTS V3.0";
   E "26770024" "3.0" "https://fints.deutsche-bank.de/" "FinTS V3.0";
   E "26770024" "3.0" "https://fints.deutsche-bank.de/" "FinTS V3.0";
   E "26770024" "3.0" "https://fints.deutsche-bank.de/" "FinTS V3.0";
   E "26770024" "3.0" "https://fints.deutsche-bank.de/" "FinTS V3.0";
   E "26770095" "3.0" "https://fints.deutsche-bank.de/" "FinTS V3.0";
   E "26770095" "3.0" "https://fints.deutsche-bank.de/" "FinTS V3.0";
   E "26770095" "3.0" "https://fints.deutsche-bank.de/" "FinTS V3.0";
   E "26770095" "3.0" "https://fints.deutsche-bank.de/" "FinTS V3.0";
   E "26840032" "3.0" "" "";
   E "26840032" "3.0" "" "";
   E "26870024" "3.0" "https://fints.deutsche-bank.de/" "FinTS V3.0";
   E "26870024" "3.0" "https://fints.deutsche-bank.de/" "FinTS V3.0";
   E "26870024" "3.0" "https://fints.deutsche-bank.de/" "FinTS V3.0";
   E "26870032" "3.0" "https://fints.deutsche-bank.de/" "FinTS V3.0";
   E "26870032" "3.0" "https://fints.deutsche-bank.de/" "FinTS V3.0";
   E "26870032" "3.0" "https://fints.deutsche-bank.de/" "FinTS V3.0";
   E "26890019" "3.0" "https://fints1.atruvia.de/cgi-bin/hbciservlet" "FinTS V3.0";
   E "26891484" "3.0" "https://fints1.atruvia.de/cgi-bin/hbciservlet" "FinTS V3.0";
   E "26941053" "3.0" "" "";
   E "26951311" "" "https://banking-ni2.s-fints-pt-ni.de/fints30" "FinTS V3.0";
   E "26971024" "3.0" "https://fints.deutsche-bank.de/" "FinTS V3.0";
   E "26971038" "3.0" "https://fints.deutsche-bank.de/" "FinTS V3.0";
   E "26991066" "3.0" "https://fints1.atruvia.de/cgi-bin/hbciservlet" "FinTS V3.0";
   E "26991066" "3.0" "https://fints1.atruvia.de/cgi-bin/hbciservlet" "FinTS V3.0";
   E "27032500" "3.0" "https://banking.seeligerbank.de/eBankingProxy/" "FinTS V3.0";
   E "27040080" "3.0" "" "";
   E "27040080" "3.0" "" "";
   E "27040080" "3.0" "" "";
   E "27040080" "3.0" "" "";
   E "27040080" "3.0" "" "";
   E "27040080" "3.0" "" "";
   E "27040080" "3.0" "" "";
   E "27062290" "3.0" "https://fints1.atruvia.de/cgi-bin/hbciservlet" "FinTS V3.0";
   E "27070024" "3.0" "https://fints.deutsche-bank.de/" "FinTS V3.0";
   E "27070024" "3.0" "https://fints.deutsche-bank.de/" "FinTS V3.0";
   E "27070024" "3.0" "https://fints.deutsche-bank.de/" "FinTS V3.0";
   E "27070024" "3.0" "https://fints.deutsche-bank.de/" "FinTS V3.0";
   E "27070024" "3.0" "https://fints.deutsche-bank.de/" "FinTS V3.0";
   E "27070024" "3.0" "https://fints.deutsche-bank.de/" "FinTS V3.0";
   E "27070024" "3.0" "https://fints.deutsche-bank.de/" "FinTS V3.0";
   E "27070024" "3.0" "https://fints.deutsche-bank.de/" "FinTS V3.0";
   E "27070024" "3.0" "https://fints.deutsche-bank.de/" "FinTS V3.0";
   E "27070030" "3.0" "https://fints.deutsche-bank.de/" "FinTS V3.0";
   E "27070031" "3.0" "https://fints.deutsche-bank.de/" "FinTS V3.0";
   E "27070034" "3.0" "https://fints.deutsche-bank.de/" "FinTS V3.0";
   E "27070034" "3.0" "https://fints.deutsche-bank.de/" "FinTS V3.0";
   E "27070034" "3.0" "https://fints.deutsche-bank.de/" "FinTS V3.0";
   E "27070041" "3.0" "https://fints.deutsche-bank.de/" "FinTS V3.0";
   E "27070042" "3.0" "https://fints.deutsche-bank.de/" "FinTS V3.0";
   E "27070043" "3.0" "https://fints.deutsche-bank.de/" "FinTS V3.0";
   E "27070079" "3.0" "https://fints.deutsche-bank.de/" "FinTS V3.0";
   E "27072524" "3.0" "https://fints.deutsche-bank.de/" "FinTS V3.0";
   E "27072537" "3.0" "https://fints.deutsche-bank.de/" "FinTS V3.0";
   E "27072724" "3.0" "https://fints.deutsche-bank.de/" "FinTS V3.0";
   E "27072736" "3.0" "https://fints.deutsche-bank.de/" "FinTS V3.0";
   E "27090900" "3.0" "https://fints2.atruvia.de/cgi-bin/hbciservlet" "FinTS V3.0";
   E "27092555" "3.0" "https://fints1.atruvia.de/cgi-bin/hbciservlet" "FinTS V3.0";
   E "27131300" "3.0" "https://fints2.atruvia.de/cgi-bin/hbciservlet" "FinTS V3.0";
   E "27240004" "3.0" "" "";
   E "27893359" "3.0" "https://fints1.atruvia.de/cgi-bin/hbciservlet" "FinTS V3.0";
   E "27893760" "3.0" "https://fints1.atruvia.de/cgi-bin/hbciservlet" "FinTS V3.0";
   E "28020050" "3.0" "https://hbci.olb.de" "FinTS V3.0";
   E "28030300" "3.0" "https://hbci.olb.de" "FinTS V3.0";
   E "28040046" "3.0" "" "";
   E "28042865" "3.0" "" "";
   E "28050100" "" "https://banking-ni1.s-fints-pt-ni.de/fints30" "FinTS V3.0";
   E "28061410" "3.0" "https://fints1.atruvia.de/cgi-bin/hbciservlet" "FinTS V3.0";
   E "28061501" "3.0" "https://fints1.atruvia.de/cgi-bin/hbciservlet" "FinTS V3.0";
   E "28061679" "3.0" "https://fints1.atruvia.de/cgi-bin/hbciservlet" "FinTS V3.0";
   E "28061822" "3.0" "https://fints1.atruvia.de/cgi-bin/hbciservlet" "FinTS V3.0";
   E "28062165" "3.0" "https://fints1.atruvia.de/cgi-bin/hbciservlet" "FinTS V3.0";
   E "28062249" "3.0" "https://fints1.atruvia.de/cgi-bin/hbciservlet" "FinTS V3.0";
   E "28062560" "3.0" "https://fints1.atruvia.de/cgi-bin/hbciservlet" "FinTS V3.0";
   E "28063253" "3.0" "https://fints1.atruvia.de/cgi-bin/hbciservlet" "FinTS V3.0";
   E "28063526" "3.0" "https://fints1.atruvia.de/cgi-bin/hbciservlet" "FinTS V3.0";
   E "28064179" "3.0" "https://fints1.atruvia.de/cgi-bin/hbciservlet" "FinTS V3.0";
   E "28065061" "3.0" "https://fints1.atruvia.de/cgi-bin/hbciservlet" "FinTS V3.0";
   E "28065286" "3.0" "https://fints1.atruvia.de/cgi-bin/hbciservlet" "FinTS V3.0";
   E "28066103" "3.0" "https://fints1.atruvia.de/cgi-bin/hbciservlet" "FinTS V3.0";
   E "28066214" "3.0" "https://fints1.atruvia.de/cgi-bin/hbciservlet" "FinTS V3.0";
   E "28066620" "3.0" "https://fints1.atruvia.de/cgi-bin/hbciservlet" "FinTS V3.0";
   E "28067257" "3.0" "https://fints1.atruvia.de/cgi-bin/hbciservlet" "FinTS V3.0";
   E "28068218" "3.0" "https://fints1.atruvia.de/cgi-bin/hbciservlet" "FinTS V3.0";
   E "28069052" "3.0" "https://fints1.atruvia.de/cgi-bin/hbciservlet" "FinTS V3.0";
   E "28069109" "3.0" "https://fints1.atruvia.de/cgi-bin/hbciservlet" "FinTS V3.0";
   E "28069381" "3.0" "https://fints1.atruvia.de/cgi-bin/hbciservlet" "FinTS V3.0";
   E "28069706" "3.0" "https://fints1.atruvia.de/cgi-bin/hbciservlet" "FinTS V3.0";
   E "28069773" "3.0" "https://fints1.atruvia.de/cgi-bin/hbciservlet" "FinTS V3.0";
   E "28069878" "3.0" "https://fints1.atruvia.de/cgi-bin/hbciservlet" "FinTS V3.0";
   E "28069926" "3.0" "https://fints1.atruvia.de/cgi-bin/hbciservlet" "FinTS V3.0";
   E "28069935" "3.0" "https://fints1.atruvia.de/cgi-bin/hbciservlet" "FinTS V3.0";
   E "28069956" "3.0" "https://fints1.atruvia.de/cgi-bin/hbciservlet" "FinTS V3.0";
   E "28069956" "3.0" "https://fints1.atruvia.de/cgi-bin/hbciservlet" "FinTS V3.0";
   E "28069991" "3.0" "https://fints1.atruvia.de/cgi-bin/hbciservlet" "FinTS V3.0";
   E "28069994" "3.0" "https://fints1.atruvia.de/cgi-bin/hbciservlet" "FinTS V3.0";
   E "28069994" "3.0" "https://fints1.atruvia.de/cgi-bin/hbciservlet" "FinTS V3.0";
   E "28070024" "3.0" "https://fints.deutsche-bank.de/" "FinTS V3.0";
   E "28070024" "3.0" "https://fints.deutsche-bank.de/" "FinTS V3.0";
   E "28070057" "3.0" "https://fints.deutsche-bank.de/" "FinTS V3.0";
   E "28070057" "3.0" "https://fints.deutsche-bank.de/" "FinTS V3.0";
   E "28240023" "3.0" "" "";
   E "28250110" "" "https://banking-ni1.s-fints-pt-ni.de/fints30" "FinTS V3.0";
   E "28262254" "3.0" "https://fints1.atruvia.de/cgi-bin/hbciservlet" "FinTS V3.0";
   E "28262673" "3.0" "https://fints1.atruvia.de/cgi-bin/hbciservlet" "FinTS V3.0";
   E "28270024" "3.0" "https://fints.deutsche-bank.de/" "FinTS V3.0";
   E "28270024" "3.0" "https://fints.deutsche-bank.de/" "FinTS V3.0";
   E "28270056" "3.0" "https://fints.deutsche-bank.de/" "FinTS V3.0";
   E "28270056" "3.0" "https://fints.deutsche-bank.de/" "FinTS V3.0";
   E "28290063" "3.0" "https://fints1.atruvia.de/cgi-bin/hbciservlet" "FinTS V3.0";
   E "28291551" "3.0" "https://fints1.atruvia.de/cgi-bin/hbciservlet" "FinTS V3.0";
   E "28350000" "" "https://banking-ni1.s-fints-pt-ni.de/fints30" "FinTS V3.0";
   E "28361592" "3.0" "https://fints1.atruvia.de/cgi-bin/hbciservlet" "FinTS V3.0";
   E "28440037" "3.0" "" "";
   E "28450000" "" "https://banking-ni1.s-fints-pt-ni.de/fints30" "FinTS V3.0";
   E "28470024" "3.0" "https://fints.deutsche-bank.de/" "FinTS V3.0";
   E "28470024" "3.0" "https://fints.deutsche-bank.de/" "FinTS V3.0";
   E "28470024" "3.0" "https://fints.deutsche-bank.de/" "FinTS V3.0";
   E "28470024" "3.0" "https://fints.deutsche-bank.de/" "FinTS V3.0";
   E "28470091" "3.0" "https://fints.deutsche-bank.de/" "FinTS V3.0";
   E "28470091" "3.0" "https://fints.deutsche-bank.de/" "FinTS V3.0";
   E "28470091" "3.0" "https://fints.deutsche-bank.de/" "FinTS V3.0";
   E "28470091" "3.0" "https://fints.deutsche-bank.de/" "FinTS V3.0";
   E "28540034" "3.0" "" "";
   E "28550000" "" "https://banking-ni1.s-fints-pt-ni.de/fints30" "FinTS V3.0";
   E "28562297" "3.0" "https://fints1.atruvia.de/cgi-bin/hbciservlet" "FinTS V3.0";
   E "28562716" "3.0" "https://fints1.atruvia.de/cgi-bin/hbciservlet" "FinTS V3.0";
   E "28562863" "3.0" "https://fints1.atruvia.de/cgi-bin/hbciservlet" "FinTS V3.0";
   E "28563749" "3.0" "https://fints1.atruvia.de/cgi-bin/hbciservlet" "FinTS V3.0";
   E "28570024" "3.0" "https://fints.deutsche-bank.de/" "FinTS V3.0";
   E "28570024" "3.0" "https://fints.deutsche-bank.de/" "FinTS V3.0";
   E "28570024" "3.0" "https://fints.deutsche-bank.de/" "FinTS V3.0";
   E "28570092" "3.0" "https://fints.deutsche-bank.de/" "FinTS V3.0";
   E "28570092" "3.0" "https://fints.deutsche-bank.de/" "FinTS V3.0";
   E "28570092" "3.0" "https://fints.deutsche-bank.de/" "FinTS V3.0";
   E "28590075" "3.0" "https://fints1.atruvia.de/cgi-bin/hbciservlet" "FinTS V3.0";
   E "28591654" "3.0" "https://fints1.atruvia.de/cgi-bin/hbciservlet" "FinTS V3.0";
   E "29020000" "3.0" "https://hbci.neelmeyer.de" "FinTS V3.0";
   E "29020200" "3.0" "https://fints1.atruvia.de/cgi-bin/hbciservlet" "FinTS V3.0";
   E "29030400" "3.0" "https://www.warburg-bank.de/fints" "FinTS V3.0";
   E "29040090" "3.0" "" "";
   E "29040090" "3.0" "" "";
   E "29040090" "3.0" "" "";
   E "29040090" "3.0" "" "";
   E "29040090" "3.0" "" "";
   E "29040090" "3.0" "" "";
   E "29040090" "3.0" "" "";
   E "29040090" "3.0" "" "";
   E "29040090" "3.0" "" "";
   E "29040090" "3.0" "" "";
   E "29040090" "3.0" "" "";
   E "29040090" "3.0" "" "";
   E "29040090" "3.0" "" "";
   E "29040090" "3.0" "" "";
   E "29040090" "3.0" "" "";
   E "29040090" "3.0" "" "";
   E "29040090" "3.0" "" "";
   E "29050101" "" "https://banking-hb6.s-fints-pt-hb.de/fints30" "FinTS V3.0";
   E "29070024" "3.0" "https://fints.deutsche-bank.de/" "FinTS V3.0";
   E "29070024" "3.0" "https://fints.deutsche-bank.de/" "FinTS V3.0";
   E "29070024" "3.0" "https://fints.deutsche-bank.de/" "FinTS V3.0";
   E "29070024" "3.0" "https://fints.deutsche-bank.de/" "FinTS V3.0";
   E "29070024" "3.0" "https://fints.deutsche-bank.de/" "FinTS V3.0";
   E "29070024" "3.0" "https://fints.deutsche-bank.de/" "FinTS V3.0";
   E "29070024" "3.0" "https://fints.deutsche-bank.de/" "FinTS V3.0";
   E "29070024" "3.0" "https://fints.deutsche-bank.de/" "FinTS V3.0";
   E "29070050" "3.0" "https://fints.deutsche-bank.de/" "FinTS V3.0";
   E "29070050" "3.0" "https://fints.deutsche-bank.de/" "FinTS V3.0";
   E "29070050" "3.0" "https://fints.deutsche-bank.de/" "FinTS V3.0";
   E "29070051" "3.0" "https://fints.deutsche-bank.de/" "FinTS V3.0";
   E "29070052" "3.0" "https://fints.deutsche-bank.de/" "FinTS V3.0";
   E "29070058" "3.0" "https://fints.deutsche-bank.de/" "FinTS V3.0";
   E "29070059" "3.0" "https://fints.deutsche-bank.de/" "FinTS V3.0";
   E "29070059" "3.0" "https://fints.deutsche-bank.de/" "FinTS V3.0";
   E "29090900" "" "https://fints2.atruvia.de/cgi-bin/hbciservlet" "FinTS V3.0";
   E "29151700" "" "https://banking-ni1.s-fints-pt-ni.de/fints30" "FinTS V3.0";
   E "29152550" "" "https://banking-ni1.s-fints-pt-ni.de/fints30" "FinTS V3.0";
   E "29152670" "" "https://banking-ni1.s-fints-pt-ni.de/fints30" "FinTS V3.0";
   E "29162394" "3.0" "https://fints1.atruvia.de/cgi-bin/hbciservlet" "FinTS V3.0";
   E "29162453" "3.0" "https://fints1.atruvia.de/cgi-bin/hbciservlet" "FinTS V3.0";
   E "29165545" "3.0" "https://fints1.atruvia.de/cgi-bin/hbciservlet" "FinTS V3.0";
   E "29165681" "3.0" "https://fints1.atruvia.de/cgi-bin/hbciservlet" "FinTS V3.0";
   E "29166568" "3.0" "https://fints1.atruvia.de/cgi-bin/hbciservlet" "FinTS V3.0";
   E "29167624" "3.0" "https://fints1.atruvia.de/cgi-bin/hbciservlet" "FinTS V3.0";
   E "29172624" "3.0" "https://fints.deutsche-bank.de/" "FinTS V3.0";
   E "29172655" "3.0" "https://fints.deutsche-bank.de/" "FinTS V3.0"].
(** bankinfo/data.go:7506-10005 *)
Definition table_03 : list bank_info :=
  [E "29190024" "3.0" "https://fints1.atruvia.de/cgi-bin/hbciservlet" "FinTS V3.0";
   E "29190330" "3.0" "https://fints1.atruvia.de/cgi-bin/hbciservlet" "FinTS V3.0";
   E "29240024" "3.0" "" "";
   E "29250000" "" "https://banking-ni1.s-fints-pt-ni.de/fints30" "FinTS V3.0";
   E "29262722" "3.0" "https://fints1.atruvia.de/cgi-bin/hbciservlet" "FinTS V3.0";
   E "29265747" "3.0" "https://fints1.atruvia.de/cgi-bin/hbciservlet" "FinTS V3.0";
   E "30010444" "" "https:// banking.ikb.de/eBankingFinTS/" "FinTS V3.0";
   E "30010700" "" "https://www.bv-activebanking.de/hbciTunnel/hbciTransfer.jsp" "FinTS V3.0";
   E "30020500" "3.0" "https://www.bv-activebanking.de/hbciTunnel/hbciTransfer.jsp" "FinTS V4.0";
   E "30020900" "" "https://fints.targobank.de/travicretail_fints30pintanbroker/FinTs30PinTanHttpGate" "FinTS V3.0";
   E "30030880" "3.0" "https://www.bv-activebanking.de/hbciTunnel/hbciTransfer.jsp" "FinTS V3.0";
   E "30030900" "3.0" "https://www.bv-activebanking.de/hbciTunnel/hbciTransfer.jsp" "FinTS V3.0";
   E "30040000" "3.0" "" "";
   E "30040000" "3.0" "" "";
   E "30040000" "3.0" "" "";
   E "30040000" "3.0" "" "";
   E "30040000" "3.0" "" "";
   E "30040000" "3.0" "" "";
   E "30040000" "3.0" "" "";
   E "30040000" "3.0" "" "";
   E "30040000" "3.0" "" "";
   E "30050110" "" "https://banking-rl1.s-fints-pt-rl.de/fints30" "FinTS V3.0";
   E "30060601" "3.0" "https://fints.apobank.de/FinTs30PinTanHttpGate" "FinTS V3.0";
   E "30060992" "3.0" "https://fints2.atruvia.de/cgi-bin/hbciservlet" "FinTS V3.0";
   E "30070010" "3.0" "https://fints.deutsche-bank.de/" "FinTS V3.0";
   E "30070010" "3.0" "https://fints.deutsche-bank.de/" "FinTS V3.0";
   E "30070010" "3.0" "https://fints.deutsche-bank.de/" "FinTS V3.0";
   E "30070010" "3.0" "https://fints.deutsche-bank.de/" "FinTS V3.0";
   E "30070010" "3.0" "https://fints.deutsche-bank.de/" "FinTS V3.0";
   E "30070010" "3.0" "https://fints.deutsche-bank.de/" "FinTS V3.0";
   E "30070010" "3.0" "https://fints.deutsche-bank.de/" "FinTS V3.0";
   E "30070010" "3.0" "https://fints.deutsche-bank.de/" "FinTS V3.0";
   E "30070010" "3.0" "https://fints.deutsche-bank.de/" "FinTS V3.0";
   E "30070024" "3.0" "https://fints.deutsche-bank.de/" "FinTS V3.0";
   E "30070024" "3.0" "https://fints.deutsche-bank.de/" "FinTS V3.0";
   E "30070024" "3.0" "https://fints.deutsche-bank.de/" "FinTS V3.0";
   E "30070024" "3.0" "https://fints.deutsche-bank.de/" "FinTS V3.0";
   E "30070024" "3.0" "https://fints.deutsche-bank.de/" "FinTS V3.0";
   E "30070024" "3.0" "https://fints.deutsche-bank.de/" "FinTS V3.0";
   E "30070024" "3.0" "https://fints.deutsche-bank.de/" "FinTS V3.0";
   E "30070024" "3.0" "https://fints.deutsche-bank.de/" "FinTS V3.0";
   E "30070024" "3.0" "https://fints.deutsche-bank.de/" "FinTS V3.0";
   E "30130600" "3.0" "https://www.bv-activebanking.de/hbciTunnel/hbciTransfer.jsp" "FinTS V3.0";
   E "30150200" "" "https://banking-rl2.s-fints-pt-rl.de/fints30" "FinTS V3.0";
   E "30160213" "3.0" "https://fints1.atruvia.de/cgi-bin/hbciservlet" "FinTS V3.0";
   E "30220190" "3.0" "https://hbci-01.hypovereinsbank.de/bank/hbci" "FinTS V3.0";
   E "30220190" "3.0" "https://hbci-01.hypovereinsbank.de/bank/hbci" "FinTS V3.0";
   E "30220190" "3.0" "https://hbci-01.hypovereinsbank.de/bank/hbci" "FinTS V3.0";
   E "30220190" "3.0" "https://hbci-01.hypovereinsbank.de/bank/hbci" "FinTS V3.0";
   E "30220190" "3.0" "https://hbci-01.hypovereinsbank.de/bank/hbci" "FinTS V3.0";
   E "30220190" "3.0" "https://hbci-01.hypovereinsbank.de/bank/hbci" "FinTS V3.0";
   E "30220190" "3.0" "https://hbci-01.hypovereinsbank.de/bank/hbci" "FinTS V3.0";
   E "30351220" "" "https://banking-rl2.s-fints-pt-rl.de/fints30" "FinTS V3.0";
   E "30520037" "" "https://fints1.atruvia.de/cgi-bin/hbciservlet" "FinTS V3.0";
   E "30530000" "3.0" "https://fints2.atruvia.de/cgi-bin/hbciservlet" "FinTS V3.0";
   E "30530500" "3.0" "https://fints1.atruvia.de/cgi-bin/hbciservlet" "FinTS V3.0";
   E "30550000" "" "https://banking-rl5.s-fints-pt-rl.de/fints30" "FinTS V3.0";
   E "30560548" "3.0" "https://fints1.atruvia.de/cgi-bin/hbciservlet" "FinTS V3.0";
   E "31040015" "3.0" "" "";
   E "31040015" "3.0" "" "";
   E "31040015" "3.0" "" "";
   E "31040015" "3.0" "" "";
   E "31050000" "" "https://banking-rl1.s-fints-pt-rl.de/fints30" "FinTS V3.0";
   E "31060181" "3.0" "https://fints1.atruvia.de/cgi-bin/hbciservlet" "FinTS V3.0";
   E "31060517" "3.0" "https://fints1.atruvia.de/cgi-bin/hbciservlet" "FinTS V3.0";
   E "31060517" "3.0" "https://fints1.atruvia.de/cgi-bin/hbciservlet" "FinTS V3.0";
   E "31070001" "3.0" "https://fints.deutsche-bank.de/" "FinTS V3.0";
   E "31070001" "3.0" "https://fints.deutsche-bank.de/" "FinTS V3.0";
   E "31070001" "3.0" "https://fints.deutsche-bank.de/" "FinTS V3.0";
   E "31070001" "3.0" "https://fints.deutsche-bank.de/" "FinTS V3.0";
   E "31070024" "3.0" "https://fints.deutsche-bank.de/" "FinTS V3.0";
   E "31070024" "3.0" "https://fints.deutsche-bank.de/" "FinTS V3.0";
   E "31070024" "3.0" "https://fints.deutsche-bank.de/" "FinTS V3.0";
   E "31070024" "3.0" "https://fints.deutsche-bank.de/" "FinTS V3.0";
   E "31251220" "" "https://banking-rl5.s-fints-pt-rl.de/fints30" "FinTS V3.0";
   E "31460290" "3.0" "https://fints1.atruvia.de/cgi-bin/hbciservlet" "FinTS V3.0";
   E "31470004" "3.0" "https://fints.deutsche-bank.de/" "FinTS V3.0";
   E "31470004" "3.0" "https://fints.deutsche-bank.de/" "FinTS V3.0";
   E "31470004" "3.0" "https://fints.deutsche-bank.de/" "FinTS V3.0";
   E "31470024" "3.0" "https://fints.deutsche-bank.de/" "FinTS V3.0";
   E "31470024" "3.0" "https://fints.deutsche-bank.de/" "FinTS V3.0";
   E "31470024" "3.0" "https://fints.deutsche-bank.de/" "FinTS V3.0";
   E "32040024" "3.0" "" "";
   E "32040024" "3.0" "" "";
   E "32050000" "" "https://banking-rl1.s-fints-pt-rl.de/fints30" "FinTS V3.0";
   E "32060362" "3.0" "https://fints1.atruvia.de/cgi-bin/hbciservlet" "FinTS V3.0";
   E "32061384" "3.0" "https://fints1.atruvia.de/cgi-bin/hbciservlet" "FinTS V3.0";
   E "32061384" "3.0" "https://fints1.atruvia.de/cgi-bin/hbciservlet" "FinTS V3.0";
   E "32061414" "3.0" "https://fints1.atruvia.de/cgi-bin/hbciservlet" "FinTS V3.0";
   E "32070024" "3.0" "https://fints.deutsche-bank.de/" "FinTS V3.0";
   E "32070024" "3.0" "https://fints.deutsche-bank.de/" "FinTS V3.0";
   E "32070024" "3.0" "https://fints.deutsche-bank.de/" "FinTS V3.0";
   E "32070024" "3.0" "https://fints.deutsche-bank.de/" "FinTS V3.0";
   E "32070024" "3.0" "https://fints.deutsche-bank.de/" "FinTS V3.0";
   E "32070024" "3.0" "https://fints.deutsche-bank.de/" "FinTS V3.0";
   E "32070024" "3.0" "https://fints.deutsche-bank.de/" "FinTS V3.0";
   E "32070024" "3.0" "https://fints.deutsche-bank.de/" "FinTS V3.0";
   E "32070080" "3.0" "https://fints.deutsche-bank.de/" "FinTS V3.0";
   E "32070080" "3.0" "https://fints.deutsche-bank.de/" "FinTS V3.0";
   E "32070080" "3.0" "https://fints.deutsche-bank.de/" "FinTS V3.0";
   E "32070080" "3.0" "https://fints.deutsche-bank.de/" "FinTS V3.0";
   E "32070080" "3.0" "https://fints.deutsche-bank.de/" "FinTS V3.0";
   E "32070080" "3.0" "https://fints.deutsche-bank.de/" "FinTS V3.0";
   E "32070080" "3.0" "https://fints.deutsche-bank.de/" "FinTS V3.0";
   E "32070080" "3.0" "https://fints.deutsche-bank.de/" "FinTS V3.0";
   E "32440023" "3.0" "" "";
   E "32440023" "3.0" "" "";
   E "32440023" "3.0" "" "";
   E "32440023" "3.0" "" "";
   E "32450000" "" "https://banking-rl2.s-fints-pt-rl.de/fints30" "FinTS V3.0";
   E "32460422" "3.0" "https://fints1.atruvia.de/cgi-bin/hbciservlet" "FinTS V3.0";
   E "32470024" "3.0" "https://fints.deutsche-bank.de/" "FinTS V3.0";
   E "32470024" "3.0" "https://fints.deutsche-bank.de/" "FinTS V3.0";
   E "32470024" "3.0" "https://fints.deutsche-bank.de/" "FinTS V3.0";
   E "32470077" "3.0" "https://fints.deutsche-bank.de/" "FinTS V3.0";
   E "32470077" "3.0" "https://fints.deutsche-bank.de/" "FinTS V3.0";
   E "32470077" "3.0" "https://fints.deutsche-bank.de/" "FinTS V3.0";
   E "33020000" "" "https://hbci.akf24.de" "FinTS V3.0";
   E "33020190" "3.0" "https://hbci-01.hypovereinsbank.de/bank/hbci" "FinTS V3.0";
   E "33030000" "3.0" "https://fints2.atruvia.de/cgi-bin/hbciservlet" "FinTS V3.0";
   E "33040001" "3.0" "" "";
   E "33040001" "3.0" "" "";
   E "33040001" "3.0" "" "";
   E "33040001" "3.0" "" "";
   E "33040001" "3.0" "" "";
   E "33050000" "" "https://banking-rl3.s-fints-pt-rl.de/fints30" "FinTS V3.0";
   E "33060592" "" "https://fints.bankingonline.de/fints/FinTs30PinTanHttpGate" "FinTS V3.0";
   E "33070024" "3.0" "https://fints.deutsche-bank.de/" "FinTS V3.0";
   E "33070024" "3.0" "https://fints.deutsche-bank.de/" "FinTS V3.0";
   E "33070024" "3.0" "https://fints.deutsche-bank.de/" "FinTS V3.0";
   E "33070024" "3.0" "https://fints.deutsche-bank.de/" "FinTS V3.0";
   E "33070024" "3.0" "https://fints.deutsche-bank.de/" "FinTS V3.0";
   E "33070024" "3.0" "https://fints.deutsche-bank.de/" "FinTS V3.0";
   E "33070024" "3.0" "https://fints.deutsche-bank.de/" "FinTS V3.0";
   E "33070090" "3.0" "https://fints.deutsche-bank.de/" "FinTS V3.0";
   E "33070090" "3.0" "https://fints.deutsche-bank.de/" "FinTS V3.0";
   E "33070090" "3.0" "https://fints.deutsche-bank.de/" "FinTS V3.0";
   E "33070090" "3.0" "https://fints.deutsche-bank.de/" "FinTS V3.0";
   E "33070090" "3.0" "https://fints.deutsche-bank.de/" "FinTS V3.0";
   E "33070090" "3.0" "https://fints.deutsche-bank.de/" "FinTS V3.0";
   E "33070090" "3.0" "https://fints.deutsche-bank.de/" "FinTS V3.0";
   E "33440035" "3.0" "" "";
   E "33440035" "3.0" "" "";
   E "33450000" "" "https://banking-rl2.s-fints-pt-rl.de/fints30" "FinTS V3.0";
   E "34040049" "3.0" "" "";
   E "34040049" "3.0" "" "";
   E "34040049" "3.0" "" "";
   E "34040049" "3.0" "" "";
   E "34050000" "" "https://banking-rl3.s-fints-pt-rl.de/fints30" "FinTS V3.0";
   E "34051570" "" "https://banking-rl5.s-fints-pt-rl.de/fints30" "FinTS V3.0";
   E "34060094" "3.0" "https://fints1.atruvia.de/cgi-bin/hbciservlet" "FinTS V3.0";
   E "34070024" "3.0" "https://fints.deutsche-bank.de/" "FinTS V3.0";
   E "34070024" "3.0" "https://fints.deutsche-bank.de/" "FinTS V3.0";
   E "34070024" "3.0" "https://fints.deutsche-bank.de/" "FinTS V3.0";
   E "34070024" "3.0" "https://fints.deutsche-bank.de/" "FinTS V3.0";
   E "34070024" "3.0" "https://fints.deutsche-bank.de/" "FinTS V3.0";
   E "34070093" "3.0" "https://fints.deutsche-bank.de/" "FinTS V3.0";
   E "34070093" "3.0" "https://fints.deutsche-bank.de/" "FinTS V3.0";
   E "34070093" "3.0" "https://fints.deutsche-bank.de/" "FinTS V3.0";
   E "34070093" "3.0" "https://fints.deutsche-bank.de/" "FinTS V3.0";
   E "34070093" "3.0" "https://fints.deutsche-bank.de/" "FinTS V3.0";
   E "34240050" "3.0" "" "";
   E "34240050" "3.0" "" "";
   E "34250000" "" "https://banking-rl3.s-fints-pt-rl.de/fints30" "FinTS V3.0";
   E "34270024" "3.0" "https://fints.deutsche-bank.de/" "FinTS V3.0";
   E "34270024" "3.0" "https://fints.deutsche-bank.de/" "FinTS V3.0";
   E "34270094" "3.0" "https://fints.deutsche-bank.de/" "FinTS V3.0";
   E "34270094" "3.0" "https://fints.deutsche-bank.de/" "FinTS V3.0";
   E "35040038" "3.0" "" "";
   E "35040038" "3.0" "" "";
   E "35050000" "" "https://banking-rl4.s-fints-pt-rl.de/fints30" "FinTS V3.0";
   E "35060190" "3.0" "https://fints1.atruvia.de/cgi-bin/hbciservlet" "FinTS V3.0";
   E "35060386" "3.0" "https://fints1.atruvia.de/cgi-bin/hbciservlet" "FinTS V3.0";
   E "35070024" "3.0" "https://fints.deutsche-bank.de/" "FinTS V3.0";
   E "35070024" "3.0" "https://fints.deutsche-bank.de/" "FinTS V3.0";
   E "35070024" "3.0" "https://fints.deutsche-bank.de/" "FinTS V3.0";
   E "35070024" "3.0" "https://fints.deutsche-bank.de/" "FinTS V3.0";
   E "35070024" "3.0" "https://fints.deutsche-bank.de/" "FinTS V3.0";
   E "35070024" "3.0" "https://fints.deutsche-bank.de/" "FinTS V3.0";
   E "35070030" "3.0" "https://fints.deutsche-bank.de/" "FinTS V3.0";
   E "35070030" "3.0" "https://fints.deutsche-bank.de/" "FinTS V3.0";
   E "35070030" "3.0" "https://fints.deutsche-bank.de/" "FinTS V3.0";
   E "35070030" "3.0" "https://fints.deutsche-bank.de/" "FinTS V3.0";
   E "35070030" "3.0" "https://fints.deutsche-bank.de/" "FinTS V3.0";
   E "35070030" "3.0" "https://fints.deutsche-bank.de/" "FinTS V3.0";
   E "35450000" "" "https://banking-rl2.s-fints-pt-rl.de/fints30" "FinTS V3.0";
   E "35461106" "3.0" "https://fints1.atruvia.de/cgi-bin/hbciservlet" "FinTS V3.0";
   E "35640064" "3.0" "" "";
   E "35640064" "3.0" "" "";
   E "35640064" "3.0" "" "";
   E "35640064" "3.0" "" "";
   E "35650000" "" "https://banking-rl2.s-fints-pt-rl.de/fints30" "FinTS V3.0";
   E "35660599" "3.0" "https://fints1.atruvia.de/cgi-bin/hbciservlet" "FinTS V3.0";
   E "35860245" "3.0" "https://fints1.atruvia.de/cgi-bin/hbciservlet" "FinTS V3.0";
   E "36010043" "" "https://hbci.postbank.de/banking/hbci.do" "FinTS V3.0";
   E "36020030" "3.0" "https://www.bv-activebanking.de/hbciTunnel/hbciTransfer.jsp" "FinTS V3.0";
   E "36020186" "3.0" "https://hbci-01.hypovereinsbank.de/bank/hbci" "FinTS V3.0";
   E "36020186" "3.0" "https://hbci-01.hypovereinsbank.de/bank/hbci" "FinTS V3.0";
   E "36033300" "3.0" "" "";
   E "36040039" "3.0" "" "";
   E "36040039" "3.0" "" "";
   E "36040039" "3.0" "" "";
   E "36040039" "3.0" "" "";
   E "36040039" "3.0" "" "";
   E "36040039" "3.0" "" "";
   E "36050105" "" "https://banking-rl4.s-fints-pt-rl.de/fints30" "FinTS V3.0";
   E "36060295" "3.0" "https://fints1.atruvia.de/cgi-bin/hbciservlet" "FinTS V3.0";
   E "36060488" "3.0" "https://fints1.atruvia.de/cgi-bin/hbciservlet" "FinTS V3.0";
   E "36060591" "" "https://fints.bankingonline.de/fints/FinTs30PinTanHttpGate" "FinTS V3.0";
   E "36070024" "3.0" "https://fints.deutsche-bank.de/" "FinTS V3.0";
   E "36070050" "3.0" "https://fints.deutsche-bank.de/" "FinTS V3.0";
   E "36240045" "3.0" "" "";
   E "36250000" "" "https://banking-rl4.s-fints-pt-rl.de/fints30" "FinTS V3.0";
   E "36270024" "3.0" "https://fints.deutsche-bank.de/" "FinTS V3.0";
   E "36270048" "3.0" "https://fints.deutsche-bank.de/" "FinTS V3.0";
   E "36540046" "3.0" "" "";
   E "36550000" "" "https://banking-rl4.s-fints-pt-rl.de/fints30" "FinTS V3.0";
   E "36570024" "3.0" "https://fints.deutsche-bank.de/" "FinTS V3.0";
   E "36570049" "3.0" "https://fints.deutsche-bank.de/" "FinTS V3.0";
   E "37010050" "" "https://hbci.postbank.de/banking/hbci.do" "FinTS V3.0";
   E "37020090" "3.0" "https://hbci-01.hypovereinsbank.de/bank/hbci" "FinTS V3.0";
   E "37020090" "3.0" "https://hbci-01.hypovereinsbank.de/bank/hbci" "FinTS V3.0";
   E "37030800" "3.0" "https://www.bv-activebanking.de/hbciTunnel/hbciTransfer.jsp" "FinTS V3.0";
   E "37040044" "3.0" "" "";
   E "37040044" "3.0" "" "";
   E "37040044" "3.0" "" "";
   E "37040044" "3.0" "" "";
   E "37040044" "3.0" "" "";
   E "37040044" "3.0" "" "";
   E "37040044" "3.0" "" "";
   E "37040044" "3.0" "" "";
   E "37040044" "3.0" "" "";
   E "37040044" "3.0" "" "";
   E "37050198" "" "https://banking-rl7.s-fints-pt-rl.de/fints30" "FinTS V3.0";
   E "37050299" "" "https://banking-rl6.s-fints-pt-rl.de/fints30" "FinTS V3.0";
   E "37060193" "3.0" "https://fints1.atruvia.de/cgi-bin/hbciservlet" "FinTS V3.0";
   E "37060590" "" "https://fints.bankingonline.de/fints/FinTs30PinTanHttpGate" "FinTS V3.0";
   E "37060993" "3.0" "https://fints2.atruvia.de/cgi-bin/hbciservlet" "FinTS V3.0";
   E "37062124" "3.0" "https://fints1.atruvia.de/cgi-bin/hbciservlet" "FinTS V3.0";
   E "37062365" "3.0" "https://fints1.atruvia.de/cgi-bin/hbciservlet" "FinTS V3.0";
   E "37062365" "3.0" "https://fints1.atruvia.de/cgi-bin/hbciservlet" "FinTS V3.0";
   E "37062600" "3.0" "https://fints1.atruvia.de/cgi-bin/hbciservlet" "FinTS V3.0";
   E "37062600" "3.0" "https://fints1.atruvia.de/cgi-bin/hbciservlet" "FinTS V3.0";
   E "37069125" "3.0" "https://fints1.atruvia.de/cgi-bin/hbciservlet" "FinTS V3.0";
   E "37069252" "3.0" "https://fints1.atruvia.de/cgi-bin/hbciservlet" "FinTS V3.0";
   E "37069322" "3.0" "https://fints1.atruvia.de/cgi-bin/hbciservlet" "FinTS V3.0";
   E "37069342" "3.0" "https://fints1.atruvia.de/cgi-bin/hbciservlet" "FinTS V3.0";
   E "37069405" "3.0" "https://fints1.atruvia.de/cgi-bin/hbciservlet" "FinTS V3.0";
   E "37069412" "3.0" "https://fints1.atruvia.de/cgi-bin/hbciservlet" "FinTS V3.0";
   E "37069412" "3.0" "https://fints1.atruvia.de/cgi-bin/hbciservlet" "FinTS V3.0"].
(** bankinfo/data.go:10006-12505 *)
Definition table_04 : list bank_info :=
  [E "37069412" "3.0" "https://fints1.atruvia.de/cgi-bin/hbciservlet" "FinTS V3.0";
   E "37069427" "3.0" "https://fints1.atruvia.de/cgi-bin/hbciservlet" "FinTS V3.0";
   E "37069520" "3.0" "https://fints1.atruvia.de/cgi-bin/hbciservlet" "FinTS V3.0";
   E "37069627" "3.0" "https://fints1.atruvia.de/cgi-bin/hbciservlet" "FinTS V3.0";
   E "37069642" "3.0" "https://fints1.atruvia.de/cgi-bin/hbciservlet" "FinTS V3.0";
   E "37069720" "3.0" "https://fints1.atruvia.de/cgi-bin/hbciservlet" "FinTS V3.0";
   E "37069991" "3.0" "https://fints1.atruvia.de/cgi-bin/hbciservlet" "FinTS V3.0";
   E "37070024" "3.0" "https://fints.deutsche-bank.de/" "FinTS V3.0";
   E "37070024" "3.0" "https://fints.deutsche-bank.de/" "FinTS V3.0";
   E "37070024" "3.0" "https://fints.deutsche-bank.de/" "FinTS V3.0";
   E "37070024" "3.0" "https://fints.deutsche-bank.de/" "FinTS V3.0";
   E "37070024" "3.0" "https://fints.deutsche-bank.de/" "FinTS V3.0";
   E "37070024" "3.0" "https://fints.deutsche-bank.de/" "FinTS V3.0";
   E "37070024" "3.0" "https://fints.deutsche-bank.de/" "FinTS V3.0";
   E "37070024" "3.0" "https://fints.deutsche-bank.de/" "FinTS V3.0";
   E "37070024" "3.0" "https://fints.deutsche-bank.de/" "FinTS V3.0";
   E "37070024" "3.0" "https://fints.deutsche-bank.de/" "FinTS V3.0";
   E "37070024" "3.0" "https://fints.deutsche-bank.de/" "FinTS V3.0";
   E "37070024" "3.0" "https://fints.deutsche-bank.de/" "FinTS V3.0";
   E "37070024" "3.0" "https://fints.deutsche-bank.de/" "FinTS V3.0";
   E "37070024" "3.0" "https://fints.deutsche-bank.de/" "FinTS V3.0";
   E "37070024" "3.0" "https://fints.deutsche-bank.de/" "FinTS V3.0";
   E "37070024" "3.0" "https://fints.deutsche-bank.de/" "FinTS V3.0";
   E "37070060" "3.0" "https://fints.deutsche-bank.de/" "FinTS V3.0";
   E "37070060" "3.0" "https://fints.deutsche-bank.de/" "FinTS V3.0";
   E "37070060" "3.0" "https://fints.deutsche-bank.de/" "FinTS V3.0";
   E "37070060" "3.0" "https://fints.deutsche-bank.de/" "FinTS V3.0";
   E "37070060" "3.0" "https://fints.deutsche-bank.de/" "FinTS V3.0";
   E "37070060" "3.0" "https://fints.deutsche-bank.de/" "FinTS V3.0";
   E "37070060" "3.0" "https://fints.deutsche-bank.de/" "FinTS V3.0";
   E "37070060" "3.0" "https://fints.deutsche-bank.de/" "FinTS V3.0";
   E "37070060" "3.0" "https://fints.deutsche-bank.de/" "FinTS V3.0";
   E "37070060" "3.0" "https://fints.deutsche-bank.de/" "FinTS V3.0";
   E "37070060" "3.0" "https://fints.deutsche-bank.de/" "FinTS V3.0";
   E "37070060" "3.0" "https://fints.deutsche-bank.de/" "FinTS V3.0";
   E "37070060" "3.0" "https://fints.deutsche-bank.de/" "FinTS V3.0";
   E "37070060" "3.0" "https://fints.deutsche-bank.de/" "FinTS V3.0";
   E "37070060" "3.0" "https://fints.deutsche-bank.de/" "FinTS V3.0";
   E "37070060" "3.0" "https://fints.deutsche-bank.de/" "FinTS V3.0";
   E "37540050" "3.0" "" "";
   E "37551440" "" "https://banking-rl5.s-fints-pt-rl.de/fints30" "FinTS V3.0";
   E "37551780" "" "https://banking-rl5.s-fints-pt-rl.de/fints30" "FinTS V3.0";
   E "37570024" "3.0" "https://fints.deutsche-bank.de/" "FinTS V3.0";
   E "37570024" "3.0" "https://fints.deutsche-bank.de/" "FinTS V3.0";
   E "37570024" "3.0" "https://fints.deutsche-bank.de/" "FinTS V3.0";
   E "37570064" "3.0" "https://fints.deutsche-bank.de/" "FinTS V3.0";
   E "37570064" "3.0" "https://fints.deutsche-bank.de/" "FinTS V3.0";
   E "37570064" "3.0" "https://fints.deutsche-bank.de/" "FinTS V3.0";
   E "38020090" "3.0" "https://hbci-01.hypovereinsbank.de/bank/hbci" "FinTS V3.0";
   E "38040007" "3.0" "" "";
   E "38040007" "3.0" "" "";
   E "38040007" "3.0" "" "";
   E "38040007" "3.0" "" "";
   E "38040007" "3.0" "" "";
   E "38040007" "3.0" "" "";
   E "38060186" "3.0" "https://fints1.atruvia.de/cgi-bin/hbciservlet" "FinTS V3.0";
   E "38070024" "3.0" "https://fints.deutsche-bank.de/" "FinTS V3.0";
   E "38070024" "3.0" "https://fints.deutsche-bank.de/" "FinTS V3.0";
   E "38070024" "3.0" "https://fints.deutsche-bank.de/" "FinTS V3.0";
   E "38070024" "3.0" "https://fints.deutsche-bank.de/" "FinTS V3.0";
   E "38070024" "3.0" "https://fints.deutsche-bank.de/" "FinTS V3.0";
   E "38070024" "3.0" "https://fints.deutsche-bank.de/" "FinTS V3.0";
   E "38070059" "3.0" "https://fints.deutsche-bank.de/" "FinTS V3.0";
   E "38070059" "3.0" "https://fints.deutsche-bank.de/" "FinTS V3.0";
   E "38070059" "3.0" "https://fints.deutsche-bank.de/" "FinTS V3.0";
   E "38070059" "3.0" "https://fints.deutsche-bank.de/" "FinTS V3.0";
   E "38070059" "3.0" "https://fints.deutsche-bank.de/" "FinTS V3.0";
   E "38070059" "3.0" "https://fints.deutsche-bank.de/" "FinTS V3.0";
   E "38070724" "3.0" "https://fints.deutsche-bank.de/" "FinTS V3.0";
   E "38077724" "3.0" "https://fints.deutsche-bank.de/" "FinTS V3.0";
   E "38250110" "" "https://banking-rl5.s-fints-pt-rl.de/fints30" "FinTS V3.0";
   E "38260082" "3.0" "https://fints1.atruvia.de/cgi-bin/hbciservlet" "FinTS V3.0";
   E "38440016" "3.0" "" "";
   E "38440016" "3.0" "" "";
   E "38440016" "3.0" "" "";
   E "38440016" "3.0" "" "";
   E "38450000" "" "https://banking-rl5.s-fints-pt-rl.de/fints30" "FinTS V3.0";
   E "38462135" "3.0" "https://fints1.atruvia.de/cgi-bin/hbciservlet" "FinTS V3.0";
   E "38470024" "3.0" "https://fints.deutsche-bank.de/" "FinTS V3.0";
   E "38470024" "3.0" "https://fints.deutsche-bank.de/" "FinTS V3.0";
   E "38470024" "3.0" "https://fints.deutsche-bank.de/" "FinTS V3.0";
   E "38470024" "3.0" "https://fints.deutsche-bank.de/" "FinTS V3.0";
   E "38470024" "3.0" "https://fints.deutsche-bank.de/" "FinTS V3.0";
   E "38470091" "3.0" "https://fints.deutsche-bank.de/" "FinTS V3.0";
   E "38470091" "3.0" "https://fints.deutsche-bank.de/" "FinTS V3.0";
   E "38470091" "3.0" "https://fints.deutsche-bank.de/" "FinTS V3.0";
   E "38470091" "3.0" "https://fints.deutsche-bank.de/" "FinTS V3.0";
   E "38470091" "3.0" "https://fints.deutsche-bank.de/" "FinTS V3.0";
   E "38621500" "3.0" "https://fints1.atruvia.de/cgi-bin/hbciservlet" "FinTS V3.0";
   E "39040013" "3.0" "" "";
   E "39040013" "3.0" "" "";
   E "39040013" "3.0" "" "";
   E "39040013" "3.0" "" "";
   E "39040013" "3.0" "" "";
   E "39040013" "3.0" "" "";
   E "39040013" "3.0" "" "";
   E "39050000" "" "https://banking-rl3.s-fints-pt-rl.de/fints30" "FinTS V3.0";
   E "39060180" "3.0" "https://fints1.atruvia.de/cgi-bin/hbciservlet" "FinTS V3.0";
   E "39070020" "3.0" "https://fints.deutsche-bank.de/" "FinTS V3.0";
   E "39070020" "3.0" "https://fints.deutsche-bank.de/" "FinTS V3.0";
   E "39070020" "3.0" "https://fints.deutsche-bank.de/" "FinTS V3.0";
   E "39070020" "3.0" "https://fints.deutsche-bank.de/" "FinTS V3.0";
   E "39070020" "3.0" "https://fints.deutsche-bank.de/" "FinTS V3.0";
   E "39070020" "3.0" "https://fints.deutsche-bank.de/" "FinTS V3.0";
   E "39070020" "3.0" "https://fints.deutsche-bank.de/" "FinTS V3.0";
   E "39070020" "3.0" "https://fints.deutsche-bank.de/" "FinTS V3.0";
   E "39070020" "3.0" "https://fints.deutsche-bank.de/" "FinTS V3.0";
   E "39070020" "3.0" "https://fints.deutsche-bank.de/" "FinTS V3.0";
   E "39070020" "3.0" "https://fints.deutsche-bank.de/" "FinTS V3.0";
   E "39070024" "3.0" "https://fints.deutsche-bank.de/" "FinTS V3.0";
   E "39070024" "3.0" "https://fints.deutsche-bank.de/" "FinTS V3.0";
   E "39070024" "3.0" "https://fints.deutsche-bank.de/" "FinTS V3.0";
   E "39070024" "3.0" "https://fints.deutsche-bank.de/" "FinTS V3.0";
   E "39070024" "3.0" "https://fints.deutsche-bank.de/" "FinTS V3.0";
   E "39070024" "3.0" "https://fints.deutsche-bank.de/" "FinTS V3.0";
   E "39070024" "3.0" "https://fints.deutsche-bank.de/" "FinTS V3.0";
   E "39070024" "3.0" "https://fints.deutsche-bank.de/" "FinTS V3.0";
   E "39070024" "3.0" "https://fints.deutsche-bank.de/" "FinTS V3.0";
   E "39070024" "3.0" "https://fints.deutsche-bank.de/" "FinTS V3.0";
   E "39070024" "3.0" "https://fints.deutsche-bank.de/" "FinTS V3.0";
   E "39162980" "3.0" "https://fints1.atruvia.de/cgi-bin/hbciservlet" "FinTS V3.0";
   E "39362254" "3.0" "https://fints1.atruvia.de/cgi-bin/hbciservlet" "FinTS V3.0";
   E "39540052" "3.0" "" "";
   E "39550110" "" "https://banking-rl5.s-fints-pt-rl.de/fints30" "FinTS V3.0";
   E "39570024" "3.0" "https://fints.deutsche-bank.de/" "FinTS V3.0";
   E "39570024" "3.0" "https://fints.deutsche-bank.de/" "FinTS V3.0";
   E "39570061" "3.0" "https://fints.deutsche-bank.de/" "FinTS V3.0";
   E "39570061" "3.0" "https://fints.deutsche-bank.de/" "FinTS V3.0";
   E "40030000" "3.0" "https://fints1.atruvia.de/cgi-bin/hbciservlet" "FinTS V3.0";
   E "40040028" "3.0" "" "";
   E "40040028" "3.0" "" "";
   E "40040028" "3.0" "" "";
   E "40040028" "3.0" "" "";
   E "40040028" "3.0" "" "";
   E "40040028" "3.0" "" "";
   E "40050150" "" "https://banking-wl6.s-fints-pt-wl.de/fints30" "FinTS V3.0";
   E "40060265" "3.0" "https://fints1.atruvia.de/cgi-bin/hbciservlet" "FinTS V3.0";
   E "40060300" "3.0" "https://fints1.atruvia.de/cgi-bin/hbciservlet" "FinTS V3.0";
   E "40060560" "" "https://fints.bankingonline.de/fints/FinTs30PinTanHttpGate" "FinTS V3.0";
   E "40069266" "3.0" "https://fints1.atruvia.de/cgi-bin/hbciservlet" "FinTS V3.0";
   E "40069283" "3.0" "https://fints1.atruvia.de/cgi-bin/hbciservlet" "FinTS V3.0";
   E "40069363" "3.0" "https://fints1.atruvia.de/cgi-bin/hbciservlet" "FinTS V3.0";
   E "40069408" "3.0" "https://fints1.atruvia.de/cgi-bin/hbciservlet" "FinTS V3.0";
   E "40069546" "3.0" "https://fints1.atruvia.de/cgi-bin/hbciservlet" "FinTS V3.0";
   E "40069601" "3.0" "https://fints1.atruvia.de/cgi-bin/hbciservlet" "FinTS V3.0";
   E "40069709" "3.0" "https://fints1.atruvia.de/cgi-bin/hbciservlet" "FinTS V3.0";
   E "40069716" "3.0" "https://fints1.atruvia.de/cgi-bin/hbciservlet" "FinTS V3.0";
   E "40070024" "3.0" "https://fints.deutsche-bank.de/" "FinTS V3.0";
   E "40070024" "3.0" "https://fints.deutsche-bank.de/" "FinTS V3.0";
   E "40070024" "3.0" "https://fints.deutsche-bank.de/" "FinTS V3.0";
   E "40070024" "3.0" "https://fints.deutsche-bank.de/" "FinTS V3.0";
   E "40070024" "3.0" "https://fints.deutsche-bank.de/" "FinTS V3.0";
   E "40070024" "3.0" "https://fints.deutsche-bank.de/" "FinTS V3.0";
   E "40070080" "3.0" "https://fints.deutsche-bank.de/" "FinTS V3.0";
   E "40070080" "3.0" "https://fints.deutsche-bank.de/" "FinTS V3.0";
   E "40070080" "3.0" "https://fints.deutsche-bank.de/" "FinTS V3.0";
   E "40070080" "3.0" "https://fints.deutsche-bank.de/" "FinTS V3.0";
   E "40070080" "3.0" "https://fints.deutsche-bank.de/" "FinTS V3.0";
   E "40070080" "3.0" "https://fints.deutsche-bank.de/" "FinTS V3.0";
   E "40090900" "" "https://fints2.atruvia.de/cgi-bin/hbciservlet" "FinTS V3.0";
   E "40154476" "" "https://banking-wl5.s-fints-pt-wl.de/fints30" "FinTS V3.0";
   E "40154530" "" "https://banking-wl6.s-fints-pt-wl.de/fints30" "FinTS V3.0";
   E "40164024" "3.0" "https://fints1.atruvia.de/cgi-bin/hbciservlet" "FinTS V3.0";
   E "40164352" "3.0" "https://fints1.atruvia.de/cgi-bin/hbciservlet" "FinTS V3.0";
   E "40164352" "3.0" "https://fints1.atruvia.de/cgi-bin/hbciservlet" "FinTS V3.0";
   E "40164528" "3.0" "https://fints1.atruvia.de/cgi-bin/hbciservlet" "FinTS V3.0";
   E "40164618" "3.0" "https://fints1.atruvia.de/cgi-bin/hbciservlet" "FinTS V3.0";
   E "40164901" "3.0" "https://fints1.atruvia.de/cgi-bin/hbciservlet" "FinTS V3.0";
   E "40165366" "3.0" "https://fints1.atruvia.de/cgi-bin/hbciservlet" "FinTS V3.0";
   E "40340030" "3.0" "" "";
   E "40340030" "3.0" "" "";
   E "40350005" "" "https://banking-wl1.s-fints-pt-wl.de/fints30" "FinTS V3.0";
   E "40351060" "" "https://banking-wl5.s-fints-pt-wl.de/fints30" "FinTS V3.0";
   E "40361627" "3.0" "https://fints1.atruvia.de/cgi-bin/hbciservlet" "FinTS V3.0";
   E "40361906" "3.0" "https://fints1.atruvia.de/cgi-bin/hbciservlet" "FinTS V3.0";
   E "40370024" "3.0" "https://fints.deutsche-bank.de/" "FinTS V3.0";
   E "40370024" "3.0" "https://fints.deutsche-bank.de/" "FinTS V3.0";
   E "40370024" "3.0" "https://fints.deutsche-bank.de/" "FinTS V3.0";
   E "40370024" "3.0" "https://fints.deutsche-bank.de/" "FinTS V3.0";
   E "40370024" "3.0" "https://fints.deutsche-bank.de/" "FinTS V3.0";
   E "40370024" "3.0" "https://fints.deutsche-bank.de/" "FinTS V3.0";
   E "40370024" "3.0" "https://fints.deutsche-bank.de/" "FinTS V3.0";
   E "40370079" "3.0" "https://fints.deutsche-bank.de/" "FinTS V3.0";
   E "40370079" "3.0" "https://fints.deutsche-bank.de/" "FinTS V3.0";
   E "40370079" "3.0" "https://fints.deutsche-bank.de/" "FinTS V3.0";
   E "40370079" "3.0" "https://fints.deutsche-bank.de/" "FinTS V3.0";
   E "40370079" "3.0" "https://fints.deutsche-bank.de/" "FinTS V3.0";
   E "40370079" "3.0" "https://fints.deutsche-bank.de/" "FinTS V3.0";
   E "40370079" "3.0" "https://fints.deutsche-bank.de/" "FinTS V3.0";
   E "41040018" "3.0" "" "";
   E "41040018" "3.0" "" "";
   E "41050095" "" "https://banking-wl5.s-fints-pt-wl.de/fints30" "FinTS V3.0";
   E "41051845" "" "https://banking-wl6.s-fints-pt-wl.de/fints30" "FinTS V3.0";
   E "41061011" "3.0" "https://fints1.atruvia.de/cgi-bin/hbciservlet" "FinTS V3.0";
   E "41061903" "3.0" "https://fints1.atruvia.de/cgi-bin/hbciservlet" "FinTS V3.0";
   E "41062215" "3.0" "https://fints1.atruvia.de/cgi-bin/hbciservlet" "FinTS V3.0";
   E "41070024" "3.0" "https://fints.deutsche-bank.de/" "FinTS V3.0";
   E "41070024" "3.0" "https://fints.deutsche-bank.de/" "FinTS V3.0";
   E "41070049" "3.0" "https://fints.deutsche-bank.de/" "FinTS V3.0";
   E "41070049" "3.0" "https://fints.deutsche-bank.de/" "FinTS V3.0";
   E "41250035" "" "https://banking-wl2.s-fints-pt-wl.de/fints30" "FinTS V3.0";
   E "41261324" "3.0" "https://fints1.atruvia.de/cgi-bin/hbciservlet" "FinTS V3.0";
   E "41262501" "3.0" "https://fints1.atruvia.de/cgi-bin/hbciservlet" "FinTS V3.0";
   E "41440018" "3.0" "" "";
   E "41450075" "" "https://banking-wl3.s-fints-pt-wl.de/fints30" "FinTS V3.0";
   E "41460116" "3.0" "https://fints1.atruvia.de/cgi-bin/hbciservlet" "FinTS V3.0";
   E "41651770" "" "https://banking-wl5.s-fints-pt-wl.de/fints30" "FinTS V3.0";
   E "41651965" "" "https://banking-wl4.s-fints-pt-wl.de/fints30" "FinTS V3.0";
   E "41660124" "3.0" "https://fints1.atruvia.de/cgi-bin/hbciservlet" "FinTS V3.0";
   E "41661206" "3.0" "https://fints1.atruvia.de/cgi-bin/hbciservlet" "FinTS V3.0";
   E "41662465" "3.0" "https://fints1.atruvia.de/cgi-bin/hbciservlet" "FinTS V3.0";
   E "41670024" "3.0" "https://fints.deutsche-bank.de/" "FinTS V3.0";
   E "41670024" "3.0" "https://fints.deutsche-bank.de/" "FinTS V3.0";
   E "41670024" "3.0" "https://fints.deutsche-bank.de/" "FinTS V3.0";
   E "41670024" "3.0" "https://fints.deutsche-bank.de/" "FinTS V3.0";
   E "41670027" "3.0" "https://fints.deutsche-bank.de/" "FinTS V3.0";
   E "41670028" "3.0" "https://fints.deutsche-bank.de/" "FinTS V3.0";
   E "41670029" "3.0" "https://fints.deutsche-bank.de/" "FinTS V3.0";
   E "41670030" "3.0" "https://fints.deutsche-bank.de/" "FinTS V3.0";
   E "42030600" "3.0" "https://www.bv-activebanking.de/hbciTunnel/hbciTransfer.jsp" "FinTS V3.0";
   E "42040040" "3.0" "" "";
   E "42050001" "" "https://banking-wl3.s-fints-pt-wl.de/fints30" "FinTS V3.0";
   E "42070024" "3.0" "https://fints.deutsche-bank.de/" "FinTS V3.0";
   E "42070024" "3.0" "https://fints.deutsche-bank.de/" "FinTS V3.0";
   E "42070024" "3.0" "https://fints.deutsche-bank.de/" "FinTS V3.0";
   E "42070024" "3.0" "https://fints.deutsche-bank.de/" "FinTS V3.0";
   E "42070024" "3.0" "https://fints.deutsche-bank.de/" "FinTS V3.0";
   E "42070024" "3.0" "https://fints.deutsche-bank.de/" "FinTS V3.0";
   E "42070024" "3.0" "https://fints.deutsche-bank.de/" "FinTS V3.0";
   E "42070024" "3.0" "https://fints.deutsche-bank.de/" "FinTS V3.0";
   E "42070062" "3.0" "https://fints.deutsche-bank.de/" "FinTS V3.0";
   E "42070062" "3.0" "https://fints.deutsche-bank.de/" "FinTS V3.0";
   E "42070062" "3.0" "https://fints.deutsche-bank.de/" "FinTS V3.0";
   E "42070062" "3.0" "https://fints.deutsche-bank.de/" "FinTS V3.0";
   E "42070062" "3.0" "https://fints.deutsche-bank.de/" "FinTS V3.0";
   E "42070062" "3.0" "https://fints.deutsche-bank.de/" "FinTS V3.0";
   E "42070062" "3.0" "https://fints.deutsche-bank.de/" "FinTS V3.0";
   E "42070062" "3.0" "https://fints.deutsche-bank.de/" "FinTS V3.0";
   E "42260001" "3.0" "https://fints1.atruvia.de/cgi-bin/hbciservlet" "FinTS V3.0";
   E "42260001" "3.0" "https://fints1.atruvia.de/cgi-bin/hbciservlet" "FinTS V3.0";
   E "42450040" "" "https://banking-wl6.s-fints-pt-wl.de/fints30" "FinTS V3.0";
   E "42451220" "" "https://banking-wl3.s-fints-pt-wl.de/fints30" "FinTS V3.0";
   E "42461435" "3.0" "https://fints1.atruvia.de/cgi-bin/hbciservlet" "FinTS V3.0";
   E "42640048" "3.0" "" "";
   E "42650150" "" "https://banking-wl6.s-fints-pt-wl.de/fints30" "FinTS V3.0";
   E "42651315" "" "https://banking-wl1.s-fints-pt-wl.de/fints30" "FinTS V3.0";
   E "42661008" "3.0" "https://fints1.atruvia.de/cgi-bin/hbciservlet" "FinTS V3.0";
   E "42840005" "3.0" "" "";
   E "42840005" "3.0" "" "";
   E "42840005" "3.0" "" ""].
(** bankinfo/data.go:12506-15005 *)
Definition table_05 : list bank_info :=
  [E "42850035" "" "https://banking-wl1.s-fints-pt-wl.de/fints30" "FinTS V3.0";
   E "42860003" "3.0" "https://fints1.atruvia.de/cgi-bin/hbciservlet" "FinTS V3.0";
   E "42861387" "3.0" "https://fints1.atruvia.de/cgi-bin/hbciservlet" "FinTS V3.0";
   E "42861387" "3.0" "https://fints1.atruvia.de/cgi-bin/hbciservlet" "FinTS V3.0";
   E "42861515" "3.0" "https://fints1.atruvia.de/cgi-bin/hbciservlet" "FinTS V3.0";
   E "42861608" "3.0" "https://fints1.atruvia.de/cgi-bin/hbciservlet" "FinTS V3.0";
   E "42861814" "3.0" "https://fints1.atruvia.de/cgi-bin/hbciservlet" "FinTS V3.0";
   E "42862451" "3.0" "https://fints1.atruvia.de/cgi-bin/hbciservlet" "FinTS V3.0";
   E "42870024" "3.0" "https://fints.deutsche-bank.de/" "FinTS V3.0";
   E "42870024" "3.0" "https://fints.deutsche-bank.de/" "FinTS V3.0";
   E "42870077" "3.0" "https://fints.deutsche-bank.de/" "FinTS V3.0";
   E "42870077" "3.0" "https://fints.deutsche-bank.de/" "FinTS V3.0";
   E "43040036" "3.0" "" "";
   E "43040036" "3.0" "" "";
   E "43050001" "" "https://banking-wl4.s-fints-pt-wl.de/fints30" "FinTS V3.0";
   E "43051040" "" "https://banking-wl2.s-fints-pt-wl.de/fints30" "FinTS V3.0";
   E "43060129" "3.0" "https://fints1.atruvia.de/cgi-bin/hbciservlet" "FinTS V3.0";
   E "43060967" "3.0" "https://fints1.atruvia.de/cgi-bin/hbciservlet" "FinTS V3.0";
   E "43070024" "3.0" "https://fints.deutsche-bank.de/" "FinTS V3.0";
   E "43070024" "3.0" "https://fints.deutsche-bank.de/" "FinTS V3.0";
   E "43070024" "3.0" "https://fints.deutsche-bank.de/" "FinTS V3.0";
   E "43070024" "3.0" "https://fints.deutsche-bank.de/" "FinTS V3.0";
   E "43070024" "3.0" "https://fints.deutsche-bank.de/" "FinTS V3.0";
   E "43070061" "3.0" "https://fints.deutsche-bank.de/" "FinTS V3.0";
   E "43070061" "3.0" "https://fints.deutsche-bank.de/" "FinTS V3.0";
   E "43070061" "3.0" "https://fints.deutsche-bank.de/" "FinTS V3.0";
   E "43070061" "3.0" "https://fints.deutsche-bank.de/" "FinTS V3.0";
   E "43070061" "3.0" "https://fints.deutsche-bank.de/" "FinTS V3.0";
   E "43250030" "" "https://banking-wl5.s-fints-pt-wl.de/fints30" "FinTS V3.0";
   E "44010046" "" "https://hbci.postbank.de/banking/hbci.do" "FinTS V3.0";
   E "44020090" "3.0" "https://hbci-01.hypovereinsbank.de/bank/hbci" "FinTS V3.0";
   E "44020090" "3.0" "https://hbci-01.hypovereinsbank.de/bank/hbci" "FinTS V3.0";
   E "44040037" "3.0" "" "";
   E "44040037" "3.0" "" "";
   E "44040037" "3.0" "" "";
   E "44040037" "3.0" "" "";
   E "44050199" "" "https://banking-wl7.s-fints-pt-wl.de/fints30" "FinTS V3.0";
   E "44060122" "3.0" "https://fints1.atruvia.de/cgi-bin/hbciservlet" "FinTS V3.0";
   E "44070024" "3.0" "https://fints.deutsche-bank.de/" "FinTS V3.0";
   E "44070024" "3.0" "https://fints.deutsche-bank.de/" "FinTS V3.0";
   E "44070024" "3.0" "https://fints.deutsche-bank.de/" "FinTS V3.0";
   E "44070024" "3.0" "https://fints.deutsche-bank.de/" "FinTS V3.0";
   E "44070024" "3.0" "https://fints.deutsche-bank.de/" "FinTS V3.0";
   E "44070024" "3.0" "https://fints.deutsche-bank.de/" "FinTS V3.0";
   E "44070024" "3.0" "https://fints.deutsche-bank.de/" "FinTS V3.0";
   E "44070050" "3.0" "https://fints.deutsche-bank.de/" "FinTS V3.0";
   E "44070050" "3.0" "https://fints.deutsche-bank.de/" "FinTS V3.0";
   E "44070050" "3.0" "https://fints.deutsche-bank.de/" "FinTS V3.0";
   E "44070050" "3.0" "https://fints.deutsche-bank.de/" "FinTS V3.0";
   E "44070050" "3.0" "https://fints.deutsche-bank.de/" "FinTS V3.0";
   E "44070050" "3.0" "https://fints.deutsche-bank.de/" "FinTS V3.0";
   E "44070050" "3.0" "https://fints.deutsche-bank.de/" "FinTS V3.0";
   E "44090920" "3.0" "https://fints2.atruvia.de/cgi-bin/hbciservlet" "FinTS V3.0";
   E "44152370" "" "https://banking-wl5.s-fints-pt-wl.de/fints30" "FinTS V3.0";
   E "44160014" "3.0" "https://fints1.atruvia.de/cgi-bin/hbciservlet" "FinTS V3.0";
   E "44340037" "3.0" "" "";
   E "44350060" "" "https://banking-wl2.s-fints-pt-wl.de/fints30" "FinTS V3.0";
   E "44540022" "3.0" "" "";
   E "44540022" "3.0" "" "";
   E "44540022" "3.0" "" "";
   E "44550045" "" "https://banking-wl2.s-fints-pt-wl.de/fints30" "FinTS V3.0";
   E "44551210" "" "https://banking-wl2.s-fints-pt-wl.de/fints30" "FinTS V3.0";
   E "44570004" "3.0" "https://fints.deutsche-bank.de/" "FinTS V3.0";
   E "44570004" "3.0" "https://fints.deutsche-bank.de/" "FinTS V3.0";
   E "44570004" "3.0" "https://fints.deutsche-bank.de/" "FinTS V3.0";
   E "44570004" "3.0" "https://fints.deutsche-bank.de/" "FinTS V3.0";
   E "44570004" "3.0" "https://fints.deutsche-bank.de/" "FinTS V3.0";
   E "44570004" "3.0" "https://fints.deutsche-bank.de/" "FinTS V3.0";
   E "44570004" "3.0" "https://fints.deutsche-bank.de/" "FinTS V3.0";
   E "44570024" "3.0" "https://fints.deutsche-bank.de/" "FinTS V3.0";
   E "44570024" "3.0" "https://fints.deutsche-bank.de/" "FinTS V3.0";
   E "44570024" "3.0" "https://fints.deutsche-bank.de/" "FinTS V3.0";
   E "44570024" "3.0" "https://fints.deutsche-bank.de/" "FinTS V3.0";
   E "44570024" "3.0" "https://fints.deutsche-bank.de/" "FinTS V3.0";
   E "44570024" "3.0" "https://fints.deutsche-bank.de/" "FinTS V3.0";
   E "44570024" "3.0" "https://fints.deutsche-bank.de/" "FinTS V3.0";
   E "44761312" "3.0" "https://fints1.atruvia.de/cgi-bin/hbciservlet" "FinTS V3.0";
   E "44761534" "3.0" "https://fints1.atruvia.de/cgi-bin/hbciservlet" "FinTS V3.0";
   E "45040042" "3.0" "" "";
   E "45050001" "" "https://banking-wl2.s-fints-pt-wl.de/fints30" "FinTS V3.0";
   E "45060009" "3.0" "https://fints1.atruvia.de/cgi-bin/hbciservlet" "FinTS V3.0";
   E "45061524" "3.0" "https://fints1.atruvia.de/cgi-bin/hbciservlet" "FinTS V3.0";
   E "45070002" "3.0" "https://fints.deutsche-bank.de/" "FinTS V3.0";
   E "45070002" "3.0" "https://fints.deutsche-bank.de/" "FinTS V3.0";
   E "45070002" "3.0" "https://fints.deutsche-bank.de/" "FinTS V3.0";
   E "45070002" "3.0" "https://fints.deutsche-bank.de/" "FinTS V3.0";
   E "45070002" "3.0" "https://fints.deutsche-bank.de/" "FinTS V3.0";
   E "45070024" "3.0" "https://fints.deutsche-bank.de/" "FinTS V3.0";
   E "45070024" "3.0" "https://fints.deutsche-bank.de/" "FinTS V3.0";
   E "45070024" "3.0" "https://fints.deutsche-bank.de/" "FinTS V3.0";
   E "45070024" "3.0" "https://fints.deutsche-bank.de/" "FinTS V3.0";
   E "45070024" "3.0" "https://fints.deutsche-bank.de/" "FinTS V3.0";
   E "45240056" "3.0" "" "";
   E "45250035" "" "https://banking-wl1.s-fints-pt-wl.de/fints30" "FinTS V3.0";
   E "45260475" "3.0" "https://fints1.atruvia.de/cgi-bin/hbciservlet" "FinTS V3.0";
   E "45261547" "3.0" "https://fints1.atruvia.de/cgi-bin/hbciservlet" "FinTS V3.0";
   E "45450050" "" "https://banking-wl4.s-fints-pt-wl.de/fints30" "FinTS V3.0";
   E "45451555" "" "https://banking-wl4.s-fints-pt-wl.de/fints30" "FinTS V3.0";
   E "45840026" "3.0" "" "";
   E "45840026" "3.0" "" "";
   E "45840026" "3.0" "" "";
   E "45840026" "3.0" "" "";
   E "45840026" "3.0" "" "";
   E "45840026" "3.0" "" "";
   E "45841031" "3.0" "" "";
   E "45851020" "" "https://banking-wl5.s-fints-pt-wl.de/fints30" "FinTS V3.0";
   E "45851665" "" "https://banking-wl5.s-fints-pt-wl.de/fints30" "FinTS V3.0";
   E "45861434" "3.0" "https://fints1.atruvia.de/cgi-bin/hbciservlet" "FinTS V3.0";
   E "46040033" "3.0" "" "";
   E "46040033" "3.0" "" "";
   E "46040033" "3.0" "" "";
   E "46040033" "3.0" "" "";
   E "46040033" "3.0" "" "";
   E "46050001" "" "https://banking-wl3.s-fints-pt-wl.de/fints30" "FinTS V3.0";
   E "46051240" "" "https://banking-wl4.s-fints-pt-wl.de/fints30" "FinTS V3.0";
   E "46053480" "" "https://banking-wl5.s-fints-pt-wl.de/fints30" "FinTS V3.0";
   E "46060040" "3.0" "https://fints1.atruvia.de/cgi-bin/hbciservlet" "FinTS V3.0";
   E "46061724" "3.0" "https://fints1.atruvia.de/cgi-bin/hbciservlet" "FinTS V3.0";
   E "46061724" "3.0" "https://fints1.atruvia.de/cgi-bin/hbciservlet" "FinTS V3.0";
   E "46062817" "3.0" "https://fints1.atruvia.de/cgi-bin/hbciservlet" "FinTS V3.0";
   E "46063405" "3.0" "https://fints1.atruvia.de/cgi-bin/hbciservlet" "FinTS V3.0";
   E "46070024" "3.0" "https://fints.deutsche-bank.de/" "FinTS V3.0";
   E "46070024" "3.0" "https://fints.deutsche-bank.de/" "FinTS V3.0";
   E "46070024" "3.0" "https://fints.deutsche-bank.de/" "FinTS V3.0";
   E "46070024" "3.0" "https://fints.deutsche-bank.de/" "FinTS V3.0";
   E "46070024" "3.0" "https://fints.deutsche-bank.de/" "FinTS V3.0";
   E "46070024" "3.0" "https://fints.deutsche-bank.de/" "FinTS V3.0";
   E "46070024" "3.0" "https://fints.deutsche-bank.de/" "FinTS V3.0";
   E "46070024" "3.0" "https://fints.deutsche-bank.de/" "FinTS V3.0";
   E "46070024" "3.0" "https://fints.deutsche-bank.de/" "FinTS V3.0";
   E "46070024" "3.0" "https://fints.deutsche-bank.de/" "FinTS V3.0";
   E "46070024" "3.0" "https://fints.deutsche-bank.de/" "FinTS V3.0";
   E "46070024" "3.0" "https://fints.deutsche-bank.de/" "FinTS V3.0";
   E "46070024" "3.0" "https://fints.deutsche-bank.de/" "FinTS V3.0";
   E "46070024" "3.0" "https://fints.deutsche-bank.de/" "FinTS V3.0";
   E "46070024" "3.0" "https://fints.deutsche-bank.de/" "FinTS V3.0";
   E "46070024" "3.0" "https://fints.deutsche-bank.de/" "FinTS V3.0";
   E "46070024" "3.0" "https://fints.deutsche-bank.de/" "FinTS V3.0";
   E "46070090" "3.0" "https://fints.deutsche-bank.de/" "FinTS V3.0";
   E "46070090" "3.0" "https://fints.deutsche-bank.de/" "FinTS V3.0";
   E "46070090" "3.0" "https://fints.deutsche-bank.de/" "FinTS V3.0";
   E "46070090" "3.0" "https://fints.deutsche-bank.de/" "FinTS V3.0";
   E "46070090" "3.0" "https://fints.deutsche-bank.de/" "FinTS V3.0";
   E "46070090" "3.0" "https://fints.deutsche-bank.de/" "FinTS V3.0";
   E "46070090" "3.0" "https://fints.deutsche-bank.de/" "FinTS V3.0";
   E "46070090" "3.0" "https://fints.deutsche-bank.de/" "FinTS V3.0";
   E "46070090" "3.0" "https://fints.deutsche-bank.de/" "FinTS V3.0";
   E "46070090" "3.0" "https://fints.deutsche-bank.de/" "FinTS V3.0";
   E "46070090" "3.0" "https://fints.deutsche-bank.de/" "FinTS V3.0";
   E "46070090" "3.0" "https://fints.deutsche-bank.de/" "FinTS V3.0";
   E "46070090" "3.0" "https://fints.deutsche-bank.de/" "FinTS V3.0";
   E "46070090" "3.0" "https://fints.deutsche-bank.de/" "FinTS V3.0";
   E "46070090" "3.0" "https://fints.deutsche-bank.de/" "FinTS V3.0";
   E "46070090" "3.0" "https://fints.deutsche-bank.de/" "FinTS V3.0";
   E "46070090" "3.0" "https://fints.deutsche-bank.de/" "FinTS V3.0";
   E "46240016" "3.0" "" "";
   E "46250049" "" "https://banking-wl3.s-fints-pt-wl.de/fints30" "FinTS V3.0";
   E "46251630" "" "https://banking-wl4.s-fints-pt-wl.de/fints30" "FinTS V3.0";
   E "46261607" "3.0" "https://fints1.atruvia.de/cgi-bin/hbciservlet" "FinTS V3.0";
   E "46261822" "3.0" "https://fints1.atruvia.de/cgi-bin/hbciservlet" "FinTS V3.0";
   E "46441003" "3.0" "" "";
   E "46451012" "" "https://banking-wl4.s-fints-pt-wl.de/fints30" "FinTS V3.0";
   E "46640018" "3.0" "" "";
   E "46650005" "" "https://banking-wl1.s-fints-pt-wl.de/fints30" "FinTS V3.0";
   E "46670007" "3.0" "https://fints.deutsche-bank.de/" "FinTS V3.0";
   E "46670007" "3.0" "https://fints.deutsche-bank.de/" "FinTS V3.0";
   E "46670007" "3.0" "https://fints.deutsche-bank.de/" "FinTS V3.0";
   E "46670024" "3.0" "https://fints.deutsche-bank.de/" "FinTS V3.0";
   E "46670024" "3.0" "https://fints.deutsche-bank.de/" "FinTS V3.0";
   E "46670024" "3.0" "https://fints.deutsche-bank.de/" "FinTS V3.0";
   E "47240047" "3.0" "" "";
   E "47240047" "3.0" "" "";
   E "47240047" "3.0" "" "";
   E "47260121" "3.0" "https://fints1.atruvia.de/cgi-bin/hbciservlet" "FinTS V3.0";
   E "47260234" "3.0" "https://fints1.atruvia.de/cgi-bin/hbciservlet" "FinTS V3.0";
   E "47260307" "3.0" "https://fints1.atruvia.de/cgi-bin/hbciservlet" "FinTS V3.0";
   E "47262626" "3.0" "https://fints1.atruvia.de/cgi-bin/hbciservlet" "FinTS V3.0";
   E "47264367" "3.0" "https://fints1.atruvia.de/cgi-bin/hbciservlet" "FinTS V3.0";
   E "47270024" "3.0" "https://fints.deutsche-bank.de/" "FinTS V3.0";
   E "47270024" "3.0" "https://fints.deutsche-bank.de/" "FinTS V3.0";
   E "47270024" "3.0" "https://fints.deutsche-bank.de/" "FinTS V3.0";
   E "47270024" "3.0" "https://fints.deutsche-bank.de/" "FinTS V3.0";
   E "47270024" "3.0" "https://fints.deutsche-bank.de/" "FinTS V3.0";
   E "47270029" "3.0" "https://fints.deutsche-bank.de/" "FinTS V3.0";
   E "47270029" "3.0" "https://fints.deutsche-bank.de/" "FinTS V3.0";
   E "47270029" "3.0" "https://fints.deutsche-bank.de/" "FinTS V3.0";
   E "47270029" "3.0" "https://fints.deutsche-bank.de/" "FinTS V3.0";
   E "47270029" "3.0" "https://fints.deutsche-bank.de/" "FinTS V3.0";
   E "47640051" "3.0" "" "";
   E "47640051" "3.0" "" "";
   E "47640051" "3.0" "" "";
   E "47640051" "3.0" "" "";
   E "47650130" "" "https://banking-wl1.s-fints-pt-wl.de/fints30" "FinTS V3.0";
   E "47670023" "3.0" "https://fints.deutsche-bank.de/" "FinTS V3.0";
   E "47670023" "3.0" "https://fints.deutsche-bank.de/" "FinTS V3.0";
   E "47670023" "3.0" "https://fints.deutsche-bank.de/" "FinTS V3.0";
   E "47670023" "3.0" "https://fints.deutsche-bank.de/" "FinTS V3.0";
   E "47670023" "3.0" "https://fints.deutsche-bank.de/" "FinTS V3.0";
   E "47670023" "3.0" "https://fints.deutsche-bank.de/" "FinTS V3.0";
   E "47670024" "3.0" "https://fints.deutsche-bank.de/" "FinTS V3.0";
   E "47670024" "3.0" "https://fints.deutsche-bank.de/" "FinTS V3.0";
   E "47670024" "3.0" "https://fints.deutsche-bank.de/" "FinTS V3.0";
   E "47670024" "3.0" "https://fints.deutsche-bank.de/" "FinTS V3.0";
   E "47670024" "3.0" "https://fints.deutsche-bank.de/" "FinTS V3.0";
   E "47670024" "3.0" "https://fints.deutsche-bank.de/" "FinTS V3.0";
   E "47691200" "3.0" "https://fints1.atruvia.de/cgi-bin/hbciservlet" "FinTS V3.0";
   E "47840065" "3.0" "" "";
   E "47840065" "3.0" "" "";
   E "47840065" "3.0" "" "";
   E "47840065" "3.0" "" "";
   E "47840065" "3.0" "" "";
   E "47850065" "" "https://banking-wl1.s-fints-pt-wl.de/fints30" "FinTS V3.0";
   E "47853520" "" "https://banking-wl5.s-fints-pt-wl.de/fints30" "FinTS V3.0";
   E "47860125" "3.0" "https://fints1.atruvia.de/cgi-bin/hbciservlet" "FinTS V3.0";
   E "47862447" "3.0" "https://fints1.atruvia.de/cgi-bin/hbciservlet" "FinTS V3.0";
   E "47863373" "3.0" "https://fints1.atruvia.de/cgi-bin/hbciservlet" "FinTS V3.0";
   E "48020086" "3.0" "https://hbci-01.hypovereinsbank.de/bank/hbci" "FinTS V3.0";
   E "48020086" "3.0" "https://hbci-01.hypovereinsbank.de/bank/hbci" "FinTS V3.0";
   E "48020086" "3.0" "https://hbci-01.hypovereinsbank.de/bank/hbci" "FinTS V3.0";
   E "48020151" "3.0" "https://www.bv-activebanking.de/hbciTunnel/hbciTransfer.jsp" "FinTS V3.0";
   E "48020151" "3.0" "https://www.bv-activebanking.de/hbciTunnel/hbciTransfer.jsp" "FinTS V3.0";
   E "48020151" "3.0" "https://www.bv-activebanking.de/hbciTunnel/hbciTransfer.jsp" "FinTS V3.0";
   E "48020151" "3.0" "https://www.bv-activebanking.de/hbciTunnel/hbciTransfer.jsp" "FinTS V3.0";
   E "48020151" "3.0" "https://www.bv-activebanking.de/hbciTunnel/hbciTransfer.jsp" "FinTS V3.0";
   E "48020151" "3.0" "https://www.bv-activebanking.de/hbciTunnel/hbciTransfer.jsp" "FinTS V3.0";
   E "48020151" "3.0" "https://www.bv-activebanking.de/hbciTunnel/hbciTransfer.jsp" "FinTS V3.0";
   E "48020151" "3.0" "https://www.bv-activebanking.de/hbciTunnel/hbciTransfer.jsp" "FinTS V3.0";
   E "48020151" "3.0" "https://www.bv-activebanking.de/hbciTunnel/hbciTransfer.jsp" "FinTS V3.0";
   E "48020151" "3.0" "https://www.bv-activebanking.de/hbciTunnel/hbciTransfer.jsp" "FinTS V3.0";
   E "48020151" "3.0" "https://www.bv-activebanking.de/hbciTunnel/hbciTransfer.jsp" "FinTS V3.0";
   E "48020151" "3.0" "https://www.bv-activebanking.de/hbciTunnel/hbciTransfer.jsp" "FinTS V3.0";
   E "48021900" "3.0" "https://fints1.atruvia.de/cgi-bin/hbciservlet" "FinTS V3.0";
   E "48040035" "3.0" "" "";
   E "48040035" "3.0" "" "";
   E "48050161" "" "https://banking-wl1.s-fints-pt-wl.de/fints30" "FinTS V3.0";
   E "48051580" "" "https://banking-wl1.s-fints-pt-wl.de/fints30" "FinTS V3.0";
   E "48060036" "3.0" "https://fints1.atruvia.de/cgi-bin/hbciservlet" "FinTS V3.0";
   E "48062051" "3.0" "https://fints1.atruvia.de/cgi-bin/hbciservlet" "FinTS V3.0";
   E "48070020" "3.0" "https://fints.deutsche-bank.de/" "FinTS V3.0";
   E "48070020" "3.0" "https://fints.deutsche-bank.de/" "FinTS V3.0";
   E "48070020" "3.0" "https://fints.deutsche-bank.de/" "FinTS V3.0";
   E "48070024" "3.0" "https://fints.deutsche-bank.de/" "FinTS V3.0";
   E "48070024" "3.0" "https://fints.deutsche-bank.de/" "FinTS V3.0";
   E "48070024" "3.0" "https://fints.deutsche-bank.de/" "FinTS V3.0";
   E "48070024" "3.0" "https://fints.deutsche-bank.de/" "FinTS V3.0";
   E "48070024" "3.0" "https://fints.deutsche-bank.de/" "FinTS V3.0";
   E "48070024" "3.0" "https://fints.deutsche-bank.de/" "FinTS V3.0";
   E "48070024" "3.0" "https://fints.deutsche-bank.de/" "FinTS V3.0";
   E "48070024" "3.0" "https://fints.deutsche-bank.de/" "FinTS V3.0";
   E "48070024" "3.0" "https://fints.deutsche-bank.de/" "FinTS V3.0"].
(** bankinfo/data.go:15006-17505 *)
Definition table_06 : list bank_info :=
  [E "48070024" "3.0" "https://fints.deutsche-bank.de/" "FinTS V3.0";
   E "48070024" "3.0" "https://fints.deutsche-bank.de/" "FinTS V3.0";
   E "48070024" "3.0" "https://fints.deutsche-bank.de/" "FinTS V3.0";
   E "48070040" "3.0" "https://fints.deutsche-bank.de/" "FinTS V3.0";
   E "48070042" "3.0" "https://fints.deutsche-bank.de/" "FinTS V3.0";
   E "48070043" "3.0" "https://fints.deutsche-bank.de/" "FinTS V3.0";
   E "48070044" "3.0" "https://fints.deutsche-bank.de/" "FinTS V3.0";
   E "48070045" "3.0" "https://fints.deutsche-bank.de/" "FinTS V3.0";
   E "48070050" "3.0" "https://fints.deutsche-bank.de/" "FinTS V3.0";
   E "48070052" "3.0" "https://fints.deutsche-bank.de/" "FinTS V3.0";
   E "48250110" "" "https://banking-wl5.s-fints-pt-wl.de/fints30" "FinTS V3.0";
   E "48291490" "3.0" "https://fints1.atruvia.de/cgi-bin/hbciservlet" "FinTS V3.0";
   E "48291490" "3.0" "https://fints1.atruvia.de/cgi-bin/hbciservlet" "FinTS V3.0";
   E "49040043" "3.0" "" "";
   E "49050101" "" "https://banking-wl2.s-fints-pt-wl.de/fints30" "FinTS V3.0";
   E "49051065" "" "https://banking-wl2.s-fints-pt-wl.de/fints30" "FinTS V3.0";
   E "49051285" "" "https://banking-wl2.s-fints-pt-wl.de/fints30" "FinTS V3.0";
   E "49070024" "3.0" "https://fints.deutsche-bank.de/" "FinTS V3.0";
   E "49070024" "3.0" "https://fints.deutsche-bank.de/" "FinTS V3.0";
   E "49070024" "3.0" "https://fints.deutsche-bank.de/" "FinTS V3.0";
   E "49070024" "3.0" "https://fints.deutsche-bank.de/" "FinTS V3.0";
   E "49070024" "3.0" "https://fints.deutsche-bank.de/" "FinTS V3.0";
   E "49070028" "3.0" "https://fints.deutsche-bank.de/" "FinTS V3.0";
   E "49070028" "3.0" "https://fints.deutsche-bank.de/" "FinTS V3.0";
   E "49070028" "3.0" "https://fints.deutsche-bank.de/" "FinTS V3.0";
   E "49070028" "3.0" "https://fints.deutsche-bank.de/" "FinTS V3.0";
   E "49070028" "3.0" "https://fints.deutsche-bank.de/" "FinTS V3.0";
   E "49092650" "3.0" "https://fints1.atruvia.de/cgi-bin/hbciservlet" "FinTS V3.0";
   E "49240096" "3.0" "" "";
   E "49240096" "3.0" "" "";
   E "49440043" "3.0" "" "";
   E "49440043" "3.0" "" "";
   E "49450120" "" "https://banking-wl3.s-fints-pt-wl.de/fints30" "FinTS V3.0";
   E "49490070" "3.0" "https://fints1.atruvia.de/cgi-bin/hbciservlet" "FinTS V3.0";
   E "50010060" "" "https://hbci.postbank.de/banking/hbci.do" "FinTS V3.0";
   E "50010517" "" "https://fints.ing-diba.de/fints/" "FinTS V3.0";
   E "50010700" "" "https://fints.degussa-bank.de" "FinTS V3.0";
   E "50015001" "" "https://fints2.atruvia.de/cgi-bin/hbciservlet" "FinTS V3.0";
   E "50020000" "3.0" "https://fints1.atruvia.de/cgi-bin/hbciservlet" "FinTS V3.0";
   E "50020200" "3.0" "https://www.bv-activebanking.de/hbciTunnel/hbciTransfer.jsp" "FinTS V3.0";
   E "50020500" "3.0" "https://fints2.atruvia.de/cgi-bin/hbciservlet" "FinTS V3.0";
   E "50030010" "" "https://fints1.atruvia.de/cgi-bin/hbciservlet" "FinTS V3.0";
   E "50030100" "3.0" "https://fints1.atruvia.de/cgi-bin/hbciservlet" "FinTS V3.0";
   E "50031000" "3.0" "https://fints2.atruvia.de/cgi-bin/hbciservlet" "FinTS V3.0";
   E "50033300" "3.0" "" "";
   E "50040000" "3.0" "" "";
   E "50040000" "3.0" "" "";
   E "50040000" "3.0" "" "";
   E "50040000" "3.0" "" "";
   E "50040000" "3.0" "" "";
   E "50040000" "3.0" "" "";
   E "50040000" "3.0" "" "";
   E "50040000" "3.0" "" "";
   E "50040000" "3.0" "" "";
   E "50040000" "3.0" "" "";
   E "50040000" "3.0" "" "";
   E "50040000" "3.0" "" "";
   E "50040000" "3.0" "" "";
   E "50040000" "3.0" "" "";
   E "50040033" "3.0" "" "";
   E "50050201" "" "https://banking-hs6.s-fints-pt-hs.de/fints30" "FinTS V3.0";
   E "50050222" "" "https://fints.1822direkt.com/fints/hbci" "FinTS V3.0";
   E "50060474" "3.0" "https://fints2.atruvia.de/cgi-bin/hbciservlet" "FinTS V3.0";
   E "50061741" "3.0" "https://fints2.atruvia.de/cgi-bin/hbciservlet" "FinTS V3.0";
   E "50069126" "3.0" "https://fints2.atruvia.de/cgi-bin/hbciservlet" "FinTS V3.0";
   E "50069146" "3.0" "https://fints2.atruvia.de/cgi-bin/hbciservlet" "FinTS V3.0";
   E "50069345" "3.0" "https://fints2.atruvia.de/cgi-bin/hbciservlet" "FinTS V3.0";
   E "50069455" "3.0" "https://fints2.atruvia.de/cgi-bin/hbciservlet" "FinTS V3.0";
   E "50069477" "3.0" "https://fints2.atruvia.de/cgi-bin/hbciservlet" "FinTS V3.0";
   E "50069693" "3.0" "https://fints2.atruvia.de/cgi-bin/hbciservlet" "FinTS V3.0";
   E "50069976" "3.0" "https://fints2.atruvia.de/cgi-bin/hbciservlet" "FinTS V3.0";
   E "50070010" "3.0" "https://fints.deutsche-bank.de/" "FinTS V3.0";
   E "50070010" "3.0" "https://fints.deutsche-bank.de/" "FinTS V3.0";
   E "50070010" "3.0" "https://fints.deutsche-bank.de/" "FinTS V3.0";
   E "50070010" "3.0" "https://fints.deutsche-bank.de/" "FinTS V3.0";
   E "50070010" "3.0" "https://fints.deutsche-bank.de/" "FinTS V3.0";
   E "50070010" "3.0" "https://fints.deutsche-bank.de/" "FinTS V3.0";
   E "50070010" "3.0" "https://fints.deutsche-bank.de/" "FinTS V3.0";
   E "50070010" "3.0" "https://fints.deutsche-bank.de/" "FinTS V3.0";
   E "50070024" "3.0" "https://fints.deutsche-bank.de/" "FinTS V3.0";
   E "50070024" "3.0" "https://fints.deutsche-bank.de/" "FinTS V3.0";
   E "50070024" "3.0" "https://fints.deutsche-bank.de/" "FinTS V3.0";
   E "50070024" "3.0" "https://fints.deutsche-bank.de/" "FinTS V3.0";
   E "50070024" "3.0" "https://fints.deutsche-bank.de/" "FinTS V3.0";
   E "50070024" "3.0" "https://fints.deutsche-bank.de/" "FinTS V3.0";
   E "50070024" "3.0" "https://fints.deutsche-bank.de/" "FinTS V3.0";
   E "50070024" "3.0" "https://fints.deutsche-bank.de/" "FinTS V3.0";
   E "50070024" "3.0" "https://fints.deutsche-bank.de/" "FinTS V3.0";
   E "50073019" "3.0" "https://fints.deutsche-bank.de/" "FinTS V3.0";
   E "50073019" "3.0" "https://fints.deutsche-bank.de/" "FinTS V3.0";
   E "50073024" "3.0" "https://fints.deutsche-bank.de/" "FinTS V3.0";
   E "50073024" "3.0" "https://fints.deutsche-bank.de/" "FinTS V3.0";
   E "50090500" "" "https://fints.bankingonline.de/fints/FinTs30PinTanHttpGate" "FinTS V3.0";
   E "50090900" "" "https://fints2.atruvia.de/cgi-bin/hbciservlet" "FinTS V3.0";
   E "50092100" "3.0" "https://fints2.atruvia.de/cgi-bin/hbciservlet" "FinTS V3.0";
   E "50092900" "3.0" "https://fints2.atruvia.de/cgi-bin/hbciservlet" "FinTS V3.0";
   E "50093400" "3.0" "https://fints2.atruvia.de/cgi-bin/hbciservlet" "FinTS V3.0";
   E "50110700" "3.0" "https://fints2.atruvia.de/cgi-bin/hbciservlet" "FinTS V3.0";
   E "50120900" "3.0" "https://fints2.atruvia.de/cgi-bin/hbciservlet" "FinTS V3.0";
   E "50123400" "" "https://fints1.atruvia.de/cgi-bin/hbciservlet" "FinTS V3.0";
   E "50130400" "3.0" "https://www.bv-activebanking.de/hbciTunnel/hbciTransfer.jsp" "FinTS V3.0";
   E "50131000" "3.0" "https://fints2.atruvia.de/cgi-bin/hbciservlet" "FinTS V3.0";
   E "50190000" "3.0" "https://fints2.atruvia.de/cgi-bin/hbciservlet" "FinTS V3.0";
   E "50220900" "3.0" "" "";
   E "50230600" "3.0" "https://www.bv-activebanking.de/hbciTunnel/hbciTransfer.jsp" "FinTS V3.0";
   E "50230888" "3.0" "https://fints2.atruvia.de/cgi-bin/hbciservlet" "FinTS V3.0";
   E "50320191" "3.0" "https://hbci-01.hypovereinsbank.de/bank/hbci" "FinTS V3.0";
   E "50320191" "3.0" "https://hbci-01.hypovereinsbank.de/bank/hbci" "FinTS V3.0";
   E "50320191" "3.0" "https://hbci-01.hypovereinsbank.de/bank/hbci" "FinTS V3.0";
   E "50520190" "3.0" "https://hbci-01.hypovereinsbank.de/bank/hbci" "FinTS V3.0";
   E "50520190" "3.0" "https://hbci-01.hypovereinsbank.de/bank/hbci" "FinTS V3.0";
   E "50530000" "3.0" "https://fints2.atruvia.de/cgi-bin/hbciservlet" "FinTS V3.0";
   E "50540028" "3.0" "" "";
   E "50540028" "3.0" "" "";
   E "50540028" "3.0" "" "";
   E "50550020" "" "https://banking-hs3.s-fints-pt-hs.de/fints30" "FinTS V3.0";
   E "50570018" "3.0" "https://fints.deutsche-bank.de/" "FinTS V3.0";
   E "50570018" "3.0" "https://fints.deutsche-bank.de/" "FinTS V3.0";
   E "50570018" "3.0" "https://fints.deutsche-bank.de/" "FinTS V3.0";
   E "50570018" "3.0" "https://fints.deutsche-bank.de/" "FinTS V3.0";
   E "50570018" "3.0" "https://fints.deutsche-bank.de/" "FinTS V3.0";
   E "50570018" "3.0" "https://fints.deutsche-bank.de/" "FinTS V3.0";
   E "50570018" "3.0" "https://fints.deutsche-bank.de/" "FinTS V3.0";
   E "50570018" "3.0" "https://fints.deutsche-bank.de/" "FinTS V3.0";
   E "50570018" "3.0" "https://fints.deutsche-bank.de/" "FinTS V3.0";
   E "50570024" "3.0" "https://fints.deutsche-bank.de/" "FinTS V3.0";
   E "50570024" "3.0" "https://fints.deutsche-bank.de/" "FinTS V3.0";
   E "50570024" "3.0" "https://fints.deutsche-bank.de/" "FinTS V3.0";
   E "50570024" "3.0" "https://fints.deutsche-bank.de/" "FinTS V3.0";
   E "50570024" "3.0" "https://fints.deutsche-bank.de/" "FinTS V3.0";
   E "50570024" "3.0" "https://fints.deutsche-bank.de/" "FinTS V3.0";
   E "50570024" "3.0" "https://fints.deutsche-bank.de/" "FinTS V3.0";
   E "50570024" "3.0" "https://fints.deutsche-bank.de/" "FinTS V3.0";
   E "50570024" "3.0" "https://fints.deutsche-bank.de/" "FinTS V3.0";
   E "50590000" "3.0" "https://fints2.atruvia.de/cgi-bin/hbciservlet" "FinTS V3.0";
   E "50592200" "3.0" "https://fints2.atruvia.de/cgi-bin/hbciservlet" "FinTS V3.0";
   E "50640015" "3.0" "" "";
   E "50650023" "" "https://banking-hs3.s-fints-pt-hs.de/fints30" "FinTS V3.0";
   E "50652124" "" "https://banking-hs1.s-fints-pt-hs.de/fints30" "FinTS V3.0";
   E "50661639" "3.0" "https://fints2.atruvia.de/cgi-bin/hbciservlet" "FinTS V3.0";
   E "50661816" "3.0" "https://fints2.atruvia.de/cgi-bin/hbciservlet" "FinTS V3.0";
   E "50662299" "3.0" "https://fints2.atruvia.de/cgi-bin/hbciservlet" "FinTS V3.0";
   E "50662669" "3.0" "https://fints2.atruvia.de/cgi-bin/hbciservlet" "FinTS V3.0";
   E "50663699" "3.0" "https://fints2.atruvia.de/cgi-bin/hbciservlet" "FinTS V3.0";
   E "50670009" "3.0" "https://fints.deutsche-bank.de/" "FinTS V3.0";
   E "50670009" "3.0" "https://fints.deutsche-bank.de/" "FinTS V3.0";
   E "50670024" "3.0" "https://fints.deutsche-bank.de/" "FinTS V3.0";
   E "50670024" "3.0" "https://fints.deutsche-bank.de/" "FinTS V3.0";
   E "50690000" "3.0" "https://fints2.atruvia.de/cgi-bin/hbciservlet" "FinTS V3.0";
   E "50692100" "3.0" "https://fints2.atruvia.de/cgi-bin/hbciservlet" "FinTS V3.0";
   E "50750094" "" "https://banking-hs1.s-fints-pt-hs.de/fints30" "FinTS V3.0";
   E "50761613" "3.0" "https://fints2.atruvia.de/cgi-bin/hbciservlet" "FinTS V3.0";
   E "50790000" "3.0" "https://fints2.atruvia.de/cgi-bin/hbciservlet" "FinTS V3.0";
   E "50794300" "3.0" "https://fints2.atruvia.de/cgi-bin/hbciservlet" "FinTS V3.0";
   E "50820292" "3.0" "https://hbci-01.hypovereinsbank.de/bank/hbci" "FinTS V3.0";
   E "50840005" "3.0" "" "";
   E "50840005" "3.0" "" "";
   E "50840005" "3.0" "" "";
   E "50840005" "3.0" "" "";
   E "50840005" "3.0" "" "";
   E "50850150" "" "https://banking-hs3.s-fints-pt-hs.de/fints30" "FinTS V3.0";
   E "50851952" "" "https://banking-hs4.s-fints-pt-hs.de/fints30" "FinTS V3.0";
   E "50852553" "" "https://banking-hs2.s-fints-pt-hs.de/fints30" "FinTS V3.0";
   E "50852651" "" "https://banking-hs2.s-fints-pt-hs.de/fints30" "FinTS V3.0";
   E "50861501" "3.0" "https://fints2.atruvia.de/cgi-bin/hbciservlet" "FinTS V3.0";
   E "50862703" "3.0" "https://fints2.atruvia.de/cgi-bin/hbciservlet" "FinTS V3.0";
   E "50862835" "3.0" "https://fints2.atruvia.de/cgi-bin/hbciservlet" "FinTS V3.0";
   E "50862903" "3.0" "https://fints2.atruvia.de/cgi-bin/hbciservlet" "FinTS V3.0";
   E "50863513" "3.0" "https://fints2.atruvia.de/cgi-bin/hbciservlet" "FinTS V3.0";
   E "50865224" "3.0" "https://fints2.atruvia.de/cgi-bin/hbciservlet" "FinTS V3.0";
   E "50870005" "3.0" "https://fints.deutsche-bank.de/" "FinTS V3.0";
   E "50870005" "3.0" "https://fints.deutsche-bank.de/" "FinTS V3.0";
   E "50870005" "3.0" "https://fints.deutsche-bank.de/" "FinTS V3.0";
   E "50870005" "3.0" "https://fints.deutsche-bank.de/" "FinTS V3.0";
   E "50870024" "3.0" "https://fints.deutsche-bank.de/" "FinTS V3.0";
   E "50870024" "3.0" "https://fints.deutsche-bank.de/" "FinTS V3.0";
   E "50870024" "3.0" "https://fints.deutsche-bank.de/" "FinTS V3.0";
   E "50870024" "3.0" "https://fints.deutsche-bank.de/" "FinTS V3.0";
   E "50892500" "3.0" "https://fints2.atruvia.de/cgi-bin/hbciservlet" "FinTS V3.0";
   E "50950068" "" "https://banking-hs4.s-fints-pt-hs.de/fints30" "FinTS V3.0";
   E "50951469" "" "https://banking-hs4.s-fints-pt-hs.de/fints30" "FinTS V3.0";
   E "50961206" "3.0" "https://fints2.atruvia.de/cgi-bin/hbciservlet" "FinTS V3.0";
   E "50961592" "3.0" "https://fints2.atruvia.de/cgi-bin/hbciservlet" "FinTS V3.0";
   E "50970004" "3.0" "https://fints.deutsche-bank.de/" "FinTS V3.0";
   E "50970004" "3.0" "https://fints.deutsche-bank.de/" "FinTS V3.0";
   E "50970024" "3.0" "https://fints.deutsche-bank.de/" "FinTS V3.0";
   E "50970024" "3.0" "https://fints.deutsche-bank.de/" "FinTS V3.0";
   E "51020000" "3.0" "https://www.bv-activebanking.de/hbciTunnel/hbciTransfer.jsp" "FinTS V3.0";
   E "51020186" "3.0" "https://hbci-01.hypovereinsbank.de/bank/hbci" "FinTS V3.0";
   E "51040038" "3.0" "" "";
   E "51040038" "3.0" "" "";
   E "51050015" "" "https://banking-hs7.s-fints-pt-hs.de/fints30" "FinTS V3.0";
   E "51070021" "3.0" "https://fints.deutsche-bank.de/" "FinTS V3.0";
   E "51070021" "3.0" "https://fints.deutsche-bank.de/" "FinTS V3.0";
   E "51070021" "3.0" "https://fints.deutsche-bank.de/" "FinTS V3.0";
   E "51070024" "3.0" "https://fints.deutsche-bank.de/" "FinTS V3.0";
   E "51070024" "3.0" "https://fints.deutsche-bank.de/" "FinTS V3.0";
   E "51070024" "3.0" "https://fints.deutsche-bank.de/" "FinTS V3.0";
   E "51090000" "3.0" "https://fints2.atruvia.de/cgi-bin/hbciservlet" "FinTS V3.0";
   E "51091500" "3.0" "https://fints2.atruvia.de/cgi-bin/hbciservlet" "FinTS V3.0";
   E "51091711" "3.0" "https://fints2.atruvia.de/cgi-bin/hbciservlet" "FinTS V3.0";
   E "51140029" "3.0" "" "";
   E "51140029" "3.0" "" "";
   E "51150018" "" "https://banking-hs2.s-fints-pt-hs.de/fints30" "FinTS V3.0";
   E "51151919" "" "https://banking-hs4.s-fints-pt-hs.de/fints30" "FinTS V3.0";
   E "51161606" "3.0" "https://fints2.atruvia.de/cgi-bin/hbciservlet" "FinTS V3.0";
   E "51170010" "3.0" "https://fints.deutsche-bank.de/" "FinTS V3.0";
   E "51170024" "3.0" "https://fints.deutsche-bank.de/" "FinTS V3.0";
   E "51191800" "3.0" "https://fints2.atruvia.de/cgi-bin/hbciservlet" "FinTS V3.0";
   E "51192200" "3.0" "https://fints2.atruvia.de/cgi-bin/hbciservlet" "FinTS V3.0";
   E "51210700" "3.0" "https://fints2.atruvia.de/cgi-bin/hbciservlet" "FinTS V3.0";
   E "51230800" "3.0" "https://fints1.atruvia.de/cgi-bin/hbciservlet" "FinTS V3.0";
   E "51250000" "" "https://banking-hs3.s-fints-pt-hs.de/fints30" "FinTS V3.0";
   E "51340013" "3.0" "" "";
   E "51340013" "3.0" "" "";
   E "51343224" "3.0" "" "";
   E "51350025" "" "https://banking-hs3.s-fints-pt-hs.de/fints30" "FinTS V3.0";
   E "51351526" "" "https://banking-hs1.s-fints-pt-hs.de/fints30" "FinTS V3.0";
   E "51352227" "" "https://banking-hs2.s-fints-pt-hs.de/fints30" "FinTS V3.0";
   E "51361021" "3.0" "https://fints2.atruvia.de/cgi-bin/hbciservlet" "FinTS V3.0";
   E "51370008" "3.0" "https://fints.deutsche-bank.de/" "FinTS V3.0";
   E "51370024" "3.0" "https://fints.deutsche-bank.de/" "FinTS V3.0";
   E "51390000" "3.0" "https://fints2.atruvia.de/cgi-bin/hbciservlet" "FinTS V3.0";
   E "51420300" "" "https://www.bv-activebanking.de/hbciTunnel/hbciTransfer.jsp" "FinTS V3.0";
   E "51540037" "3.0" "" "";
   E "51540037" "3.0" "" "";
   E "51550035" "" "https://banking-hs1.s-fints-pt-hs.de/fints30" "FinTS V3.0";
   E "51570008" "3.0" "https://fints.deutsche-bank.de/" "FinTS V3.0";
   E "51570024" "3.0" "https://fints.deutsche-bank.de/" "FinTS V3.0";
   E "51591300" "3.0" "https://fints2.atruvia.de/cgi-bin/hbciservlet" "FinTS V3.0";
   E "51640043" "3.0" "" "";
   E "51650045" "" "https://banking-hs2.s-fints-pt-hs.de/fints30" "FinTS V3.0";
   E "51752267" "" "https://banking-hs3.s-fints-pt-hs.de/fints30" "FinTS V3.0";
   E "51762434" "3.0" "https://fints2.atruvia.de/cgi-bin/hbciservlet" "FinTS V3.0";
   E "51850079" "" "https://banking-hs1.s-fints-pt-hs.de/fints30" "FinTS V3.0";
   E "51861325" "3.0" "https://fints2.atruvia.de/cgi-bin/hbciservlet" "FinTS V3.0";
   E "51861403" "3.0" "https://fints2.atruvia.de/cgi-bin/hbciservlet" "FinTS V3.0";
   E "51861616" "3.0" "https://fints2.atruvia.de/cgi-bin/hbciservlet" "FinTS V3.0";
   E "51861806" "3.0" "https://fints2.atruvia.de/cgi-bin/hbciservlet" "FinTS V3.0";
   E "51961023" "3.0" "https://fints2.atruvia.de/cgi-bin/hbciservlet" "FinTS V3.0";
   E "51961801" "3.0" "https://fints2.atruvia.de/cgi-bin/hbciservlet" "FinTS V3.0";
   E "51990000" "3.0" "https://fints2.atruvia.de/cgi-bin/hbciservlet" "FinTS V3.0";
   E "52040021" "3.0" "" "";
   E "52040021" "3.0" "" "";
   E "52040021" "3.0" "" "";
   E "52050353" "" "https://banking-hs3.s-fints-pt-hs.de/fints30" "FinTS V3.0";
   E "52051877" "" "https://banking-hs4.s-fints-pt-hs.de/fints30" "FinTS V3.0";
   E "52052154" "" "https://banking-hs4.s-fints-pt-hs.de/fints30" "FinTS V3.0";
   E "52053458" "" "https://banking-hs2.s-fints-pt-hs.de/fints30" "FinTS V3.0";
   E "52060208" "3.0" "https://fints2.atruvia.de/cgi-bin/hbciservlet" "FinTS V3.0"].
(** bankinfo/data.go:17506-20005 *)
Definition table_07 : list bank_info :=
  [E "52060410" "3.0" "https://fints2.atruvia.de/cgi-bin/hbciservlet" "FinTS V3.0";
   E "52062601" "3.0" "https://fints2.atruvia.de/cgi-bin/hbciservlet" "FinTS V3.0";
   E "52063369" "3.0" "https://fints2.atruvia.de/cgi-bin/hbciservlet" "FinTS V3.0";
   E "52063550" "3.0" "https://fints2.atruvia.de/cgi-bin/hbciservlet" "FinTS V3.0";
   E "52064156" "3.0" "https://fints2.atruvia.de/cgi-bin/hbciservlet" "FinTS V3.0";
   E "52069029" "3.0" "https://fints2.atruvia.de/cgi-bin/hbciservlet" "FinTS V3.0";
   E "52070012" "3.0" "https://fints.deutsche-bank.de/" "FinTS V3.0";
   E "52070012" "3.0" "https://fints.deutsche-bank.de/" "FinTS V3.0";
   E "52070012" "3.0" "https://fints.deutsche-bank.de/" "FinTS V3.0";
   E "52070024" "3.0" "https://fints.deutsche-bank.de/" "FinTS V3.0";
   E "52070024" "3.0" "https://fints.deutsche-bank.de/" "FinTS V3.0";
   E "52070024" "3.0" "https://fints.deutsche-bank.de/" "FinTS V3.0";
   E "52071212" "3.0" "https://fints.deutsche-bank.de/" "FinTS V3.0";
   E "52071224" "3.0" "https://fints.deutsche-bank.de/" "FinTS V3.0";
   E "52090000" "3.0" "https://fints2.atruvia.de/cgi-bin/hbciservlet" "FinTS V3.0";
   E "52240006" "3.0" "" "";
   E "52250030" "" "https://banking-hs4.s-fints-pt-hs.de/fints30" "FinTS V3.0";
   E "52260385" "3.0" "https://fints2.atruvia.de/cgi-bin/hbciservlet" "FinTS V3.0";
   E "52270012" "3.0" "https://fints.deutsche-bank.de/" "FinTS V3.0";
   E "52270024" "3.0" "https://fints.deutsche-bank.de/" "FinTS V3.0";
   E "52350005" "" "https://banking-hs4.s-fints-pt-hs.de/fints30" "FinTS V3.0";
   E "52360059" "3.0" "https://fints2.atruvia.de/cgi-bin/hbciservlet" "FinTS V3.0";
   E "52411000" "3.0" "https://fints2.atruvia.de/cgi-bin/hbciservlet" "FinTS V3.0";
   E "53040012" "3.0" "" "";
   E "53050180" "" "https://banking-hs2.s-fints-pt-hs.de/fints30" "FinTS V3.0";
   E "53051396" "" "https://banking-hs1.s-fints-pt-hs.de/fints30" "FinTS V3.0";
   E "53060180" "3.0" "https://fints2.atruvia.de/cgi-bin/hbciservlet" "FinTS V3.0";
   E "53061230" "3.0" "https://fints2.atruvia.de/cgi-bin/hbciservlet" "FinTS V3.0";
   E "53062035" "3.0" "https://fints2.atruvia.de/cgi-bin/hbciservlet" "FinTS V3.0";
   E "53062350" "3.0" "https://fints2.atruvia.de/cgi-bin/hbciservlet" "FinTS V3.0";
   E "53070007" "3.0" "https://fints.deutsche-bank.de/" "FinTS V3.0";
   E "53070007" "3.0" "https://fints.deutsche-bank.de/" "FinTS V3.0";
   E "53070007" "3.0" "https://fints.deutsche-bank.de/" "FinTS V3.0";
   E "53070024" "3.0" "https://fints.deutsche-bank.de/" "FinTS V3.0";
   E "53070024" "3.0" "https://fints.deutsche-bank.de/" "FinTS V3.0";
   E "53070024" "3.0" "https://fints.deutsche-bank.de/" "FinTS V3.0";
   E "53093200" "3.0" "https://fints2.atruvia.de/cgi-bin/hbciservlet" "FinTS V3.0";
   E "53093255" "3.0" "https://fints2.atruvia.de/cgi-bin/hbciservlet" "FinTS V3.0";
   E "53240048" "3.0" "" "";
   E "53250000" "" "https://banking-hs3.s-fints-pt-hs.de/fints30" "FinTS V3.0";
   E "53261342" "3.0" "https://fints2.atruvia.de/cgi-bin/hbciservlet" "FinTS V3.0";
   E "53270012" "3.0" "https://fints.deutsche-bank.de/" "FinTS V3.0";
   E "53270024" "3.0" "https://fints.deutsche-bank.de/" "FinTS V3.0";
   E "53290000" "3.0" "https://fints2.atruvia.de/cgi-bin/hbciservlet" "FinTS V3.0";
   E "53340024" "3.0" "" "";
   E "53340024" "3.0" "" "";
   E "53350000" "" "https://banking-hs1.s-fints-pt-hs.de/fints30" "FinTS V3.0";
   E "53370008" "3.0" "https://fints.deutsche-bank.de/" "FinTS V3.0";
   E "53370024" "3.0" "https://fints.deutsche-bank.de/" "FinTS V3.0";
   E "54020090" "3.0" "https://hbci-01.hypovereinsbank.de/bank/hbci" "FinTS V3.0";
   E "54040042" "3.0" "" "";
   E "54050220" "" "https://banking-rp3.s-fints-pt-rp.de/fints30" "FinTS V3.0";
   E "54051550" "" "https://banking-rp3.s-fints-pt-rp.de/fints30" "FinTS V3.0";
   E "54051990" "" "https://banking-rp3.s-fints-pt-rp.de/fints30" "FinTS V3.0";
   E "54070024" "3.0" "https://fints.deutsche-bank.de/" "FinTS V3.0";
   E "54070024" "3.0" "https://fints.deutsche-bank.de/" "FinTS V3.0";
   E "54070092" "3.0" "https://fints.deutsche-bank.de/" "FinTS V3.0";
   E "54070092" "3.0" "https://fints.deutsche-bank.de/" "FinTS V3.0";
   E "54090000" "3.0" "https://fints2.atruvia.de/cgi-bin/hbciservlet" "FinTS V3.0";
   E "54091700" "3.0" "https://fints2.atruvia.de/cgi-bin/hbciservlet" "FinTS V3.0";
   E "54091800" "3.0" "https://fints2.atruvia.de/cgi-bin/hbciservlet" "FinTS V3.0";
   E "54092400" "3.0" "https://fints2.atruvia.de/cgi-bin/hbciservlet" "FinTS V3.0";
   E "54220091" "3.0" "https://hbci-01.hypovereinsbank.de/bank/hbci" "FinTS V3.0";
   E "54240032" "3.0" "" "";
   E "54250010" "" "https://banking-rp4.s-fints-pt-rp.de/fints30" "FinTS V3.0";
   E "54261700" "3.0" "https://fints2.atruvia.de/cgi-bin/hbciservlet" "FinTS V3.0";
   E "54270024" "3.0" "https://fints.deutsche-bank.de/" "FinTS V3.0";
   E "54270024" "3.0" "https://fints.deutsche-bank.de/" "FinTS V3.0";
   E "54270096" "3.0" "https://fints.deutsche-bank.de/" "FinTS V3.0";
   E "54270096" "3.0" "https://fints.deutsche-bank.de/" "FinTS V3.0";
   E "54510067" "" "https://hbci.postbank.de/banking/hbci.do" "FinTS V3.0";
   E "54520194" "3.0" "https://hbci-01.hypovereinsbank.de/bank/hbci" "FinTS V3.0";
   E "54520194" "3.0" "https://hbci-01.hypovereinsbank.de/bank/hbci" "FinTS V3.0";
   E "54520194" "3.0" "https://hbci-01.hypovereinsbank.de/bank/hbci" "FinTS V3.0";
   E "54520194" "3.0" "https://hbci-01.hypovereinsbank.de/bank/hbci" "FinTS V3.0";
   E "54520194" "3.0" "https://hbci-01.hypovereinsbank.de/bank/hbci" "FinTS V3.0";
   E "54520194" "3.0" "https://hbci-01.hypovereinsbank.de/bank/hbci" "FinTS V3.0";
   E "54520194" "3.0" "https://hbci-01.hypovereinsbank.de/bank/hbci" "FinTS V3.0";
   E "54520194" "3.0" "https://hbci-01.hypovereinsbank.de/bank/hbci" "FinTS V3.0";
   E "54520194" "3.0" "https://hbci-01.hypovereinsbank.de/bank/hbci" "FinTS V3.0";
   E "54520194" "3.0" "https://hbci-01.hypovereinsbank.de/bank/hbci" "FinTS V3.0";
   E "54520194" "3.0" "https://hbci-01.hypovereinsbank.de/bank/hbci" "FinTS V3.0";
   E "54520194" "3.0" "https://hbci-01.hypovereinsbank.de/bank/hbci" "FinTS V3.0";
   E "54540033" "3.0" "" "";
   E "54540033" "3.0" "" "";
   E "54540033" "3.0" "" "";
   E "54540033" "3.0" "" "";
   E "54550010" "" "https://banking-rp4.s-fints-pt-rp.de/fints30" "FinTS V3.0";
   E "54570024" "3.0" "https://fints.deutsche-bank.de/" "FinTS V3.0";
   E "54570024" "3.0" "https://fints.deutsche-bank.de/" "FinTS V3.0";
   E "54570024" "3.0" "https://fints.deutsche-bank.de/" "FinTS V3.0";
   E "54570024" "3.0" "https://fints.deutsche-bank.de/" "FinTS V3.0";
   E "54570024" "3.0" "https://fints.deutsche-bank.de/" "FinTS V3.0";
   E "54570024" "3.0" "https://fints.deutsche-bank.de/" "FinTS V3.0";
   E "54570094" "3.0" "https://fints.deutsche-bank.de/" "FinTS V3.0";
   E "54570094" "3.0" "https://fints.deutsche-bank.de/" "FinTS V3.0";
   E "54570094" "3.0" "https://fints.deutsche-bank.de/" "FinTS V3.0";
   E "54570094" "3.0" "https://fints.deutsche-bank.de/" "FinTS V3.0";
   E "54570094" "3.0" "https://fints.deutsche-bank.de/" "FinTS V3.0";
   E "54570094" "3.0" "https://fints.deutsche-bank.de/" "FinTS V3.0";
   E "54620093" "3.0" "https://hbci-01.hypovereinsbank.de/bank/hbci" "FinTS V3.0";
   E "54640035" "3.0" "" "";
   E "54651240" "" "https://banking-rp4.s-fints-pt-rp.de/fints30" "FinTS V3.0";
   E "54670024" "3.0" "https://fints.deutsche-bank.de/" "FinTS V3.0";
   E "54670024" "3.0" "https://fints.deutsche-bank.de/" "FinTS V3.0";
   E "54670024" "3.0" "https://fints.deutsche-bank.de/" "FinTS V3.0";
   E "54670095" "3.0" "https://fints.deutsche-bank.de/" "FinTS V3.0";
   E "54670095" "3.0" "https://fints.deutsche-bank.de/" "FinTS V3.0";
   E "54670095" "3.0" "https://fints.deutsche-bank.de/" "FinTS V3.0";
   E "54691200" "3.0" "https://fints2.atruvia.de/cgi-bin/hbciservlet" "FinTS V3.0";
   E "54790000" "3.0" "https://fints2.atruvia.de/cgi-bin/hbciservlet" "FinTS V3.0";
   E "54850010" "" "https://banking-rp4.s-fints-pt-rp.de/fints30" "FinTS V3.0";
   E "54862500" "3.0" "https://fints2.atruvia.de/cgi-bin/hbciservlet" "FinTS V3.0";
   E "54891300" "3.0" "https://fints2.atruvia.de/cgi-bin/hbciservlet" "FinTS V3.0";
   E "55020000" "3.0" "https://www.bv-activebanking.de/hbciTunnel/hbciTransfer.jsp" "FinTS V3.0";
   E "55020486" "3.0" "https://hbci-01.hypovereinsbank.de/bank/hbci" "FinTS V3.0";
   E "55033300" "3.0" "" "";
   E "55040022" "3.0" "" "";
   E "55040022" "3.0" "" "";
   E "55040022" "3.0" "" "";
   E "55040022" "3.0" "" "";
   E "55060321" "3.0" "https://fints2.atruvia.de/cgi-bin/hbciservlet" "FinTS V3.0";
   E "55060611" "3.0" "https://fints2.atruvia.de/cgi-bin/hbciservlet" "FinTS V3.0";
   E "55061303" "3.0" "https://fints2.atruvia.de/cgi-bin/hbciservlet" "FinTS V3.0";
   E "55061507" "3.0" "https://fints2.atruvia.de/cgi-bin/hbciservlet" "FinTS V3.0";
   E "55070024" "3.0" "https://fints.deutsche-bank.de/" "FinTS V3.0";
   E "55070024" "3.0" "https://fints.deutsche-bank.de/" "FinTS V3.0";
   E "55070024" "3.0" "https://fints.deutsche-bank.de/" "FinTS V3.0";
   E "55070024" "3.0" "https://fints.deutsche-bank.de/" "FinTS V3.0";
   E "55070040" "3.0" "https://fints.deutsche-bank.de/" "FinTS V3.0";
   E "55070040" "3.0" "https://fints.deutsche-bank.de/" "FinTS V3.0";
   E "55070040" "3.0" "https://fints.deutsche-bank.de/" "FinTS V3.0";
   E "55070040" "3.0" "https://fints.deutsche-bank.de/" "FinTS V3.0";
   E "55090500" "3.0" "https://fints2.atruvia.de/cgi-bin/hbciservlet" "FinTS V3.0";
   E "55091200" "3.0" "https://fints2.atruvia.de/cgi-bin/hbciservlet" "FinTS V3.0";
   E "55190000" "3.0" "https://fints2.atruvia.de/cgi-bin/hbciservlet" "FinTS V3.0";
   E "55340041" "3.0" "" "";
   E "55350010" "" "https://banking-rp3.s-fints-pt-rp.de/fints30" "FinTS V3.0";
   E "55361202" "3.0" "https://fints2.atruvia.de/cgi-bin/hbciservlet" "FinTS V3.0";
   E "56020086" "3.0" "https://hbci-01.hypovereinsbank.de/bank/hbci" "FinTS V3.0";
   E "56050180" "" "https://banking-rp3.s-fints-pt-rp.de/fints30" "FinTS V3.0";
   E "56051790" "" "https://banking-rp3.s-fints-pt-rp.de/fints30" "FinTS V3.0";
   E "56061151" "3.0" "https://fints1.atruvia.de/cgi-bin/hbciservlet" "FinTS V3.0";
   E "56061472" "3.0" "https://fints1.atruvia.de/cgi-bin/hbciservlet" "FinTS V3.0";
   E "56061472" "3.0" "https://fints1.atruvia.de/cgi-bin/hbciservlet" "FinTS V3.0";
   E "56062227" "3.0" "https://fints1.atruvia.de/cgi-bin/hbciservlet" "FinTS V3.0";
   E "56070024" "3.0" "https://fints.deutsche-bank.de/" "FinTS V3.0";
   E "56070040" "3.0" "https://fints.deutsche-bank.de/" "FinTS V3.0";
   E "56090000" "3.0" "https://fints1.atruvia.de/cgi-bin/hbciservlet" "FinTS V3.0";
   E "56240050" "3.0" "" "";
   E "56240050" "3.0" "" "";
   E "56250030" "" "https://banking-rp3.s-fints-pt-rp.de/fints30" "FinTS V3.0";
   E "56261735" "3.0" "https://fints1.atruvia.de/cgi-bin/hbciservlet" "FinTS V3.0";
   E "56270024" "3.0" "https://fints.deutsche-bank.de/" "FinTS V3.0";
   E "56270044" "3.0" "https://fints.deutsche-bank.de/" "FinTS V3.0";
   E "57020086" "3.0" "https://hbci-01.hypovereinsbank.de/bank/hbci" "FinTS V3.0";
   E "57040044" "3.0" "" "";
   E "57040044" "3.0" "" "";
   E "57040044" "3.0" "" "";
   E "57040044" "3.0" "" "";
   E "57050120" "" "https://banking-rp1.s-fints-pt-rp.de/fints30" "FinTS V3.0";
   E "57062675" "3.0" "https://fints1.atruvia.de/cgi-bin/hbciservlet" "FinTS V3.0";
   E "57069144" "3.0" "https://fints1.atruvia.de/cgi-bin/hbciservlet" "FinTS V3.0";
   E "57069238" "3.0" "https://fints1.atruvia.de/cgi-bin/hbciservlet" "FinTS V3.0";
   E "57069361" "3.0" "https://fints1.atruvia.de/cgi-bin/hbciservlet" "FinTS V3.0";
   E "57070024" "3.0" "https://fints.deutsche-bank.de/" "FinTS V3.0";
   E "57070024" "3.0" "https://fints.deutsche-bank.de/" "FinTS V3.0";
   E "57070024" "3.0" "https://fints.deutsche-bank.de/" "FinTS V3.0";
   E "57070024" "3.0" "https://fints.deutsche-bank.de/" "FinTS V3.0";
   E "57070024" "3.0" "https://fints.deutsche-bank.de/" "FinTS V3.0";
   E "57070024" "3.0" "https://fints.deutsche-bank.de/" "FinTS V3.0";
   E "57070045" "3.0" "https://fints.deutsche-bank.de/" "FinTS V3.0";
   E "57070045" "3.0" "https://fints.deutsche-bank.de/" "FinTS V3.0";
   E "57070045" "3.0" "https://fints.deutsche-bank.de/" "FinTS V3.0";
   E "57070045" "3.0" "https://fints.deutsche-bank.de/" "FinTS V3.0";
   E "57070045" "3.0" "https://fints.deutsche-bank.de/" "FinTS V3.0";
   E "57070045" "3.0" "https://fints.deutsche-bank.de/" "FinTS V3.0";
   E "57090900" "" "https://fints2.atruvia.de/cgi-bin/hbciservlet" "FinTS V3.0";
   E "57091100" "3.0" "https://fints2.atruvia.de/cgi-bin/hbciservlet" "FinTS V3.0";
   E "57092800" "3.0" "https://fints2.atruvia.de/cgi-bin/hbciservlet" "FinTS V3.0";
   E "57351030" "" "https://banking-rp1.s-fints-pt-rp.de/fints30" "FinTS V3.0";
   E "57361476" "3.0" "https://fints1.atruvia.de/cgi-bin/hbciservlet" "FinTS V3.0";
   E "57391200" "3.0" "https://fints2.atruvia.de/cgi-bin/hbciservlet" "FinTS V3.0";
   E "57391500" "3.0" "https://fints2.atruvia.de/cgi-bin/hbciservlet" "FinTS V3.0";
   E "57391800" "3.0" "https://fints2.atruvia.de/cgi-bin/hbciservlet" "FinTS V3.0";
   E "57450120" "" "https://banking-rp1.s-fints-pt-rp.de/fints30" "FinTS V3.0";
   E "57470024" "3.0" "https://fints.deutsche-bank.de/" "FinTS V3.0";
   E "57470024" "3.0" "https://fints.deutsche-bank.de/" "FinTS V3.0";
   E "57470024" "3.0" "https://fints.deutsche-bank.de/" "FinTS V3.0";
   E "57470024" "3.0" "https://fints.deutsche-bank.de/" "FinTS V3.0";
   E "57470047" "3.0" "https://fints.deutsche-bank.de/" "FinTS V3.0";
   E "57470047" "3.0" "https://fints.deutsche-bank.de/" "FinTS V3.0";
   E "57470047" "3.0" "https://fints.deutsche-bank.de/" "FinTS V3.0";
   E "57470047" "3.0" "https://fints.deutsche-bank.de/" "FinTS V3.0";
   E "57650010" "" "https://banking-rp1.s-fints-pt-rp.de/fints30" "FinTS V3.0";
   E "57751310" "" "https://banking-rp1.s-fints-pt-rp.de/fints30" "FinTS V3.0";
   E "57761591" "3.0" "https://fints1.atruvia.de/cgi-bin/hbciservlet" "FinTS V3.0";
   E "58520086" "3.0" "https://hbci-01.hypovereinsbank.de/bank/hbci" "FinTS V3.0";
   E "58540035" "3.0" "" "";
   E "58540035" "3.0" "" "";
   E "58550130" "" "https://banking-rp1.s-fints-pt-rp.de/fints30" "FinTS V3.0";
   E "58560103" "3.0" "https://fints1.atruvia.de/cgi-bin/hbciservlet" "FinTS V3.0";
   E "58561771" "3.0" "https://fints1.atruvia.de/cgi-bin/hbciservlet" "FinTS V3.0";
   E "58570024" "3.0" "https://fints.deutsche-bank.de/" "FinTS V3.0";
   E "58570024" "3.0" "https://fints.deutsche-bank.de/" "FinTS V3.0";
   E "58570024" "3.0" "https://fints.deutsche-bank.de/" "FinTS V3.0";
   E "58570048" "3.0" "https://fints.deutsche-bank.de/" "FinTS V3.0";
   E "58570048" "3.0" "https://fints.deutsche-bank.de/" "FinTS V3.0";
   E "58570048" "3.0" "https://fints.deutsche-bank.de/" "FinTS V3.0";
   E "58590900" "3.0" "https://fints2.atruvia.de/cgi-bin/hbciservlet" "FinTS V3.0";
   E "58650030" "" "https://banking-rp1.s-fints-pt-rp.de/fints30" "FinTS V3.0";
   E "58651240" "" "https://banking-rp1.s-fints-pt-rp.de/fints30" "FinTS V3.0";
   E "58660101" "3.0" "https://fints1.atruvia.de/cgi-bin/hbciservlet" "FinTS V3.0";
   E "58660101" "3.0" "https://fints1.atruvia.de/cgi-bin/hbciservlet" "FinTS V3.0";
   E "58661901" "3.0" "https://fints1.atruvia.de/cgi-bin/hbciservlet" "FinTS V3.0";
   E "58751230" "" "https://banking-rp1.s-fints-pt-rp.de/fints30" "FinTS V3.0";
   E "58771224" "3.0" "https://fints.deutsche-bank.de/" "FinTS V3.0";
   E "58771224" "3.0" "https://fints.deutsche-bank.de/" "FinTS V3.0";
   E "58771224" "3.0" "https://fints.deutsche-bank.de/" "FinTS V3.0";
   E "58771242" "3.0" "https://fints.deutsche-bank.de/" "FinTS V3.0";
   E "58771242" "3.0" "https://fints.deutsche-bank.de/" "FinTS V3.0";
   E "58771242" "3.0" "https://fints.deutsche-bank.de/" "FinTS V3.0";
   E "59010066" "" "https://hbci.postbank.de/banking/hbci.do" "FinTS V3.0";
   E "59020090" "3.0" "https://hbci-01.hypovereinsbank.de/bank/hbci" "FinTS V3.0";
   E "59020090" "3.0" "https://hbci-01.hypovereinsbank.de/bank/hbci" "FinTS V3.0";
   E "59020090" "3.0" "https://hbci-01.hypovereinsbank.de/bank/hbci" "FinTS V3.0";
   E "59020090" "3.0" "https://hbci-01.hypovereinsbank.de/bank/hbci" "FinTS V3.0";
   E "59020090" "3.0" "https://hbci-01.hypovereinsbank.de/bank/hbci" "FinTS V3.0";
   E "59020090" "3.0" "https://hbci-01.hypovereinsbank.de/bank/hbci" "FinTS V3.0";
   E "59020090" "3.0" "https://hbci-01.hypovereinsbank.de/bank/hbci" "FinTS V3.0";
   E "59020090" "3.0" "https://hbci-01.hypovereinsbank.de/bank/hbci" "FinTS V3.0";
   E "59020090" "3.0" "https://hbci-01.hypovereinsbank.de/bank/hbci" "FinTS V3.0";
   E "59020090" "3.0" "https://hbci-01.hypovereinsbank.de/bank/hbci" "FinTS V3.0";
   E "59040000" "3.0" "" "";
   E "59040000" "3.0" "" "";
   E "59040000" "3.0" "" "";
   E "59040000" "3.0" "" "";
   E "59040000" "3.0" "" "";
   E "59040000" "3.0" "" "";
   E "59050000" "" "https://banking-li2.s-fints-pt-li.de/fints30" "FinTS V3.0";
   E "59050101" "" "https://banking-sl2.s-fints-pt-sl.de/fints30" "FinTS V3.0";
   E "59070070" "3.0" "https://fints.deutsche-bank.de/" "FinTS V3.0";
   E "59070070" "3.0" "https://fints.deutsche-bank.de/" "FinTS V3.0";
   E "59070070" "3.0" "https://fints.deutsche-bank.de/" "FinTS V3.0";
   E "59070070" "3.0" "https://fints.deutsche-bank.de/" "FinTS V3.0";
   E "59070070" "3.0" "https://fints.deutsche-bank.de/" "FinTS V3.0";
   E "59070070" "3.0" "https://fints.deutsche-bank.de/" "FinTS V3.0";
   E "59070070" "3.0" "https://fints.deutsche-bank.de/" "FinTS V3.0";
   E "59070070" "3.0" "https://fints.deutsche-bank.de/" "FinTS V3.0";
   E "59090900" "" "https://fints2.atruvia.de/cgi-bin/hbciservlet" "FinTS V3.0"].
(** bankinfo/data.go:20006-22505 *)
Definition table_08 : list bank_info :=
  [E "59092000" "3.0" "https://fints2.atruvia.de/cgi-bin/hbciservlet" "FinTS V3.0";
   E "59190000" "3.0" "https://fints2.atruvia.de/cgi-bin/hbciservlet" "FinTS V3.0";
   E "59251020" "" "https://banking-sl2.s-fints-pt-sl.de/fints30" "FinTS V3.0";
   E "59252046" "" "https://banking-sl2.s-fints-pt-sl.de/fints30" "FinTS V3.0";
   E "59292400" "3.0" "https://fints2.atruvia.de/cgi-bin/hbciservlet" "FinTS V3.0";
   E "59320087" "3.0" "https://hbci-01.hypovereinsbank.de/bank/hbci" "FinTS V3.0";
   E "59350110" "" "https://banking-sl2.s-fints-pt-sl.de/fints30" "FinTS V3.0";
   E "59351040" "" "https://banking-sl2.s-fints-pt-sl.de/fints30" "FinTS V3.0";
   E "59393000" "3.0" "https://fints2.atruvia.de/cgi-bin/hbciservlet" "FinTS V3.0";
   E "59450010" "" "https://banking-sl2.s-fints-pt-sl.de/fints30" "FinTS V3.0";
   E "59491114" "3.0" "https://fints2.atruvia.de/cgi-bin/hbciservlet" "FinTS V3.0";
   E "60010070" "" "https://hbci.postbank.de/banking/hbci.do" "FinTS V3.0";
   E "60020100" "3.0" "https://www.warburg-bank.de/fints" "FinTS V3.0";
   E "60020290" "3.0" "https://hbci-01.hypovereinsbank.de/bank/hbci" "FinTS V3.0";
   E "60020290" "3.0" "https://hbci-01.hypovereinsbank.de/bank/hbci" "FinTS V3.0";
   E "60020290" "3.0" "https://hbci-01.hypovereinsbank.de/bank/hbci" "FinTS V3.0";
   E "60020290" "3.0" "https://hbci-01.hypovereinsbank.de/bank/hbci" "FinTS V3.0";
   E "60020290" "3.0" "https://hbci-01.hypovereinsbank.de/bank/hbci" "FinTS V3.0";
   E "60020290" "3.0" "https://hbci-01.hypovereinsbank.de/bank/hbci" "FinTS V3.0";
   E "60020290" "3.0" "https://hbci-01.hypovereinsbank.de/bank/hbci" "FinTS V3.0";
   E "60030100" "3.0" "https://fints2.atruvia.de/cgi-bin/hbciservlet" "FinTS V3.0";
   E "60030200" "3.0" "https://fints2.atruvia.de/cgi-bin/hbciservlet" "FinTS V3.0";
   E "60030700" "3.0" "https://fints2.atruvia.de/cgi-bin/hbciservlet" "FinTS V3.0";
   E "60030900" "3.0" "https://www.bv-activebanking.de/hbciTunnel/hbciTransfer.jsp" "FinTS V3.0";
   E "60040071" "3.0" "" "";
   E "60040071" "3.0" "" "";
   E "60040071" "3.0" "" "";
   E "60040071" "3.0" "" "";
   E "60040071" "3.0" "" "";
   E "60040071" "3.0" "" "";
   E "60040071" "3.0" "" "";
   E "60050000" "2.1" "" "";
   E "60050101" "" "https://banking-li4.s-fints-pt-li.de/fints30" "FinTS V3.0";
   E "60060396" "3.0" "https://fints2.atruvia.de/cgi-bin/hbciservlet" "FinTS V3.0";
   E "60062775" "3.0" "https://fints2.atruvia.de/cgi-bin/hbciservlet" "FinTS V3.0";
   E "60069066" "3.0" "https://fints2.atruvia.de/cgi-bin/hbciservlet" "FinTS V3.0";
   E "60069075" "3.0" "https://fints2.atruvia.de/cgi-bin/hbciservlet" "FinTS V3.0";
   E "60069147" "3.0" "https://fints2.atruvia.de/cgi-bin/hbciservlet" "FinTS V3.0";
   E "60069206" "3.0" "https://fints2.atruvia.de/cgi-bin/hbciservlet" "FinTS V3.0";
   E "60069224" "3.0" "https://fints2.atruvia.de/cgi-bin/hbciservlet" "FinTS V3.0";
   E "60069235" "3.0" "https://fints2.atruvia.de/cgi-bin/hbciservlet" "FinTS V3.0";
   E "60069239" "3.0" "https://fints2.atruvia.de/cgi-bin/hbciservlet" "FinTS V3.0";
   E "60069242" "3.0" "https://fints2.atruvia.de/cgi-bin/hbciservlet" "FinTS V3.0";
   E "60069303" "3.0" "https://fints2.atruvia.de/cgi-bin/hbciservlet" "FinTS V3.0";
   E "60069336" "3.0" "https://fints2.atruvia.de/cgi-bin/hbciservlet" "FinTS V3.0";
   E "60069343" "3.0" "https://fints2.atruvia.de/cgi-bin/hbciservlet" "FinTS V3.0";
   E "60069346" "3.0" "https://fints2.atruvia.de/cgi-bin/hbciservlet" "FinTS V3.0";
   E "60069350" "3.0" "https://fints2.atruvia.de/cgi-bin/hbciservlet" "FinTS V3.0";
   E "60069355" "3.0" "https://fints2.atruvia.de/cgi-bin/hbciservlet" "FinTS V3.0";
   E "60069378" "3.0" "https://fints2.atruvia.de/cgi-bin/hbciservlet" "FinTS V3.0";
   E "60069387" "3.0" "https://fints2.atruvia.de/cgi-bin/hbciservlet" "FinTS V3.0";
   E "60069420" "3.0" "https://fints2.atruvia.de/cgi-bin/hbciservlet" "FinTS V3.0";
   E "60069442" "3.0" "https://fints2.atruvia.de/cgi-bin/hbciservlet" "FinTS V3.0";
   E "60069457" "3.0" "https://fints2.atruvia.de/cgi-bin/hbciservlet" "FinTS V3.0";
   E "60069462" "3.0" "https://fints2.atruvia.de/cgi-bin/hbciservlet" "FinTS V3.0";
   E "60069463" "3.0" "https://fints2.atruvia.de/cgi-bin/hbciservlet" "FinTS V3.0";
   E "60069517" "3.0" "https://fints2.atruvia.de/cgi-bin/hbciservlet" "FinTS V3.0";
   E "60069527" "3.0" "https://fints2.atruvia.de/cgi-bin/hbciservlet" "FinTS V3.0";
   E "60069544" "3.0" "https://fints2.atruvia.de/cgi-bin/hbciservlet" "FinTS V3.0";
   E "60069553" "3.0" "https://fints2.atruvia.de/cgi-bin/hbciservlet" "FinTS V3.0";
   E "60069595" "3.0" "https://fints2.atruvia.de/cgi-bin/hbciservlet" "FinTS V3.0";
   E "60069669" "3.0" "https://fints2.atruvia.de/cgi-bin/hbciservlet" "FinTS V3.0";
   E "60069673" "3.0" "https://fints2.atruvia.de/cgi-bin/hbciservlet" "FinTS V3.0";
   E "60069685" "3.0" "https://fints2.atruvia.de/cgi-bin/hbciservlet" "FinTS V3.0";
   E "60069705" "3.0" "https://fints2.atruvia.de/cgi-bin/hbciservlet" "FinTS V3.0";
   E "60069710" "3.0" "https://fints2.atruvia.de/cgi-bin/hbciservlet" "FinTS V3.0";
   E "60069714" "3.0" "https://fints2.atruvia.de/cgi-bin/hbciservlet" "FinTS V3.0";
   E "60069738" "3.0" "https://fints2.atruvia.de/cgi-bin/hbciservlet" "FinTS V3.0";
   E "60069766" "3.0" "https://fints2.atruvia.de/cgi-bin/hbciservlet" "FinTS V3.0";
   E "60069795" "3.0" "https://fints2.atruvia.de/cgi-bin/hbciservlet" "FinTS V3.0";
   E "60069832" "3.0" "https://fints2.atruvia.de/cgi-bin/hbciservlet" "FinTS V3.0";
   E "60069896" "3.0" "https://fints2.atruvia.de/cgi-bin/hbciservlet" "FinTS V3.0";
   E "60069905" "3.0" "https://fints2.atruvia.de/cgi-bin/hbciservlet" "FinTS V3.0";
   E "60069911" "3.0" "https://fints2.atruvia.de/cgi-bin/hbciservlet" "FinTS V3.0";
   E "60069931" "3.0" "https://fints2.atruvia.de/cgi-bin/hbciservlet" "FinTS V3.0";
   E "60069950" "3.0" "https://fints2.atruvia.de/cgi-bin/hbciservlet" "FinTS V3.0";
   E "60069976" "3.0" "https://fints2.atruvia.de/cgi-bin/hbciservlet" "FinTS V3.0";
   E "60069980" "3.0" "https://fints2.atruvia.de/cgi-bin/hbciservlet" "FinTS V3.0";
   E "60070024" "3.0" "https://fints.deutsche-bank.de/" "FinTS V3.0";
   E "60070024" "3.0" "https://fints.deutsche-bank.de/" "FinTS V3.0";
   E "60070024" "3.0" "https://fints.deutsche-bank.de/" "FinTS V3.0";
   E "60070024" "3.0" "https://fints.deutsche-bank.de/" "FinTS V3.0";
   E "60070024" "3.0" "https://fints.deutsche-bank.de/" "FinTS V3.0";
   E "60070024" "3.0" "https://fints.deutsche-bank.de/" "FinTS V3.0";
   E "60070070" "3.0" "https://fints.deutsche-bank.de/" "FinTS V3.0";
   E "60070070" "3.0" "https://fints.deutsche-bank.de/" "FinTS V3.0";
   E "60070070" "3.0" "https://fints.deutsche-bank.de/" "FinTS V3.0";
   E "60070070" "3.0" "https://fints.deutsche-bank.de/" "FinTS V3.0";
   E "60070070" "3.0" "https://fints.deutsche-bank.de/" "FinTS V3.0";
   E "60070070" "3.0" "https://fints.deutsche-bank.de/" "FinTS V3.0";
   E "60090100" "3.0" "https://fints2.atruvia.de/cgi-bin/hbciservlet" "FinTS V3.0";
   E "60090300" "3.0" "https://fints2.atruvia.de/cgi-bin/hbciservlet" "FinTS V3.0";
   E "60090700" "3.0" "https://fints2.atruvia.de/cgi-bin/hbciservlet" "FinTS V3.0";
   E "60090800" "" "https://fints.bankingonline.de/fints/FinTs30PinTanHttpGate" "FinTS V3.0";
   E "60090900" "" "https://fints2.atruvia.de/cgi-bin/hbciservlet" "FinTS V3.0";
   E "60120200" "3.0" "https://www.bv-activebanking.de/hbciTunnel/hbciTransfer.jsp" "FinTS V3.0";
   E "60133300" "3.0" "" "";
   E "60241074" "3.0" "" "";
   E "60250010" "" "https://banking-bw6.s-fints-pt-bw.de/fints30" "FinTS V3.0";
   E "60270024" "3.0" "https://fints.deutsche-bank.de/" "FinTS V3.0";
   E "60270073" "3.0" "https://fints.deutsche-bank.de/" "FinTS V3.0";
   E "60290110" "3.0" "https://fints2.atruvia.de/cgi-bin/hbciservlet" "FinTS V3.0";
   E "60291120" "3.0" "https://fints2.atruvia.de/cgi-bin/hbciservlet" "FinTS V3.0";
   E "60320291" "3.0" "https://hbci-01.hypovereinsbank.de/bank/hbci" "FinTS V3.0";
   E "60340071" "3.0" "" "";
   E "60350130" "" "https://banking-bw5.s-fints-pt-bw.de/fints30" "FinTS V3.0";
   E "60390000" "3.0" "https://fints2.atruvia.de/cgi-bin/hbciservlet" "FinTS V3.0";
   E "60390300" "3.0" "https://fints2.atruvia.de/cgi-bin/hbciservlet" "FinTS V3.0";
   E "60391310" "3.0" "https://fints2.atruvia.de/cgi-bin/hbciservlet" "FinTS V3.0";
   E "60391420" "3.0" "https://fints2.atruvia.de/cgi-bin/hbciservlet" "FinTS V3.0";
   E "60420000" "" "https://fints.wuestenrot.de" "FinTS V3.0";
   E "60420020" "" "https://fints1.atruvia.de/cgi-bin/hbciservlet" "FinTS V3.0";
   E "60420186" "3.0" "https://hbci-01.hypovereinsbank.de/bank/hbci" "FinTS V3.0";
   E "60422000" "3.0" "https://fints2.atruvia.de/cgi-bin/hbciservlet" "FinTS V3.0";
   E "60440073" "3.0" "" "";
   E "60440073" "3.0" "" "";
   E "60450050" "" "https://banking-bw4.s-fints-pt-bw.de/fints30" "FinTS V3.0";
   E "60460142" "3.0" "https://fints2.atruvia.de/cgi-bin/hbciservlet" "FinTS V3.0";
   E "60470024" "3.0" "https://fints.deutsche-bank.de/" "FinTS V3.0";
   E "60470024" "3.0" "https://fints.deutsche-bank.de/" "FinTS V3.0";
   E "60470024" "3.0" "https://fints.deutsche-bank.de/" "FinTS V3.0";
   E "60470024" "3.0" "https://fints.deutsche-bank.de/" "FinTS V3.0";
   E "60470024" "3.0" "https://fints.deutsche-bank.de/" "FinTS V3.0";
   E "60470024" "3.0" "https://fints.deutsche-bank.de/" "FinTS V3.0";
   E "60470024" "3.0" "https://fints.deutsche-bank.de/" "FinTS V3.0";
   E "60470082" "3.0" "https://fints.deutsche-bank.de/" "FinTS V3.0";
   E "60470082" "3.0" "https://fints.deutsche-bank.de/" "FinTS V3.0";
   E "60470082" "3.0" "https://fints.deutsche-bank.de/" "FinTS V3.0";
   E "60470082" "3.0" "https://fints.deutsche-bank.de/" "FinTS V3.0";
   E "60470082" "3.0" "https://fints.deutsche-bank.de/" "FinTS V3.0";
   E "60470082" "3.0" "https://fints.deutsche-bank.de/" "FinTS V3.0";
   E "60470082" "3.0" "https://fints.deutsche-bank.de/" "FinTS V3.0";
   E "60491430" "3.0" "https://fints2.atruvia.de/cgi-bin/hbciservlet" "FinTS V3.0";
   E "60663084" "3.0" "https://fints2.atruvia.de/cgi-bin/hbciservlet" "FinTS V3.0";
   E "60670024" "3.0" "https://fints.deutsche-bank.de/" "FinTS V3.0";
   E "60670070" "3.0" "https://fints.deutsche-bank.de/" "FinTS V3.0";
   E "61030000" "3.0" "https://fints2.atruvia.de/cgi-bin/hbciservlet" "FinTS V3.0";
   E "61040014" "3.0" "" "";
   E "61040014" "3.0" "" "";
   E "61050000" "" "https://banking-bw3.s-fints-pt-bw.de/fints30" "FinTS V3.0";
   E "61060500" "3.0" "https://fints2.atruvia.de/cgi-bin/hbciservlet" "FinTS V3.0";
   E "61070024" "3.0" "https://fints.deutsche-bank.de/" "FinTS V3.0";
   E "61070024" "3.0" "https://fints.deutsche-bank.de/" "FinTS V3.0";
   E "61070024" "3.0" "https://fints.deutsche-bank.de/" "FinTS V3.0";
   E "61070078" "3.0" "https://fints.deutsche-bank.de/" "FinTS V3.0";
   E "61070078" "3.0" "https://fints.deutsche-bank.de/" "FinTS V3.0";
   E "61070078" "3.0" "https://fints.deutsche-bank.de/" "FinTS V3.0";
   E "61120286" "3.0" "https://hbci-01.hypovereinsbank.de/bank/hbci" "FinTS V3.0";
   E "61140071" "3.0" "" "";
   E "61140071" "3.0" "" "";
   E "61150020" "" "https://banking-bw1.s-fints-pt-bw.de/fints30" "FinTS V3.0";
   E "61161696" "3.0" "https://fints2.atruvia.de/cgi-bin/hbciservlet" "FinTS V3.0";
   E "61170024" "3.0" "https://fints.deutsche-bank.de/" "FinTS V3.0";
   E "61170024" "3.0" "https://fints.deutsche-bank.de/" "FinTS V3.0";
   E "61170024" "3.0" "https://fints.deutsche-bank.de/" "FinTS V3.0";
   E "61170024" "3.0" "https://fints.deutsche-bank.de/" "FinTS V3.0";
   E "61170076" "3.0" "https://fints.deutsche-bank.de/" "FinTS V3.0";
   E "61170076" "3.0" "https://fints.deutsche-bank.de/" "FinTS V3.0";
   E "61170076" "3.0" "https://fints.deutsche-bank.de/" "FinTS V3.0";
   E "61170076" "3.0" "https://fints.deutsche-bank.de/" "FinTS V3.0";
   E "61191310" "3.0" "https://fints2.atruvia.de/cgi-bin/hbciservlet" "FinTS V3.0";
   E "61262345" "3.0" "https://fints2.atruvia.de/cgi-bin/hbciservlet" "FinTS V3.0";
   E "61290120" "3.0" "https://fints2.atruvia.de/cgi-bin/hbciservlet" "FinTS V3.0";
   E "61340079" "3.0" "" "";
   E "61361722" "3.0" "https://fints2.atruvia.de/cgi-bin/hbciservlet" "FinTS V3.0";
   E "61370024" "3.0" "https://fints.deutsche-bank.de/" "FinTS V3.0";
   E "61370024" "3.0" "https://fints.deutsche-bank.de/" "FinTS V3.0";
   E "61370024" "3.0" "https://fints.deutsche-bank.de/" "FinTS V3.0";
   E "61370024" "3.0" "https://fints.deutsche-bank.de/" "FinTS V3.0";
   E "61370024" "3.0" "https://fints.deutsche-bank.de/" "FinTS V3.0";
   E "61370024" "3.0" "https://fints.deutsche-bank.de/" "FinTS V3.0";
   E "61370024" "3.0" "https://fints.deutsche-bank.de/" "FinTS V3.0";
   E "61370024" "3.0" "https://fints.deutsche-bank.de/" "FinTS V3.0";
   E "61370086" "3.0" "https://fints.deutsche-bank.de/" "FinTS V3.0";
   E "61370086" "3.0" "https://fints.deutsche-bank.de/" "FinTS V3.0";
   E "61370086" "3.0" "https://fints.deutsche-bank.de/" "FinTS V3.0";
   E "61370086" "3.0" "https://fints.deutsche-bank.de/" "FinTS V3.0";
   E "61370086" "3.0" "https://fints.deutsche-bank.de/" "FinTS V3.0";
   E "61370086" "3.0" "https://fints.deutsche-bank.de/" "FinTS V3.0";
   E "61370086" "3.0" "https://fints.deutsche-bank.de/" "FinTS V3.0";
   E "61370086" "3.0" "https://fints.deutsche-bank.de/" "FinTS V3.0";
   E "61391410" "3.0" "https://fints2.atruvia.de/cgi-bin/hbciservlet" "FinTS V3.0";
   E "61420086" "3.0" "https://hbci-01.hypovereinsbank.de/bank/hbci" "FinTS V3.0";
   E "61440086" "3.0" "" "";
   E "61450050" "" "https://banking-bw5.s-fints-pt-bw.de/fints30" "FinTS V3.0";
   E "61490150" "3.0" "https://fints2.atruvia.de/cgi-bin/hbciservlet" "FinTS V3.0";
   E "61491010" "3.0" "https://fints2.atruvia.de/cgi-bin/hbciservlet" "FinTS V3.0";
   E "62020000" "3.0" "https://fints2.atruvia.de/cgi-bin/hbciservlet" "FinTS V3.0";
   E "62040060" "3.0" "" "";
   E "62050000" "" "https://banking-bw2.s-fints-pt-bw.de/fints30" "FinTS V3.0";
   E "62061991" "3.0" "https://fints2.atruvia.de/cgi-bin/hbciservlet" "FinTS V3.0";
   E "62062215" "3.0" "https://fints2.atruvia.de/cgi-bin/hbciservlet" "FinTS V3.0";
   E "62062643" "3.0" "https://fints2.atruvia.de/cgi-bin/hbciservlet" "FinTS V3.0";
   E "62063263" "3.0" "https://fints2.atruvia.de/cgi-bin/hbciservlet" "FinTS V3.0";
   E "62070024" "3.0" "https://fints.deutsche-bank.de/" "FinTS V3.0";
   E "62070024" "3.0" "https://fints.deutsche-bank.de/" "FinTS V3.0";
   E "62070024" "3.0" "https://fints.deutsche-bank.de/" "FinTS V3.0";
   E "62070024" "3.0" "https://fints.deutsche-bank.de/" "FinTS V3.0";
   E "62070024" "3.0" "https://fints.deutsche-bank.de/" "FinTS V3.0";
   E "62070081" "3.0" "https://fints.deutsche-bank.de/" "FinTS V3.0";
   E "62070081" "3.0" "https://fints.deutsche-bank.de/" "FinTS V3.0";
   E "62070081" "3.0" "https://fints.deutsche-bank.de/" "FinTS V3.0";
   E "62070081" "3.0" "https://fints.deutsche-bank.de/" "FinTS V3.0";
   E "62070081" "3.0" "https://fints.deutsche-bank.de/" "FinTS V3.0";
   E "62091600" "3.0" "https://fints2.atruvia.de/cgi-bin/hbciservlet" "FinTS V3.0";
   E "62091800" "3.0" "https://fints2.atruvia.de/cgi-bin/hbciservlet" "FinTS V3.0";
   E "62250030" "" "https://banking-bw2.s-fints-pt-bw.de/fints30" "FinTS V3.0";
   E "62251550" "" "https://banking-bw5.s-fints-pt-bw.de/fints30" "FinTS V3.0";
   E "62290110" "3.0" "https://fints2.atruvia.de/cgi-bin/hbciservlet" "FinTS V3.0";
   E "63020086" "3.0" "https://hbci-01.hypovereinsbank.de/bank/hbci" "FinTS V3.0";
   E "63020086" "3.0" "https://hbci-01.hypovereinsbank.de/bank/hbci" "FinTS V3.0";
   E "63020086" "3.0" "https://hbci-01.hypovereinsbank.de/bank/hbci" "FinTS V3.0";
   E "63020086" "3.0" "https://hbci-01.hypovereinsbank.de/bank/hbci" "FinTS V3.0";
   E "63020086" "3.0" "https://hbci-01.hypovereinsbank.de/bank/hbci" "FinTS V3.0";
   E "63040053" "3.0" "" "";
   E "63040053" "3.0" "" "";
   E "63040053" "3.0" "" "";
   E "63050000" "" "https://banking-bw6.s-fints-pt-bw.de/fints30" "FinTS V3.0";
   E "63070024" "3.0" "https://fints.deutsche-bank.de/" "FinTS V3.0";
   E "63070024" "3.0" "https://fints.deutsche-bank.de/" "FinTS V3.0";
   E "63070024" "3.0" "https://fints.deutsche-bank.de/" "FinTS V3.0";
   E "63070088" "3.0" "https://fints.deutsche-bank.de/" "FinTS V3.0";
   E "63070088" "3.0" "https://fints.deutsche-bank.de/" "FinTS V3.0";
   E "63070088" "3.0" "https://fints.deutsche-bank.de/" "FinTS V3.0";
   E "63090100" "3.0" "https://fints2.atruvia.de/cgi-bin/hbciservlet" "FinTS V3.0";
   E "63091010" "3.0" "https://fints2.atruvia.de/cgi-bin/hbciservlet" "FinTS V3.0";
   E "63091300" "3.0" "https://fints2.atruvia.de/cgi-bin/hbciservlet" "FinTS V3.0";
   E "63220090" "3.0" "https://hbci-01.hypovereinsbank.de/bank/hbci" "FinTS V3.0";
   E "63240016" "3.0" "" "";
   E "63250030" "" "https://banking-bw3.s-fints-pt-bw.de/fints30" "FinTS V3.0";
   E "63290110" "3.0" "https://fints2.atruvia.de/cgi-bin/hbciservlet" "FinTS V3.0";
   E "64020186" "3.0" "https://hbci-01.hypovereinsbank.de/bank/hbci" "FinTS V3.0";
   E "64040033" "3.0" "" "";
   E "64040045" "3.0" "" "";
   E "64050000" "" "https://banking-bw3.s-fints-pt-bw.de/fints30" "FinTS V3.0";
   E "64070024" "3.0" "https://fints.deutsche-bank.de/" "FinTS V3.0";
   E "64070024" "3.0" "https://fints.deutsche-bank.de/" "FinTS V3.0";
   E "64070024" "3.0" "https://fints.deutsche-bank.de/" "FinTS V3.0";
   E "64070024" "3.0" "https://fints.deutsche-bank.de/" "FinTS V3.0";
   E "64070024" "3.0" "https://fints.deutsche-bank.de/" "FinTS V3.0";
   E "64070024" "3.0" "https://fints.deutsche-bank.de/" "FinTS V3.0";
   E "64070024" "3.0" "https://fints.deutsche-bank.de/" "FinTS V3.0";
   E "64070085" "3.0" "https://fints.deutsche-bank.de/" "FinTS V3.0";
   E "64070085" "3.0" "https://fints.deutsche-bank.de/" "FinTS V3.0";
   E "64070085" "3.0" "https://fints.deutsche-bank.de/" "FinTS V3.0";
   E "64070085" "3.0" "https://fints.deutsche-bank.de/" "FinTS V3.0";
   E "64070085" "3.0" "https://fints.deutsche-bank.de/" "FinTS V3.0";
   E "64070085" "3.0" "https://fints.deutsche-bank.de/" "FinTS V3.0";
   E "64070085" "3.0" "https://fints.deutsche-bank.de/" "FinTS V3.0";
   E "64091200" "3.0" "https://fints2.atruvia.de/cgi-bin/hbciservlet" "FinTS V3.0"].
(** bankinfo/data.go:22506-25005 *)
Definition table_09 : list bank_info :=
  [E "64091300" "3.0" "https://fints2.atruvia.de/cgi-bin/hbciservlet" "FinTS V3.0";
   E "64140036" "3.0" "" "";
   E "64150020" "" "https://banking-bw5.s-fints-pt-bw.de/fints30" "FinTS V3.0";
   E "64161397" "3.0" "https://fints2.atruvia.de/cgi-bin/hbciservlet" "FinTS V3.0";
   E "64163225" "3.0" "https://fints2.atruvia.de/cgi-bin/hbciservlet" "FinTS V3.0";
   E "64191210" "3.0" "https://fints2.atruvia.de/cgi-bin/hbciservlet" "FinTS V3.0";
   E "64240071" "3.0" "" "";
   E "64250040" "" "https://banking-bw1.s-fints-pt-bw.de/fints30" "FinTS V3.0";
   E "64251060" "" "https://banking-bw1.s-fints-pt-bw.de/fints30" "FinTS V3.0";
   E "64261626" "3.0" "https://fints2.atruvia.de/cgi-bin/hbciservlet" "FinTS V3.0";
   E "64261853" "3.0" "https://fints2.atruvia.de/cgi-bin/hbciservlet" "FinTS V3.0";
   E "64262408" "3.0" "https://fints2.atruvia.de/cgi-bin/hbciservlet" "FinTS V3.0";
   E "64290120" "3.0" "https://fints2.atruvia.de/cgi-bin/hbciservlet" "FinTS V3.0";
   E "64291010" "3.0" "https://fints2.atruvia.de/cgi-bin/hbciservlet" "FinTS V3.0";
   E "64291420" "3.0" "https://fints2.atruvia.de/cgi-bin/hbciservlet" "FinTS V3.0";
   E "64292310" "3.0" "https://fints2.atruvia.de/cgi-bin/hbciservlet" "FinTS V3.0";
   E "64350070" "" "https://banking-bw1.s-fints-pt-bw.de/fints30" "FinTS V3.0";
   E "64361359" "3.0" "https://fints2.atruvia.de/cgi-bin/hbciservlet" "FinTS V3.0";
   E "64390130" "3.0" "https://fints2.atruvia.de/cgi-bin/hbciservlet" "FinTS V3.0";
   E "65020186" "3.0" "https://hbci-01.hypovereinsbank.de/bank/hbci" "FinTS V3.0";
   E "65040073" "3.0" "" "";
   E "65050110" "" "https://banking-bw6.s-fints-pt-bw.de/fints30" "FinTS V3.0";
   E "65063086" "3.0" "https://fints2.atruvia.de/cgi-bin/hbciservlet" "FinTS V3.0";
   E "65070024" "3.0" "https://fints.deutsche-bank.de/" "FinTS V3.0";
   E "65070024" "3.0" "https://fints.deutsche-bank.de/" "FinTS V3.0";
   E "65070024" "3.0" "https://fints.deutsche-bank.de/" "FinTS V3.0";
   E "65070024" "3.0" "https://fints.deutsche-bank.de/" "FinTS V3.0";
   E "65070024" "3.0" "https://fints.deutsche-bank.de/" "FinTS V3.0";
   E "65070024" "3.0" "https://fints.deutsche-bank.de/" "FinTS V3.0";
   E "65070024" "3.0" "https://fints.deutsche-bank.de/" "FinTS V3.0";
   E "65070084" "3.0" "https://fints.deutsche-bank.de/" "FinTS V3.0";
   E "65070084" "3.0" "https://fints.deutsche-bank.de/" "FinTS V3.0";
   E "65070084" "3.0" "https://fints.deutsche-bank.de/" "FinTS V3.0";
   E "65070084" "3.0" "https://fints.deutsche-bank.de/" "FinTS V3.0";
   E "65070084" "3.0" "https://fints.deutsche-bank.de/" "FinTS V3.0";
   E "65070084" "3.0" "https://fints.deutsche-bank.de/" "FinTS V3.0";
   E "65070084" "3.0" "https://fints.deutsche-bank.de/" "FinTS V3.0";
   E "65090100" "3.0" "https://fints2.atruvia.de/cgi-bin/hbciservlet" "FinTS V3.0";
   E "65091040" "3.0" "https://fints2.atruvia.de/cgi-bin/hbciservlet" "FinTS V3.0";
   E "65092200" "3.0" "https://fints2.atruvia.de/cgi-bin/hbciservlet" "FinTS V3.0";
   E "65093020" "3.0" "https://fints2.atruvia.de/cgi-bin/hbciservlet" "FinTS V3.0";
   E "65110200" "3.0" "https://fints2.atruvia.de/cgi-bin/hbciservlet" "FinTS V3.0";
   E "65140072" "3.0" "" "";
   E "65162832" "3.0" "https://fints2.atruvia.de/cgi-bin/hbciservlet" "FinTS V3.0";
   E "65191500" "3.0" "https://fints2.atruvia.de/cgi-bin/hbciservlet" "FinTS V3.0";
   E "65340004" "3.0" "" "";
   E "65340004" "3.0" "" "";
   E "65341204" "3.0" "" "";
   E "65351050" "" "https://banking-bw2.s-fints-pt-bw.de/fints30" "FinTS V3.0";
   E "65351260" "" "https://banking-bw1.s-fints-pt-bw.de/fints30" "FinTS V3.0";
   E "65361898" "3.0" "https://fints2.atruvia.de/cgi-bin/hbciservlet" "FinTS V3.0";
   E "65361989" "3.0" "https://fints2.atruvia.de/cgi-bin/hbciservlet" "FinTS V3.0";
   E "65362499" "3.0" "https://fints2.atruvia.de/cgi-bin/hbciservlet" "FinTS V3.0";
   E "65370024" "3.0" "https://fints.deutsche-bank.de/" "FinTS V3.0";
   E "65370024" "3.0" "https://fints.deutsche-bank.de/" "FinTS V3.0";
   E "65370024" "3.0" "https://fints.deutsche-bank.de/" "FinTS V3.0";
   E "65370075" "3.0" "https://fints.deutsche-bank.de/" "FinTS V3.0";
   E "65370075" "3.0" "https://fints.deutsche-bank.de/" "FinTS V3.0";
   E "65370075" "3.0" "https://fints.deutsche-bank.de/" "FinTS V3.0";
   E "65390120" "3.0" "https://fints2.atruvia.de/cgi-bin/hbciservlet" "FinTS V3.0";
   E "65440087" "3.0" "" "";
   E "65450070" "" "https://banking-bw3.s-fints-pt-bw.de/fints30" "FinTS V3.0";
   E "65491320" "3.0" "https://fints2.atruvia.de/cgi-bin/hbciservlet" "FinTS V3.0";
   E "65491510" "3.0" "https://fints2.atruvia.de/cgi-bin/hbciservlet" "FinTS V3.0";
   E "66010075" "" "https://hbci.postbank.de/banking/hbci.do" "FinTS V3.0";
   E "66020286" "3.0" "https://hbci-01.hypovereinsbank.de/bank/hbci" "FinTS V3.0";
   E "66020286" "3.0" "https://hbci-01.hypovereinsbank.de/bank/hbci" "FinTS V3.0";
   E "66020286" "3.0" "https://hbci-01.hypovereinsbank.de/bank/hbci" "FinTS V3.0";
   E "66030600" "3.0" "https://www.bv-activebanking.de/hbciTunnel/hbciTransfer.jsp" "FinTS V3.0";
   E "66040018" "3.0" "" "";
   E "66040018" "3.0" "" "";
   E "66040018" "3.0" "" "";
   E "66050101" "" "https://banking-bw4.s-fints-pt-bw.de/fints30" "FinTS V3.0";
   E "66061407" "3.0" "https://fints2.atruvia.de/cgi-bin/hbciservlet" "FinTS V3.0";
   E "66062366" "3.0" "https://fints2.atruvia.de/cgi-bin/hbciservlet" "FinTS V3.0";
   E "66069103" "3.0" "https://fints2.atruvia.de/cgi-bin/hbciservlet" "FinTS V3.0";
   E "66069342" "3.0" "https://fints2.atruvia.de/cgi-bin/hbciservlet" "FinTS V3.0";
   E "66070004" "3.0" "https://fints.deutsche-bank.de/" "FinTS V3.0";
   E "66070004" "3.0" "https://fints.deutsche-bank.de/" "FinTS V3.0";
   E "66070004" "3.0" "https://fints.deutsche-bank.de/" "FinTS V3.0";
   E "66070004" "3.0" "https://fints.deutsche-bank.de/" "FinTS V3.0";
   E "66070024" "3.0" "https://fints.deutsche-bank.de/" "FinTS V3.0";
   E "66070024" "3.0" "https://fints.deutsche-bank.de/" "FinTS V3.0";
   E "66070024" "3.0" "https://fints.deutsche-bank.de/" "FinTS V3.0";
   E "66070024" "3.0" "https://fints.deutsche-bank.de/" "FinTS V3.0";
   E "66090800" "3.0" "https://fints2.atruvia.de/cgi-bin/hbciservlet" "FinTS V3.0";
   E "66090900" "3.0" "https://fints2.atruvia.de/cgi-bin/hbciservlet" "FinTS V3.0";
   E "66091200" "3.0" "https://fints2.atruvia.de/cgi-bin/hbciservlet" "FinTS V3.0";
   E "66190000" "3.0" "https://fints2.atruvia.de/cgi-bin/hbciservlet" "FinTS V3.0";
   E "66240002" "3.0" "" "";
   E "66250030" "" "https://banking-bw3.s-fints-pt-bw.de/fints30" "FinTS V3.0";
   E "66251434" "" "https://banking-bw3.s-fints-pt-bw.de/fints30" "FinTS V3.0";
   E "66261092" "3.0" "https://fints2.atruvia.de/cgi-bin/hbciservlet" "FinTS V3.0";
   E "66261416" "3.0" "https://fints2.atruvia.de/cgi-bin/hbciservlet" "FinTS V3.0";
   E "66270001" "3.0" "https://fints.deutsche-bank.de/" "FinTS V3.0";
   E "66270001" "3.0" "https://fints.deutsche-bank.de/" "FinTS V3.0";
   E "66270001" "3.0" "https://fints.deutsche-bank.de/" "FinTS V3.0";
   E "66270001" "3.0" "https://fints.deutsche-bank.de/" "FinTS V3.0";
   E "66270001" "3.0" "https://fints.deutsche-bank.de/" "FinTS V3.0";
   E "66270024" "3.0" "https://fints.deutsche-bank.de/" "FinTS V3.0";
   E "66270024" "3.0" "https://fints.deutsche-bank.de/" "FinTS V3.0";
   E "66270024" "3.0" "https://fints.deutsche-bank.de/" "FinTS V3.0";
   E "66270024" "3.0" "https://fints.deutsche-bank.de/" "FinTS V3.0";
   E "66270024" "3.0" "https://fints.deutsche-bank.de/" "FinTS V3.0";
   E "66291400" "3.0" "https://fints2.atruvia.de/cgi-bin/hbciservlet" "FinTS V3.0";
   E "66340018" "3.0" "" "";
   E "66350036" "" "https://banking-bw2.s-fints-pt-bw.de/fints30" "FinTS V3.0";
   E "66432700" "" "https://www.bv-activebanking.de/hbciTunnel/hbciTransfer.jsp" "FinTS V3.0";
   E "66440084" "3.0" "" "";
   E "66450050" "" "https://banking-bw5.s-fints-pt-bw.de/fints30" "FinTS V3.0";
   E "66451548" "" "https://banking-bw5.s-fints-pt-bw.de/fints30" "FinTS V3.0";
   E "66451862" "" "https://banking-bw5.s-fints-pt-bw.de/fints30" "FinTS V3.0";
   E "66452776" "" "https://banking-bw5.s-fints-pt-bw.de/fints30" "FinTS V3.0";
   E "66470024" "3.0" "https://fints.deutsche-bank.de/" "FinTS V3.0";
   E "66470024" "3.0" "https://fints.deutsche-bank.de/" "FinTS V3.0";
   E "66470024" "3.0" "https://fints.deutsche-bank.de/" "FinTS V3.0";
   E "66470024" "3.0" "https://fints.deutsche-bank.de/" "FinTS V3.0";
   E "66470035" "3.0" "https://fints.deutsche-bank.de/" "FinTS V3.0";
   E "66470035" "3.0" "https://fints.deutsche-bank.de/" "FinTS V3.0";
   E "66470035" "3.0" "https://fints.deutsche-bank.de/" "FinTS V3.0";
   E "66470035" "3.0" "https://fints.deutsche-bank.de/" "FinTS V3.0";
   E "66490000" "3.0" "https://fints2.atruvia.de/cgi-bin/hbciservlet" "FinTS V3.0";
   E "66491800" "3.0" "https://fints2.atruvia.de/cgi-bin/hbciservlet" "FinTS V3.0";
   E "66492600" "3.0" "https://fints2.atruvia.de/cgi-bin/hbciservlet" "FinTS V3.0";
   E "66492700" "3.0" "https://fints2.atruvia.de/cgi-bin/hbciservlet" "FinTS V3.0";
   E "66550070" "" "https://banking-bw3.s-fints-pt-bw.de/fints30" "FinTS V3.0";
   E "66562053" "3.0" "https://fints2.atruvia.de/cgi-bin/hbciservlet" "FinTS V3.0";
   E "66562300" "3.0" "https://fints2.atruvia.de/cgi-bin/hbciservlet" "FinTS V3.0";
   E "66640035" "3.0" "" "";
   E "66650085" "" "https://banking-bw3.s-fints-pt-bw.de/fints30" "FinTS V3.0";
   E "66661329" "3.0" "https://fints2.atruvia.de/cgi-bin/hbciservlet" "FinTS V3.0";
   E "66662155" "3.0" "https://fints2.atruvia.de/cgi-bin/hbciservlet" "FinTS V3.0";
   E "66670006" "3.0" "https://fints.deutsche-bank.de/" "FinTS V3.0";
   E "66670006" "3.0" "https://fints.deutsche-bank.de/" "FinTS V3.0";
   E "66670024" "3.0" "https://fints.deutsche-bank.de/" "FinTS V3.0";
   E "66670024" "3.0" "https://fints.deutsche-bank.de/" "FinTS V3.0";
   E "67020190" "3.0" "https://hbci-01.hypovereinsbank.de/bank/hbci" "FinTS V3.0";
   E "67020190" "3.0" "https://hbci-01.hypovereinsbank.de/bank/hbci" "FinTS V3.0";
   E "67020190" "3.0" "https://hbci-01.hypovereinsbank.de/bank/hbci" "FinTS V3.0";
   E "67040031" "3.0" "" "";
   E "67040031" "3.0" "" "";
   E "67040031" "3.0" "" "";
   E "67040031" "3.0" "" "";
   E "67040031" "3.0" "" "";
   E "67040031" "3.0" "" "";
   E "67040031" "3.0" "" "";
   E "67040031" "3.0" "" "";
   E "67050505" "" "https://banking-bw4.s-fints-pt-bw.de/fints30" "FinTS V3.0";
   E "67060031" "3.0" "https://fints2.atruvia.de/cgi-bin/hbciservlet" "FinTS V3.0";
   E "67070010" "3.0" "https://fints.deutsche-bank.de/" "FinTS V3.0";
   E "67070010" "3.0" "https://fints.deutsche-bank.de/" "FinTS V3.0";
   E "67070010" "3.0" "https://fints.deutsche-bank.de/" "FinTS V3.0";
   E "67070010" "3.0" "https://fints.deutsche-bank.de/" "FinTS V3.0";
   E "67070010" "3.0" "https://fints.deutsche-bank.de/" "FinTS V3.0";
   E "67070024" "3.0" "https://fints.deutsche-bank.de/" "FinTS V3.0";
   E "67070024" "3.0" "https://fints.deutsche-bank.de/" "FinTS V3.0";
   E "67070024" "3.0" "https://fints.deutsche-bank.de/" "FinTS V3.0";
   E "67070024" "3.0" "https://fints.deutsche-bank.de/" "FinTS V3.0";
   E "67070024" "3.0" "https://fints.deutsche-bank.de/" "FinTS V3.0";
   E "67090000" "3.0" "https://fints2.atruvia.de/cgi-bin/hbciservlet" "FinTS V3.0";
   E "67092300" "3.0" "https://fints2.atruvia.de/cgi-bin/hbciservlet" "FinTS V3.0";
   E "67220286" "3.0" "https://hbci-01.hypovereinsbank.de/bank/hbci" "FinTS V3.0";
   E "67230000" "3.0" "https://fints2.atruvia.de/cgi-bin/hbciservlet" "FinTS V3.0";
   E "67230001" "3.0" "https://fints2.atruvia.de/cgi-bin/hbciservlet" "FinTS V3.0";
   E "67240039" "3.0" "" "";
   E "67250020" "" "https://banking-bw4.s-fints-pt-bw.de/fints30" "FinTS V3.0";
   E "67262243" "3.0" "https://fints2.atruvia.de/cgi-bin/hbciservlet" "FinTS V3.0";
   E "67262550" "3.0" "https://fints2.atruvia.de/cgi-bin/hbciservlet" "FinTS V3.0";
   E "67270003" "3.0" "https://fints.deutsche-bank.de/" "FinTS V3.0";
   E "67270003" "3.0" "https://fints.deutsche-bank.de/" "FinTS V3.0";
   E "67270003" "3.0" "https://fints.deutsche-bank.de/" "FinTS V3.0";
   E "67270024" "3.0" "https://fints.deutsche-bank.de/" "FinTS V3.0";
   E "67270024" "3.0" "https://fints.deutsche-bank.de/" "FinTS V3.0";
   E "67270024" "3.0" "https://fints.deutsche-bank.de/" "FinTS V3.0";
   E "67290000" "3.0" "https://fints2.atruvia.de/cgi-bin/hbciservlet" "FinTS V3.0";
   E "67291700" "3.0" "https://fints2.atruvia.de/cgi-bin/hbciservlet" "FinTS V3.0";
   E "67292200" "3.0" "https://fints2.atruvia.de/cgi-bin/hbciservlet" "FinTS V3.0";
   E "67352565" "" "https://banking-bw1.s-fints-pt-bw.de/fints30" "FinTS V3.0";
   E "67362560" "3.0" "https://fints2.atruvia.de/cgi-bin/hbciservlet" "FinTS V3.0";
   E "67390000" "3.0" "https://fints2.atruvia.de/cgi-bin/hbciservlet" "FinTS V3.0";
   E "67450048" "" "https://banking-bw5.s-fints-pt-bw.de/fints30" "FinTS V3.0";
   E "67461424" "3.0" "https://fints2.atruvia.de/cgi-bin/hbciservlet" "FinTS V3.0";
   E "67461733" "3.0" "https://fints2.atruvia.de/cgi-bin/hbciservlet" "FinTS V3.0";
   E "67462368" "3.0" "https://fints2.atruvia.de/cgi-bin/hbciservlet" "FinTS V3.0";
   E "68020186" "3.0" "https://hbci-01.hypovereinsbank.de/bank/hbci" "FinTS V3.0";
   E "68020186" "3.0" "https://hbci-01.hypovereinsbank.de/bank/hbci" "FinTS V3.0";
   E "68020186" "3.0" "https://hbci-01.hypovereinsbank.de/bank/hbci" "FinTS V3.0";
   E "68030000" "3.0" "https://fints1.atruvia.de/cgi-bin/hbciservlet" "FinTS V3.0";
   E "68040007" "3.0" "" "";
   E "68040007" "3.0" "" "";
   E "68040007" "3.0" "" "";
   E "68050101" "" "https://banking-bw2.s-fints-pt-bw.de/fints30" "FinTS V3.0";
   E "68051004" "" "https://banking-bw2.s-fints-pt-bw.de/fints30" "FinTS V3.0";
   E "68051207" "" "https://banking-bw1.s-fints-pt-bw.de/fints30" "FinTS V3.0";
   E "68052230" "" "https://banking-bw1.s-fints-pt-bw.de/fints30" "FinTS V3.0";
   E "68052328" "" "https://banking-bw2.s-fints-pt-bw.de/fints30" "FinTS V3.0";
   E "68061505" "3.0" "https://fints2.atruvia.de/cgi-bin/hbciservlet" "FinTS V3.0";
   E "68062105" "3.0" "https://fints2.atruvia.de/cgi-bin/hbciservlet" "FinTS V3.0";
   E "68062730" "3.0" "https://fints2.atruvia.de/cgi-bin/hbciservlet" "FinTS V3.0";
   E "68063479" "3.0" "https://fints2.atruvia.de/cgi-bin/hbciservlet" "FinTS V3.0";
   E "68064222" "3.0" "https://fints2.atruvia.de/cgi-bin/hbciservlet" "FinTS V3.0";
   E "68070024" "3.0" "https://fints.deutsche-bank.de/" "FinTS V3.0";
   E "68070024" "3.0" "https://fints.deutsche-bank.de/" "FinTS V3.0";
   E "68070024" "3.0" "https://fints.deutsche-bank.de/" "FinTS V3.0";
   E "68070024" "3.0" "https://fints.deutsche-bank.de/" "FinTS V3.0";
   E "68070024" "3.0" "https://fints.deutsche-bank.de/" "FinTS V3.0";
   E "68070030" "3.0" "https://fints.deutsche-bank.de/" "FinTS V3.0";
   E "68070030" "3.0" "https://fints.deutsche-bank.de/" "FinTS V3.0";
   E "68070030" "3.0" "https://fints.deutsche-bank.de/" "FinTS V3.0";
   E "68070030" "3.0" "https://fints.deutsche-bank.de/" "FinTS V3.0";
   E "68070030" "3.0" "https://fints.deutsche-bank.de/" "FinTS V3.0";
   E "68090000" "3.0" "https://fints2.atruvia.de/cgi-bin/hbciservlet" "FinTS V3.0";
   E "68090900" "" "https://fints2.atruvia.de/cgi-bin/hbciservlet" "FinTS V3.0";
   E "68092000" "3.0" "https://fints2.atruvia.de/cgi-bin/hbciservlet" "FinTS V3.0";
   E "68092300" "3.0" "https://fints2.atruvia.de/cgi-bin/hbciservlet" "FinTS V3.0";
   E "68270024" "3.0" "https://fints.deutsche-bank.de/" "FinTS V3.0";
   E "68270033" "3.0" "https://fints.deutsche-bank.de/" "FinTS V3.0";
   E "68290000" "3.0" "https://fints2.atruvia.de/cgi-bin/hbciservlet" "FinTS V3.0";
   E "68340058" "3.0" "" "";
   E "68340058" "3.0" "" "";
   E "68340058" "3.0" "" "";
   E "68340058" "3.0" "" "";
   E "68350048" "" "https://banking-bw1.s-fints-pt-bw.de/fints30" "FinTS V3.0";
   E "68351557" "" "https://banking-bw1.s-fints-pt-bw.de/fints30" "FinTS V3.0";
   E "68351865" "" "https://banking-bw1.s-fints-pt-bw.de/fints30" "FinTS V3.0";
   E "68370024" "3.0" "https://fints.deutsche-bank.de/" "FinTS V3.0";
   E "68370024" "3.0" "https://fints.deutsche-bank.de/" "FinTS V3.0";
   E "68370024" "3.0" "https://fints.deutsche-bank.de/" "FinTS V3.0";
   E "68370024" "3.0" "https://fints.deutsche-bank.de/" "FinTS V3.0";
   E "68370024" "3.0" "https://fints.deutsche-bank.de/" "FinTS V3.0";
   E "68370024" "3.0" "https://fints.deutsche-bank.de/" "FinTS V3.0";
   E "68370024" "3.0" "https://fints.deutsche-bank.de/" "FinTS V3.0";
   E "68370024" "3.0" "https://fints.deutsche-bank.de/" "FinTS V3.0";
   E "68370034" "3.0" "https://fints.deutsche-bank.de/" "FinTS V3.0";
   E "68370034" "3.0" "https://fints.deutsche-bank.de/" "FinTS V3.0";
   E "68370034" "3.0" "https://fints.deutsche-bank.de/" "FinTS V3.0";
   E "68370034" "3.0" "https://fints.deutsche-bank.de/" "FinTS V3.0";
   E "68370034" "3.0" "https://fints.deutsche-bank.de/" "FinTS V3.0";
   E "68370034" "3.0" "https://fints.deutsche-bank.de/" "FinTS V3.0";
   E "68370034" "3.0" "https://fints.deutsche-bank.de/" "FinTS V3.0";
   E "68370034" "3.0" "https://fints.deutsche-bank.de/" "FinTS V3.0";
   E "68390000" "3.0" "https://fints2.atruvia.de/cgi-bin/hbciservlet" "FinTS V3.0";
   E "68452290" "" "https://banking-bw1.s-fints-pt-bw.de/fints30" "FinTS V3.0";
   E "68462427" "3.0" "https://fints2.atruvia.de/cgi-bin/hbciservlet" "FinTS V3.0";
   E "68490000" "3.0" "https://fints2.atruvia.de/cgi-bin/hbciservlet" "FinTS V3.0";
   E "68492200" "3.0" "https://fints2.atruvia.de/cgi-bin/hbciservlet" "FinTS V3.0";
   E "69020190" "3.0" "https://hbci-01.hypovereinsbank.de/bank/hbci" "FinTS V3.0";
   E "69040045" "3.0" "" "";
   E "69050001" "" "https://banking-bw6.s-fints-pt-bw.de/fints30" "FinTS V3.0";
   E "69051410" "" "https://banking-bw6.s-fints-pt-bw.de/fints30" "FinTS V3.0"].
(** bankinfo/data.go:25006-27505 *)
Definition table_10 : list bank_info :=
  [E "69051620" "" "https://banking-bw2.s-fints-pt-bw.de/fints30" "FinTS V3.0";
   E "69051725" "" "https://banking-bw6.s-fints-pt-bw.de/fints30" "FinTS V3.0";
   E "69061800" "3.0" "https://fints2.atruvia.de/cgi-bin/hbciservlet" "FinTS V3.0";
   E "69070024" "3.0" "https://fints.deutsche-bank.de/" "FinTS V3.0";
   E "69070024" "3.0" "https://fints.deutsche-bank.de/" "FinTS V3.0";
   E "69070032" "3.0" "https://fints.deutsche-bank.de/" "FinTS V3.0";
   E "69070032" "3.0" "https://fints.deutsche-bank.de/" "FinTS V3.0";
   E "69091200" "3.0" "https://fints2.atruvia.de/cgi-bin/hbciservlet" "FinTS V3.0";
   E "69091600" "3.0" "https://fints2.atruvia.de/cgi-bin/hbciservlet" "FinTS V3.0";
   E "69220186" "3.0" "https://hbci-01.hypovereinsbank.de/bank/hbci" "FinTS V3.0";
   E "69240075" "3.0" "" "";
   E "69250035" "" "https://banking-bw2.s-fints-pt-bw.de/fints30" "FinTS V3.0";
   E "69251445" "" "https://banking-bw2.s-fints-pt-bw.de/fints30" "FinTS V3.0";
   E "69270024" "3.0" "https://fints.deutsche-bank.de/" "FinTS V3.0";
   E "69270024" "3.0" "https://fints.deutsche-bank.de/" "FinTS V3.0";
   E "69270038" "3.0" "https://fints.deutsche-bank.de/" "FinTS V3.0";
   E "69270038" "3.0" "https://fints.deutsche-bank.de/" "FinTS V3.0";
   E "69291000" "3.0" "https://fints2.atruvia.de/cgi-bin/hbciservlet" "FinTS V3.0";
   E "69362032" "3.0" "https://fints2.atruvia.de/cgi-bin/hbciservlet" "FinTS V3.0";
   E "69440007" "3.0" "" "";
   E "69440007" "3.0" "" "";
   E "69440007" "3.0" "" "";
   E "69450065" "" "https://banking-bw6.s-fints-pt-bw.de/fints30" "FinTS V3.0";
   E "69470024" "3.0" "https://fints.deutsche-bank.de/" "FinTS V3.0";
   E "69470024" "3.0" "https://fints.deutsche-bank.de/" "FinTS V3.0";
   E "69470024" "3.0" "https://fints.deutsche-bank.de/" "FinTS V3.0";
   E "69470024" "3.0" "https://fints.deutsche-bank.de/" "FinTS V3.0";
   E "69470024" "3.0" "https://fints.deutsche-bank.de/" "FinTS V3.0";
   E "69470024" "3.0" "https://fints.deutsche-bank.de/" "FinTS V3.0";
   E "69470039" "3.0" "https://fints.deutsche-bank.de/" "FinTS V3.0";
   E "69470039" "3.0" "https://fints.deutsche-bank.de/" "FinTS V3.0";
   E "69470039" "3.0" "https://fints.deutsche-bank.de/" "FinTS V3.0";
   E "69470039" "3.0" "https://fints.deutsche-bank.de/" "FinTS V3.0";
   E "69470039" "3.0" "https://fints.deutsche-bank.de/" "FinTS V3.0";
   E "70010080" "" "https://hbci.postbank.de/banking/hbci.do" "FinTS V3.0";
   E "70011600" "3.0" "https://fints2.atruvia.de/cgi-bin/hbciservlet" "FinTS V3.0";
   E "70012200" "3.0" "https://fints2.atruvia.de/cgi-bin/hbciservlet" "FinTS V3.0";
   E "70012600" "3.0" "https://fints2.atruvia.de/cgi-bin/hbciservlet" "FinTS V3.0";
   E "70013100" "3.0" "https://fints1.atruvia.de/cgi-bin/hbciservlet" "FinTS V3.0";
   E "70013155" "3.0" "https://fints1.atruvia.de/cgi-bin/hbciservlet" "FinTS V3.0";
   E "70013199" "3.0" "https://fints1.atruvia.de/cgi-bin/hbciservlet" "FinTS V3.0";
   E "70013500" "3.0" "https://fints2.atruvia.de/cgi-bin/hbciservlet" "FinTS V3.0";
   E "70017000" "" "https://fints.paycenter.de" "FinTS V3.0";
   E "70020270" "3.0" "https://hbci-01.hypovereinsbank.de/bank/hbci" "FinTS V3.0";
   E "70020270" "3.0" "https://hbci-01.hypovereinsbank.de/bank/hbci" "FinTS V3.0";
   E "70020270" "3.0" "https://hbci-01.hypovereinsbank.de/bank/hbci" "FinTS V3.0";
   E "70020270" "3.0" "https://hbci-01.hypovereinsbank.de/bank/hbci" "FinTS V3.0";
   E "70020270" "3.0" "https://hbci-01.hypovereinsbank.de/bank/hbci" "FinTS V3.0";
   E "70020270" "3.0" "https://hbci-01.hypovereinsbank.de/bank/hbci" "FinTS V3.0";
   E "70020270" "3.0" "https://hbci-01.hypovereinsbank.de/bank/hbci" "FinTS V3.0";
   E "70020270" "3.0" "https://hbci-01.hypovereinsbank.de/bank/hbci" "FinTS V3.0";
   E "70020270" "3.0" "https://hbci-01.hypovereinsbank.de/bank/hbci" "FinTS V3.0";
   E "70020270" "3.0" "https://hbci-01.hypovereinsbank.de/bank/hbci" "FinTS V3.0";
   E "70020270" "3.0" "https://hbci-01.hypovereinsbank.de/bank/hbci" "FinTS V3.0";
   E "70020270" "3.0" "https://hbci-01.hypovereinsbank.de/bank/hbci" "FinTS V3.0";
   E "70020270" "3.0" "https://hbci-01.hypovereinsbank.de/bank/hbci" "FinTS V3.0";
   E "70020270" "3.0" "https://hbci-01.hypovereinsbank.de/bank/hbci" "FinTS V3.0";
   E "70020270" "3.0" "https://hbci-01.hypovereinsbank.de/bank/hbci" "FinTS V3.0";
   E "70020270" "3.0" "https://hbci-01.hypovereinsbank.de/bank/hbci" "FinTS V3.0";
   E "70020270" "3.0" "https://hbci-01.hypovereinsbank.de/bank/hbci" "FinTS V3.0";
   E "70020270" "3.0" "https://hbci-01.hypovereinsbank.de/bank/hbci" "FinTS V3.0";
   E "70020270" "3.0" "https://hbci-01.hypovereinsbank.de/bank/hbci" "FinTS V3.0";
   E "70020270" "3.0" "https://hbci-01.hypovereinsbank.de/bank/hbci" "FinTS V3.0";
   E "70020270" "3.0" "https://hbci-01.hypovereinsbank.de/bank/hbci" "FinTS V3.0";
   E "70020270" "3.0" "https://hbci-01.hypovereinsbank.de/bank/hbci" "FinTS V3.0";
   E "70020270" "3.0" "https://hbci-01.hypovereinsbank.de/bank/hbci" "FinTS V3.0";
   E "70020270" "3.0" "https://hbci-01.hypovereinsbank.de/bank/hbci" "FinTS V3.0";
   E "70020270" "3.0" "https://hbci-01.hypovereinsbank.de/bank/hbci" "FinTS V3.0";
   E "70020270" "3.0" "https://hbci-01.hypovereinsbank.de/bank/hbci" "FinTS V3.0";
   E "70020270" "3.0" "https://hbci-01.hypovereinsbank.de/bank/hbci" "FinTS V3.0";
   E "70020270" "3.0" "https://hbci-01.hypovereinsbank.de/bank/hbci" "FinTS V3.0";
   E "70020270" "3.0" "https://hbci-01.hypovereinsbank.de/bank/hbci" "FinTS V3.0";
   E "70020270" "3.0" "https://hbci-01.hypovereinsbank.de/bank/hbci" "FinTS V3.0";
   E "70020270" "3.0" "https://hbci-01.hypovereinsbank.de/bank/hbci" "FinTS V3.0";
   E "70020270" "3.0" "https://hbci-01.hypovereinsbank.de/bank/hbci" "FinTS V3.0";
   E "70020270" "3.0" "https://hbci-01.hypovereinsbank.de/bank/hbci" "FinTS V3.0";
   E "70020270" "3.0" "https://hbci-01.hypovereinsbank.de/bank/hbci" "FinTS V3.0";
   E "70020270" "3.0" "https://hbci-01.hypovereinsbank.de/bank/hbci" "FinTS V3.0";
   E "70020270" "3.0" "https://hbci-01.hypovereinsbank.de/bank/hbci" "FinTS V3.0";
   E "70021180" "3.0" "https://hbci-01.hypovereinsbank.de/bank/hbci" "FinTS V3.0";
   E "70025175" "3.0" "https://hbci-01.hypovereinsbank.de/bank/hbci" "FinTS V3.0";
   E "70025175" "3.0" "https://hbci-01.hypovereinsbank.de/bank/hbci" "FinTS V3.0";
   E "70025175" "3.0" "https://hbci-01.hypovereinsbank.de/bank/hbci" "FinTS V3.0";
   E "70025175" "3.0" "https://hbci-01.hypovereinsbank.de/bank/hbci" "FinTS V3.0";
   E "70030400" "3.0" "https://www.bv-activebanking.de/hbciTunnel/hbciTransfer.jsp" "FinTS V3.0";
   E "70031000" "3.0" "https://hbciplus.sperrer.de" "FinTS V3.0";
   E "70032500" "3.0" "https://fints2.atruvia.de/cgi-bin/hbciservlet" "FinTS V3.0";
   E "70033100" "3.0" "https://fints.baaderbank.de" "FinTS V3.0";
   E "70035000" "3.0" "https://hbci.olb.de" "FinTS V3.0";
   E "70040041" "3.0" "" "";
   E "70040041" "3.0" "" "";
   E "70040041" "3.0" "" "";
   E "70040041" "3.0" "" "";
   E "70040041" "3.0" "" "";
   E "70040041" "3.0" "" "";
   E "70040041" "3.0" "" "";
   E "70040041" "3.0" "" "";
   E "70050000" "2.2" "" "";
   E "70051003" "" "https://banking-by2.s-fints-pt-by.de/fints30" "FinTS V3.0";
   E "70051540" "" "https://banking-by3.s-fints-pt-by.de/fints30" "FinTS V3.0";
   E "70051995" "" "https://banking-by2.s-fints-pt-by.de/fints30" "FinTS V3.0";
   E "70052060" "" "https://banking-by2.s-fints-pt-by.de/fints30" "FinTS V3.0";
   E "70053070" "" "https://banking-by3.s-fints-pt-by.de/fints30" "FinTS V3.0";
   E "70054306" "" "https://banking-by2.s-fints-pt-by.de/fints30" "FinTS V3.0";
   E "70070010" "3.0" "https://fints.deutsche-bank.de/" "FinTS V3.0";
   E "70070010" "3.0" "https://fints.deutsche-bank.de/" "FinTS V3.0";
   E "70070010" "3.0" "https://fints.deutsche-bank.de/" "FinTS V3.0";
   E "70070010" "3.0" "https://fints.deutsche-bank.de/" "FinTS V3.0";
   E "70070010" "3.0" "https://fints.deutsche-bank.de/" "FinTS V3.0";
   E "70070010" "3.0" "https://fints.deutsche-bank.de/" "FinTS V3.0";
   E "70070010" "3.0" "https://fints.deutsche-bank.de/" "FinTS V3.0";
   E "70070010" "3.0" "https://fints.deutsche-bank.de/" "FinTS V3.0";
   E "70070010" "3.0" "https://fints.deutsche-bank.de/" "FinTS V3.0";
   E "70070010" "3.0" "https://fints.deutsche-bank.de/" "FinTS V3.0";
   E "70070010" "3.0" "https://fints.deutsche-bank.de/" "FinTS V3.0";
   E "70070010" "3.0" "https://fints.deutsche-bank.de/" "FinTS V3.0";
   E "70070010" "3.0" "https://fints.deutsche-bank.de/" "FinTS V3.0";
   E "70070010" "3.0" "https://fints.deutsche-bank.de/" "FinTS V3.0";
   E "70070010" "3.0" "https://fints.deutsche-bank.de/" "FinTS V3.0";
   E "70070010" "3.0" "https://fints.deutsche-bank.de/" "FinTS V3.0";
   E "70070010" "3.0" "https://fints.deutsche-bank.de/" "FinTS V3.0";
   E "70070010" "3.0" "https://fints.deutsche-bank.de/" "FinTS V3.0";
   E "70070010" "3.0" "https://fints.deutsche-bank.de/" "FinTS V3.0";
   E "70070010" "3.0" "https://fints.deutsche-bank.de/" "FinTS V3.0";
   E "70070010" "3.0" "https://fints.deutsche-bank.de/" "FinTS V3.0";
   E "70070024" "3.0" "https://fints.deutsche-bank.de/" "FinTS V3.0";
   E "70070024" "3.0" "https://fints.deutsche-bank.de/" "FinTS V3.0";
   E "70070024" "3.0" "https://fints.deutsche-bank.de/" "FinTS V3.0";
   E "70070024" "3.0" "https://fints.deutsche-bank.de/" "FinTS V3.0";
   E "70070024" "3.0" "https://fints.deutsche-bank.de/" "FinTS V3.0";
   E "70070024" "3.0" "https://fints.deutsche-bank.de/" "FinTS V3.0";
   E "70070024" "3.0" "https://fints.deutsche-bank.de/" "FinTS V3.0";
   E "70070024" "3.0" "https://fints.deutsche-bank.de/" "FinTS V3.0";
   E "70070024" "3.0" "https://fints.deutsche-bank.de/" "FinTS V3.0";
   E "70070024" "3.0" "https://fints.deutsche-bank.de/" "FinTS V3.0";
   E "70070024" "3.0" "https://fints.deutsche-bank.de/" "FinTS V3.0";
   E "70070024" "3.0" "https://fints.deutsche-bank.de/" "FinTS V3.0";
   E "70070024" "3.0" "https://fints.deutsche-bank.de/" "FinTS V3.0";
   E "70070024" "3.0" "https://fints.deutsche-bank.de/" "FinTS V3.0";
   E "70070024" "3.0" "https://fints.deutsche-bank.de/" "FinTS V3.0";
   E "70070024" "3.0" "https://fints.deutsche-bank.de/" "FinTS V3.0";
   E "70070024" "3.0" "https://fints.deutsche-bank.de/" "FinTS V3.0";
   E "70070024" "3.0" "https://fints.deutsche-bank.de/" "FinTS V3.0";
   E "70070024" "3.0" "https://fints.deutsche-bank.de/" "FinTS V3.0";
   E "70070024" "3.0" "https://fints.deutsche-bank.de/" "FinTS V3.0";
   E "70070024" "3.0" "https://fints.deutsche-bank.de/" "FinTS V3.0";
   E "70090100" "3.0" "https://fints2.atruvia.de/cgi-bin/hbciservlet" "FinTS V3.0";
   E "70090500" "" "https://fints.bankingonline.de/fints/FinTs30PinTanHttpGate" "FinTS V3.0";
   E "70091500" "3.0" "https://fints2.atruvia.de/cgi-bin/hbciservlet" "FinTS V3.0";
   E "70091600" "3.0" "https://fints2.atruvia.de/cgi-bin/hbciservlet" "FinTS V3.0";
   E "70093200" "3.0" "https://fints2.atruvia.de/cgi-bin/hbciservlet" "FinTS V3.0";
   E "70093400" "3.0" "https://fints2.atruvia.de/cgi-bin/hbciservlet" "FinTS V3.0";
   E "70120400" "" "https://brokerage-hbci.consorsbank.de/hbci" "FinTS V3.0";
   E "70120400" "" "https://brokerage-hbci.consorsbank.de/hbci" "FinTS V3.0";
   E "70120600" "3.0" "https://fints1.atruvia.de/cgi-bin/hbciservlet" "FinTS V3.0";
   E "70120700" "3.0" "https://www.bv-activebanking.de/hbciTunnel/hbciTransfer.jsp" "FinTS V3.0";
   E "70130800" "3.0" "https://fints2.atruvia.de/cgi-bin/hbciservlet" "FinTS V3.0";
   E "70133300" "3.0" "" "";
   E "70150000" "" "https://banking-by6.s-fints-pt-by.de/fints30" "FinTS V3.0";
   E "70163370" "3.0" "https://fints2.atruvia.de/cgi-bin/hbciservlet" "FinTS V3.0";
   E "70166486" "3.0" "https://fints2.atruvia.de/cgi-bin/hbciservlet" "FinTS V3.0";
   E "70169132" "3.0" "https://fints2.atruvia.de/cgi-bin/hbciservlet" "FinTS V3.0";
   E "70169165" "3.0" "https://fints2.atruvia.de/cgi-bin/hbciservlet" "FinTS V3.0";
   E "70169186" "3.0" "https://fints2.atruvia.de/cgi-bin/hbciservlet" "FinTS V3.0";
   E "70169191" "3.0" "https://fints2.atruvia.de/cgi-bin/hbciservlet" "FinTS V3.0";
   E "70169310" "3.0" "https://fints2.atruvia.de/cgi-bin/hbciservlet" "FinTS V3.0";
   E "70169333" "3.0" "https://fints2.atruvia.de/cgi-bin/hbciservlet" "FinTS V3.0";
   E "70169351" "3.0" "https://fints2.atruvia.de/cgi-bin/hbciservlet" "FinTS V3.0";
   E "70169356" "3.0" "https://fints2.atruvia.de/cgi-bin/hbciservlet" "FinTS V3.0";
   E "70169382" "3.0" "https://fints2.atruvia.de/cgi-bin/hbciservlet" "FinTS V3.0";
   E "70169383" "3.0" "https://fints2.atruvia.de/cgi-bin/hbciservlet" "FinTS V3.0";
   E "70169388" "3.0" "https://fints2.atruvia.de/cgi-bin/hbciservlet" "FinTS V3.0";
   E "70169410" "3.0" "https://fints2.atruvia.de/cgi-bin/hbciservlet" "FinTS V3.0";
   E "70169413" "3.0" "https://fints2.atruvia.de/cgi-bin/hbciservlet" "FinTS V3.0";
   E "70169450" "3.0" "https://fints2.atruvia.de/cgi-bin/hbciservlet" "FinTS V3.0";
   E "70169459" "3.0" "https://fints2.atruvia.de/cgi-bin/hbciservlet" "FinTS V3.0";
   E "70169460" "3.0" "https://fints2.atruvia.de/cgi-bin/hbciservlet" "FinTS V3.0";
   E "70169464" "3.0" "https://fints2.atruvia.de/cgi-bin/hbciservlet" "FinTS V3.0";
   E "70169465" "3.0" "https://fints2.atruvia.de/cgi-bin/hbciservlet" "FinTS V3.0";
   E "70169466" "3.0" "https://fints2.atruvia.de/cgi-bin/hbciservlet" "FinTS V3.0";
   E "70169476" "3.0" "https://fints2.atruvia.de/cgi-bin/hbciservlet" "FinTS V3.0";
   E "70169509" "3.0" "https://fints2.atruvia.de/cgi-bin/hbciservlet" "FinTS V3.0";
   E "70169524" "3.0" "https://fints2.atruvia.de/cgi-bin/hbciservlet" "FinTS V3.0";
   E "70169530" "3.0" "https://fints2.atruvia.de/cgi-bin/hbciservlet" "FinTS V3.0";
   E "70169543" "3.0" "https://fints2.atruvia.de/cgi-bin/hbciservlet" "FinTS V3.0";
   E "70169558" "3.0" "https://fints2.atruvia.de/cgi-bin/hbciservlet" "FinTS V3.0";
   E "70169566" "3.0" "https://fints2.atruvia.de/cgi-bin/hbciservlet" "FinTS V3.0";
   E "70169568" "3.0" "https://fints2.atruvia.de/cgi-bin/hbciservlet" "FinTS V3.0";
   E "70169575" "3.0" "https://fints2.atruvia.de/cgi-bin/hbciservlet" "FinTS V3.0";
   E "70169576" "3.0" "https://fints2.atruvia.de/cgi-bin/hbciservlet" "FinTS V3.0";
   E "70169585" "3.0" "https://fints2.atruvia.de/cgi-bin/hbciservlet" "FinTS V3.0";
   E "70169598" "3.0" "https://fints2.atruvia.de/cgi-bin/hbciservlet" "FinTS V3.0";
   E "70169605" "3.0" "https://fints2.atruvia.de/cgi-bin/hbciservlet" "FinTS V3.0";
   E "70169614" "3.0" "https://fints2.atruvia.de/cgi-bin/hbciservlet" "FinTS V3.0";
   E "70169693" "3.0" "https://fints2.atruvia.de/cgi-bin/hbciservlet" "FinTS V3.0";
   E "70190000" "3.0" "https://fints2.atruvia.de/cgi-bin/hbciservlet" "FinTS V3.0";
   E "70220200" "3.0" "https://www.bv-activebanking.de/hbciTunnel/hbciTransfer.jsp" "FinTS V3.0";
   E "70230600" "3.0" "https://www.bv-activebanking.de/hbciTunnel/hbciTransfer.jsp" "FinTS V3.0";
   E "70250150" "" "https://banking-by3.s-fints-pt-by.de/fints30" "FinTS V3.0";
   E "70320090" "3.0" "https://hbci-01.hypovereinsbank.de/bank/hbci" "FinTS V3.0";
   E "70320090" "3.0" "https://hbci-01.hypovereinsbank.de/bank/hbci" "FinTS V3.0";
   E "70320090" "3.0" "https://hbci-01.hypovereinsbank.de/bank/hbci" "FinTS V3.0";
   E "70320090" "3.0" "https://hbci-01.hypovereinsbank.de/bank/hbci" "FinTS V3.0";
   E "70321194" "3.0" "https://hbci-01.hypovereinsbank.de/bank/hbci" "FinTS V3.0";
   E "70322192" "3.0" "https://hbci-01.hypovereinsbank.de/bank/hbci" "FinTS V3.0";
   E "70351030" "" "https://banking-by2.s-fints-pt-by.de/fints30" "FinTS V3.0";
   E "70362595" "3.0" "https://fints2.atruvia.de/cgi-bin/hbciservlet" "FinTS V3.0";
   E "70390000" "3.0" "https://fints2.atruvia.de/cgi-bin/hbciservlet" "FinTS V3.0";
   E "71020072" "3.0" "https://hbci-01.hypovereinsbank.de/bank/hbci" "FinTS V3.0";
   E "71020072" "3.0" "https://hbci-01.hypovereinsbank.de/bank/hbci" "FinTS V3.0";
   E "71020072" "3.0" "https://hbci-01.hypovereinsbank.de/bank/hbci" "FinTS V3.0";
   E "71020072" "3.0" "https://hbci-01.hypovereinsbank.de/bank/hbci" "FinTS V3.0";
   E "71020072" "3.0" "https://hbci-01.hypovereinsbank.de/bank/hbci" "FinTS V3.0";
   E "71021270" "3.0" "https://hbci-01.hypovereinsbank.de/bank/hbci" "FinTS V3.0";
   E "71021270" "3.0" "https://hbci-01.hypovereinsbank.de/bank/hbci" "FinTS V3.0";
   E "71021270" "3.0" "https://hbci-01.hypovereinsbank.de/bank/hbci" "FinTS V3.0";
   E "71021270" "3.0" "https://hbci-01.hypovereinsbank.de/bank/hbci" "FinTS V3.0";
   E "71021270" "3.0" "https://hbci-01.hypovereinsbank.de/bank/hbci" "FinTS V3.0";
   E "71022182" "3.0" "https://hbci-01.hypovereinsbank.de/bank/hbci" "FinTS V3.0";
   E "71022182" "3.0" "https://hbci-01.hypovereinsbank.de/bank/hbci" "FinTS V3.0";
   E "71022182" "3.0" "https://hbci-01.hypovereinsbank.de/bank/hbci" "FinTS V3.0";
   E "71022182" "3.0" "https://hbci-01.hypovereinsbank.de/bank/hbci" "FinTS V3.0";
   E "71022182" "3.0" "https://hbci-01.hypovereinsbank.de/bank/hbci" "FinTS V3.0";
   E "71023173" "3.0" "https://hbci-01.hypovereinsbank.de/bank/hbci" "FinTS V3.0";
   E "71050000" "" "https://banking-by2.s-fints-pt-by.de/fints30" "FinTS V3.0";
   E "71052050" "" "https://banking-by2.s-fints-pt-by.de/fints30" "FinTS V3.0";
   E "71062802" "3.0" "https://fints2.atruvia.de/cgi-bin/hbciservlet" "FinTS V3.0";
   E "71090000" "3.0" "https://fints2.atruvia.de/cgi-bin/hbciservlet" "FinTS V3.0";
   E "71120077" "3.0" "https://hbci-01.hypovereinsbank.de/bank/hbci" "FinTS V3.0";
   E "71120077" "3.0" "https://hbci-01.hypovereinsbank.de/bank/hbci" "FinTS V3.0";
   E "71120077" "3.0" "https://hbci-01.hypovereinsbank.de/bank/hbci" "FinTS V3.0";
   E "71120077" "3.0" "https://hbci-01.hypovereinsbank.de/bank/hbci" "FinTS V3.0";
   E "71120077" "3.0" "https://hbci-01.hypovereinsbank.de/bank/hbci" "FinTS V3.0";
   E "71120077" "3.0" "https://hbci-01.hypovereinsbank.de/bank/hbci" "FinTS V3.0";
   E "71120077" "3.0" "https://hbci-01.hypovereinsbank.de/bank/hbci" "FinTS V3.0";
   E "71120078" "3.0" "https://hbci-01.hypovereinsbank.de/bank/hbci" "FinTS V3.0";
   E "71120078" "3.0" "https://hbci-01.hypovereinsbank.de/bank/hbci" "FinTS V3.0";
   E "71120078" "3.0" "https://hbci-01.hypovereinsbank.de/bank/hbci" "FinTS V3.0";
   E "71120078" "3.0" "https://hbci-01.hypovereinsbank.de/bank/hbci" "FinTS V3.0";
   E "71120078" "3.0" "https://hbci-01.hypovereinsbank.de/bank/hbci" "FinTS V3.0";
   E "71121176" "3.0" "https://hbci-01.hypovereinsbank.de/bank/hbci" "FinTS V3.0";
   E "71121176" "3.0" "https://hbci-01.hypovereinsbank.de/bank/hbci" "FinTS V3.0";
   E "71121176" "3.0" "https://hbci-01.hypovereinsbank.de/bank/hbci" "FinTS V3.0";
   E "71122183" "3.0" "https://hbci-01.hypovereinsbank.de/bank/hbci" "FinTS V3.0";
   E "71140041" "3.0" "" "";
   E "71141041" "3.0" "" "";
   E "71142041" "3.0" "" "";
   E "71150000" "" "https://banking-by2.s-fints-pt-by.de/fints30" "FinTS V3.0";
   E "71151020" "" "https://banking-by2.s-fints-pt-by.de/fints30" "FinTS V3.0";
   E "71152570" "" "https://banking-by2.s-fints-pt-by.de/fints30" "FinTS V3.0"].
(** bankinfo/data.go:27506-30005 *)
Definition table_11 : list bank_info :=
  [E "71152680" "" "https://banking-by2.s-fints-pt-by.de/fints30" "FinTS V3.0";
   E "71160000" "3.0" "https://fints2.atruvia.de/cgi-bin/hbciservlet" "FinTS V3.0";
   E "71162355" "3.0" "https://fints2.atruvia.de/cgi-bin/hbciservlet" "FinTS V3.0";
   E "71162804" "3.0" "https://fints2.atruvia.de/cgi-bin/hbciservlet" "FinTS V3.0";
   E "71165150" "3.0" "https://fints2.atruvia.de/cgi-bin/hbciservlet" "FinTS V3.0";
   E "71190000" "3.0" "https://fints2.atruvia.de/cgi-bin/hbciservlet" "FinTS V3.0";
   E "72012300" "3.0" "https://fints1.atruvia.de/cgi-bin/hbciservlet" "FinTS V3.0";
   E "72020070" "3.0" "https://hbci-01.hypovereinsbank.de/bank/hbci" "FinTS V3.0";
   E "72020070" "3.0" "https://hbci-01.hypovereinsbank.de/bank/hbci" "FinTS V3.0";
   E "72020070" "3.0" "https://hbci-01.hypovereinsbank.de/bank/hbci" "FinTS V3.0";
   E "72020070" "3.0" "https://hbci-01.hypovereinsbank.de/bank/hbci" "FinTS V3.0";
   E "72020070" "3.0" "https://hbci-01.hypovereinsbank.de/bank/hbci" "FinTS V3.0";
   E "72020070" "3.0" "https://hbci-01.hypovereinsbank.de/bank/hbci" "FinTS V3.0";
   E "72020070" "3.0" "https://hbci-01.hypovereinsbank.de/bank/hbci" "FinTS V3.0";
   E "72020070" "3.0" "https://hbci-01.hypovereinsbank.de/bank/hbci" "FinTS V3.0";
   E "72020070" "3.0" "https://hbci-01.hypovereinsbank.de/bank/hbci" "FinTS V3.0";
   E "72020070" "3.0" "https://hbci-01.hypovereinsbank.de/bank/hbci" "FinTS V3.0";
   E "72020070" "3.0" "https://hbci-01.hypovereinsbank.de/bank/hbci" "FinTS V3.0";
   E "72020070" "3.0" "https://hbci-01.hypovereinsbank.de/bank/hbci" "FinTS V3.0";
   E "72020070" "3.0" "https://hbci-01.hypovereinsbank.de/bank/hbci" "FinTS V3.0";
   E "72020070" "3.0" "https://hbci-01.hypovereinsbank.de/bank/hbci" "FinTS V3.0";
   E "72020700" "3.0" "https://banking.aab.de/hbci" "FinTS V3.0";
   E "72021271" "3.0" "https://hbci-01.hypovereinsbank.de/bank/hbci" "FinTS V3.0";
   E "72021876" "3.0" "https://hbci-01.hypovereinsbank.de/bank/hbci" "FinTS V3.0";
   E "72021876" "3.0" "https://hbci-01.hypovereinsbank.de/bank/hbci" "FinTS V3.0";
   E "72030014" "3.0" "https://fints2.atruvia.de/cgi-bin/hbciservlet" "FinTS V3.0";
   E "72030227" "3.0" "https://fints2.atruvia.de/cgi-bin/hbciservlet" "FinTS V3.0";
   E "72040046" "3.0" "" "";
   E "72040046" "3.0" "" "";
   E "72050000" "" "https://banking-by5.s-fints-pt-by.de/fints30" "FinTS V3.0";
   E "72051210" "" "https://banking-by5.s-fints-pt-by.de/fints30" "FinTS V3.0";
   E "72051840" "" "https://banking-by5.s-fints-pt-by.de/fints30" "FinTS V3.0";
   E "72062152" "3.0" "https://fints2.atruvia.de/cgi-bin/hbciservlet" "FinTS V3.0";
   E "72069005" "3.0" "https://fints2.atruvia.de/cgi-bin/hbciservlet" "FinTS V3.0";
   E "72069036" "3.0" "https://fints2.atruvia.de/cgi-bin/hbciservlet" "FinTS V3.0";
   E "72069043" "3.0" "https://fints2.atruvia.de/cgi-bin/hbciservlet" "FinTS V3.0";
   E "72069105" "3.0" "https://fints2.atruvia.de/cgi-bin/hbciservlet" "FinTS V3.0";
   E "72069119" "3.0" "https://fints2.atruvia.de/cgi-bin/hbciservlet" "FinTS V3.0";
   E "72069126" "3.0" "https://fints2.atruvia.de/cgi-bin/hbciservlet" "FinTS V3.0";
   E "72069155" "3.0" "https://fints2.atruvia.de/cgi-bin/hbciservlet" "FinTS V3.0";
   E "72069179" "3.0" "https://fints2.atruvia.de/cgi-bin/hbciservlet" "FinTS V3.0";
   E "72069193" "3.0" "https://fints2.atruvia.de/cgi-bin/hbciservlet" "FinTS V3.0";
   E "72069220" "3.0" "https://fints2.atruvia.de/cgi-bin/hbciservlet" "FinTS V3.0";
   E "72069235" "3.0" "https://fints2.atruvia.de/cgi-bin/hbciservlet" "FinTS V3.0";
   E "72069274" "3.0" "https://fints2.atruvia.de/cgi-bin/hbciservlet" "FinTS V3.0";
   E "72069308" "3.0" "https://fints2.atruvia.de/cgi-bin/hbciservlet" "FinTS V3.0";
   E "72069329" "3.0" "https://fints2.atruvia.de/cgi-bin/hbciservlet" "FinTS V3.0";
   E "72069736" "3.0" "https://fints2.atruvia.de/cgi-bin/hbciservlet" "FinTS V3.0";
   E "72069789" "3.0" "https://fints2.atruvia.de/cgi-bin/hbciservlet" "FinTS V3.0";
   E "72070001" "3.0" "https://fints.deutsche-bank.de/" "FinTS V3.0";
   E "72070001" "3.0" "https://fints.deutsche-bank.de/" "FinTS V3.0";
   E "72070001" "3.0" "https://fints.deutsche-bank.de/" "FinTS V3.0";
   E "72070001" "3.0" "https://fints.deutsche-bank.de/" "FinTS V3.0";
   E "72070001" "3.0" "https://fints.deutsche-bank.de/" "FinTS V3.0";
   E "72070001" "3.0" "https://fints.deutsche-bank.de/" "FinTS V3.0";
   E "72070001" "3.0" "https://fints.deutsche-bank.de/" "FinTS V3.0";
   E "72070024" "3.0" "https://fints.deutsche-bank.de/" "FinTS V3.0";
   E "72070024" "3.0" "https://fints.deutsche-bank.de/" "FinTS V3.0";
   E "72070024" "3.0" "https://fints.deutsche-bank.de/" "FinTS V3.0";
   E "72070024" "3.0" "https://fints.deutsche-bank.de/" "FinTS V3.0";
   E "72070024" "3.0" "https://fints.deutsche-bank.de/" "FinTS V3.0";
   E "72070024" "3.0" "https://fints.deutsche-bank.de/" "FinTS V3.0";
   E "72070024" "3.0" "https://fints.deutsche-bank.de/" "FinTS V3.0";
   E "72090000" "3.0" "https://fints2.atruvia.de/cgi-bin/hbciservlet" "FinTS V3.0";
   E "72090500" "" "https://fints.bankingonline.de/fints/FinTs30PinTanHttpGate" "FinTS V3.0";
   E "72090900" "" "https://fints2.atruvia.de/cgi-bin/hbciservlet" "FinTS V3.0";
   E "72091800" "3.0" "https://fints2.atruvia.de/cgi-bin/hbciservlet" "FinTS V3.0";
   E "72120078" "3.0" "https://hbci-01.hypovereinsbank.de/bank/hbci" "FinTS V3.0";
   E "72120078" "3.0" "https://hbci-01.hypovereinsbank.de/bank/hbci" "FinTS V3.0";
   E "72120078" "3.0" "https://hbci-01.hypovereinsbank.de/bank/hbci" "FinTS V3.0";
   E "72120078" "3.0" "https://hbci-01.hypovereinsbank.de/bank/hbci" "FinTS V3.0";
   E "72120078" "3.0" "https://hbci-01.hypovereinsbank.de/bank/hbci" "FinTS V3.0";
   E "72120078" "3.0" "https://hbci-01.hypovereinsbank.de/bank/hbci" "FinTS V3.0";
   E "72120078" "3.0" "https://hbci-01.hypovereinsbank.de/bank/hbci" "FinTS V3.0";
   E "72120078" "3.0" "https://hbci-01.hypovereinsbank.de/bank/hbci" "FinTS V3.0";
   E "72120078" "3.0" "https://hbci-01.hypovereinsbank.de/bank/hbci" "FinTS V3.0";
   E "72120078" "3.0" "https://hbci-01.hypovereinsbank.de/bank/hbci" "FinTS V3.0";
   E "72122181" "3.0" "https://hbci-01.hypovereinsbank.de/bank/hbci" "FinTS V3.0";
   E "72140052" "3.0" "" "";
   E "72150000" "" "https://banking-by2.s-fints-pt-by.de/fints30" "FinTS V3.0";
   E "72151650" "" "https://banking-by2.s-fints-pt-by.de/fints30" "FinTS V3.0";
   E "72152070" "" "https://banking-by2.s-fints-pt-by.de/fints30" "FinTS V3.0";
   E "72160818" "3.0" "https://fints2.atruvia.de/cgi-bin/hbciservlet" "FinTS V3.0";
   E "72169080" "3.0" "https://fints2.atruvia.de/cgi-bin/hbciservlet" "FinTS V3.0";
   E "72169218" "3.0" "https://fints2.atruvia.de/cgi-bin/hbciservlet" "FinTS V3.0";
   E "72169246" "3.0" "https://fints2.atruvia.de/cgi-bin/hbciservlet" "FinTS V3.0";
   E "72169733" "3.0" "https://fints2.atruvia.de/cgi-bin/hbciservlet" "FinTS V3.0";
   E "72169745" "3.0" "https://fints2.atruvia.de/cgi-bin/hbciservlet" "FinTS V3.0";
   E "72169756" "3.0" "https://fints2.atruvia.de/cgi-bin/hbciservlet" "FinTS V3.0";
   E "72169812" "3.0" "https://fints2.atruvia.de/cgi-bin/hbciservlet" "FinTS V3.0";
   E "72170007" "3.0" "https://fints.deutsche-bank.de/" "FinTS V3.0";
   E "72170007" "3.0" "https://fints.deutsche-bank.de/" "FinTS V3.0";
   E "72170007" "3.0" "https://fints.deutsche-bank.de/" "FinTS V3.0";
   E "72170007" "3.0" "https://fints.deutsche-bank.de/" "FinTS V3.0";
   E "72170024" "3.0" "https://fints.deutsche-bank.de/" "FinTS V3.0";
   E "72170024" "3.0" "https://fints.deutsche-bank.de/" "FinTS V3.0";
   E "72170024" "3.0" "https://fints.deutsche-bank.de/" "FinTS V3.0";
   E "72170024" "3.0" "https://fints.deutsche-bank.de/" "FinTS V3.0";
   E "72220074" "3.0" "https://hbci-01.hypovereinsbank.de/bank/hbci" "FinTS V3.0";
   E "72223182" "3.0" "https://hbci-01.hypovereinsbank.de/bank/hbci" "FinTS V3.0";
   E "72250160" "" "https://banking-by5.s-fints-pt-by.de/fints30" "FinTS V3.0";
   E "72251520" "" "https://banking-by5.s-fints-pt-by.de/fints30" "FinTS V3.0";
   E "72290100" "3.0" "https://fints2.atruvia.de/cgi-bin/hbciservlet" "FinTS V3.0";
   E "73050000" "" "https://banking-by5.s-fints-pt-by.de/fints30" "FinTS V3.0";
   E "73061191" "3.0" "https://fints2.atruvia.de/cgi-bin/hbciservlet" "FinTS V3.0";
   E "73120075" "3.0" "https://hbci-01.hypovereinsbank.de/bank/hbci" "FinTS V3.0";
   E "73120075" "3.0" "https://hbci-01.hypovereinsbank.de/bank/hbci" "FinTS V3.0";
   E "73120075" "3.0" "https://hbci-01.hypovereinsbank.de/bank/hbci" "FinTS V3.0";
   E "73120075" "3.0" "https://hbci-01.hypovereinsbank.de/bank/hbci" "FinTS V3.0";
   E "73120075" "3.0" "https://hbci-01.hypovereinsbank.de/bank/hbci" "FinTS V3.0";
   E "73120075" "3.0" "https://hbci-01.hypovereinsbank.de/bank/hbci" "FinTS V3.0";
   E "73140046" "3.0" "" "";
   E "73150000" "" "https://banking-by5.s-fints-pt-by.de/fints30" "FinTS V3.0";
   E "73160000" "3.0" "https://fints2.atruvia.de/cgi-bin/hbciservlet" "FinTS V3.0";
   E "73190000" "3.0" "https://fints2.atruvia.de/cgi-bin/hbciservlet" "FinTS V3.0";
   E "73191500" "3.0" "https://fints2.atruvia.de/cgi-bin/hbciservlet" "FinTS V3.0";
   E "73320073" "3.0" "https://hbci-01.hypovereinsbank.de/bank/hbci" "FinTS V3.0";
   E "73320073" "3.0" "https://hbci-01.hypovereinsbank.de/bank/hbci" "FinTS V3.0";
   E "73321177" "3.0" "https://hbci-01.hypovereinsbank.de/bank/hbci" "FinTS V3.0";
   E "73322380" "3.0" "https://hbci-01.hypovereinsbank.de/bank/hbci" "FinTS V3.0";
   E "73322380" "3.0" "https://hbci-01.hypovereinsbank.de/bank/hbci" "FinTS V3.0";
   E "73322380" "3.0" "https://hbci-01.hypovereinsbank.de/bank/hbci" "FinTS V3.0";
   E "73322380" "3.0" "https://hbci-01.hypovereinsbank.de/bank/hbci" "FinTS V3.0";
   E "73331700" "3.0" "https://fints2.atruvia.de/cgi-bin/hbciservlet" "FinTS V3.0";
   E "73340046" "3.0" "" "";
   E "73350000" "" "https://banking-by5.s-fints-pt-by.de/fints30" "FinTS V3.0";
   E "73369264" "3.0" "https://fints2.atruvia.de/cgi-bin/hbciservlet" "FinTS V3.0";
   E "73369821" "3.0" "https://fints2.atruvia.de/cgi-bin/hbciservlet" "FinTS V3.0";
   E "73369823" "3.0" "https://fints2.atruvia.de/cgi-bin/hbciservlet" "FinTS V3.0";
   E "73369826" "3.0" "https://fints2.atruvia.de/cgi-bin/hbciservlet" "FinTS V3.0";
   E "73369851" "3.0" "https://fints2.atruvia.de/cgi-bin/hbciservlet" "FinTS V3.0";
   E "73369859" "3.0" "https://fints2.atruvia.de/cgi-bin/hbciservlet" "FinTS V3.0";
   E "73369871" "3.0" "https://fints2.atruvia.de/cgi-bin/hbciservlet" "FinTS V3.0";
   E "73369918" "3.0" "https://fints2.atruvia.de/cgi-bin/hbciservlet" "FinTS V3.0";
   E "73369920" "3.0" "https://fints2.atruvia.de/cgi-bin/hbciservlet" "FinTS V3.0";
   E "73369933" "3.0" "https://fints2.atruvia.de/cgi-bin/hbciservlet" "FinTS V3.0";
   E "73369936" "3.0" "https://fints2.atruvia.de/cgi-bin/hbciservlet" "FinTS V3.0";
   E "73369954" "3.0" "https://fints2.atruvia.de/cgi-bin/hbciservlet" "FinTS V3.0";
   E "73370008" "3.0" "https://fints.deutsche-bank.de/" "FinTS V3.0";
   E "73370008" "3.0" "https://fints.deutsche-bank.de/" "FinTS V3.0";
   E "73370008" "3.0" "https://fints.deutsche-bank.de/" "FinTS V3.0";
   E "73370008" "3.0" "https://fints.deutsche-bank.de/" "FinTS V3.0";
   E "73370008" "3.0" "https://fints.deutsche-bank.de/" "FinTS V3.0";
   E "73370008" "3.0" "https://fints.deutsche-bank.de/" "FinTS V3.0";
   E "73370024" "3.0" "https://fints.deutsche-bank.de/" "FinTS V3.0";
   E "73370024" "3.0" "https://fints.deutsche-bank.de/" "FinTS V3.0";
   E "73370024" "3.0" "https://fints.deutsche-bank.de/" "FinTS V3.0";
   E "73370024" "3.0" "https://fints.deutsche-bank.de/" "FinTS V3.0";
   E "73370024" "3.0" "https://fints.deutsche-bank.de/" "FinTS V3.0";
   E "73370024" "3.0" "https://fints.deutsche-bank.de/" "FinTS V3.0";
   E "73390000" "3.0" "https://fints2.atruvia.de/cgi-bin/hbciservlet" "FinTS V3.0";
   E "73392000" "3.0" "https://fints2.atruvia.de/cgi-bin/hbciservlet" "FinTS V3.0";
   E "73420071" "3.0" "https://hbci-01.hypovereinsbank.de/bank/hbci" "FinTS V3.0";
   E "73420071" "3.0" "https://hbci-01.hypovereinsbank.de/bank/hbci" "FinTS V3.0";
   E "73420071" "3.0" "https://hbci-01.hypovereinsbank.de/bank/hbci" "FinTS V3.0";
   E "73420071" "3.0" "https://hbci-01.hypovereinsbank.de/bank/hbci" "FinTS V3.0";
   E "73421478" "3.0" "https://hbci-01.hypovereinsbank.de/bank/hbci" "FinTS V3.0";
   E "73421478" "3.0" "https://hbci-01.hypovereinsbank.de/bank/hbci" "FinTS V3.0";
   E "74020074" "3.0" "https://hbci-01.hypovereinsbank.de/bank/hbci" "FinTS V3.0";
   E "74020074" "3.0" "https://hbci-01.hypovereinsbank.de/bank/hbci" "FinTS V3.0";
   E "74020074" "3.0" "https://hbci-01.hypovereinsbank.de/bank/hbci" "FinTS V3.0";
   E "74020074" "3.0" "https://hbci-01.hypovereinsbank.de/bank/hbci" "FinTS V3.0";
   E "74020074" "3.0" "https://hbci-01.hypovereinsbank.de/bank/hbci" "FinTS V3.0";
   E "74020074" "3.0" "https://hbci-01.hypovereinsbank.de/bank/hbci" "FinTS V3.0";
   E "74020074" "3.0" "https://hbci-01.hypovereinsbank.de/bank/hbci" "FinTS V3.0";
   E "74020074" "3.0" "https://hbci-01.hypovereinsbank.de/bank/hbci" "FinTS V3.0";
   E "74020100" "" "https://www.bv-activebanking.de/hbciTunnel/hbciTransfer.jsp" "FinTS V3.0";
   E "74040082" "3.0" "" "";
   E "74050000" "" "https://banking-by3.s-fints-pt-by.de/fints30" "FinTS V3.0";
   E "74051230" "" "https://banking-by3.s-fints-pt-by.de/fints30" "FinTS V3.0";
   E "74061101" "3.0" "https://fints2.atruvia.de/cgi-bin/hbciservlet" "FinTS V3.0";
   E "74061564" "3.0" "https://fints2.atruvia.de/cgi-bin/hbciservlet" "FinTS V3.0";
   E "74061670" "3.0" "https://fints2.atruvia.de/cgi-bin/hbciservlet" "FinTS V3.0";
   E "74061813" "3.0" "https://fints2.atruvia.de/cgi-bin/hbciservlet" "FinTS V3.0";
   E "74062490" "3.0" "https://fints2.atruvia.de/cgi-bin/hbciservlet" "FinTS V3.0";
   E "74062786" "3.0" "https://fints2.atruvia.de/cgi-bin/hbciservlet" "FinTS V3.0";
   E "74064593" "3.0" "https://fints2.atruvia.de/cgi-bin/hbciservlet" "FinTS V3.0";
   E "74069744" "3.0" "https://fints2.atruvia.de/cgi-bin/hbciservlet" "FinTS V3.0";
   E "74090000" "3.0" "https://fints2.atruvia.de/cgi-bin/hbciservlet" "FinTS V3.0";
   E "74120071" "3.0" "https://hbci-01.hypovereinsbank.de/bank/hbci" "FinTS V3.0";
   E "74150000" "" "https://banking-by3.s-fints-pt-by.de/fints30" "FinTS V3.0";
   E "74151450" "" "https://banking-by3.s-fints-pt-by.de/fints30" "FinTS V3.0";
   E "74160025" "3.0" "https://fints2.atruvia.de/cgi-bin/hbciservlet" "FinTS V3.0";
   E "74161608" "3.0" "https://fints2.atruvia.de/cgi-bin/hbciservlet" "FinTS V3.0";
   E "74190000" "3.0" "https://fints2.atruvia.de/cgi-bin/hbciservlet" "FinTS V3.0";
   E "74191000" "3.0" "https://fints2.atruvia.de/cgi-bin/hbciservlet" "FinTS V3.0";
   E "74220075" "3.0" "https://hbci-01.hypovereinsbank.de/bank/hbci" "FinTS V3.0";
   E "74221170" "3.0" "https://hbci-01.hypovereinsbank.de/bank/hbci" "FinTS V3.0";
   E "74221170" "3.0" "https://hbci-01.hypovereinsbank.de/bank/hbci" "FinTS V3.0";
   E "74240062" "3.0" "" "";
   E "74250000" "" "https://banking-by3.s-fints-pt-by.de/fints30" "FinTS V3.0";
   E "74251020" "" "https://banking-by4.s-fints-pt-by.de/fints30" "FinTS V3.0";
   E "74260110" "3.0" "https://fints2.atruvia.de/cgi-bin/hbciservlet" "FinTS V3.0";
   E "74261024" "3.0" "https://fints2.atruvia.de/cgi-bin/hbciservlet" "FinTS V3.0";
   E "74290000" "3.0" "https://fints2.atruvia.de/cgi-bin/hbciservlet" "FinTS V3.0";
   E "74320073" "3.0" "https://hbci-01.hypovereinsbank.de/bank/hbci" "FinTS V3.0";
   E "74320073" "3.0" "https://hbci-01.hypovereinsbank.de/bank/hbci" "FinTS V3.0";
   E "74320073" "3.0" "https://hbci-01.hypovereinsbank.de/bank/hbci" "FinTS V3.0";
   E "74320073" "3.0" "https://hbci-01.hypovereinsbank.de/bank/hbci" "FinTS V3.0";
   E "74320073" "3.0" "https://hbci-01.hypovereinsbank.de/bank/hbci" "FinTS V3.0";
   E "74320073" "3.0" "https://hbci-01.hypovereinsbank.de/bank/hbci" "FinTS V3.0";
   E "74320073" "3.0" "https://hbci-01.hypovereinsbank.de/bank/hbci" "FinTS V3.0";
   E "74320073" "3.0" "https://hbci-01.hypovereinsbank.de/bank/hbci" "FinTS V3.0";
   E "74320073" "3.0" "https://hbci-01.hypovereinsbank.de/bank/hbci" "FinTS V3.0";
   E "74320073" "3.0" "https://hbci-01.hypovereinsbank.de/bank/hbci" "FinTS V3.0";
   E "74340077" "3.0" "" "";
   E "74350000" "" "https://banking-by3.s-fints-pt-by.de/fints30" "FinTS V3.0";
   E "74351430" "" "https://banking-by3.s-fints-pt-by.de/fints30" "FinTS V3.0";
   E "74361211" "3.0" "https://fints2.atruvia.de/cgi-bin/hbciservlet" "FinTS V3.0";
   E "74362663" "3.0" "https://fints2.atruvia.de/cgi-bin/hbciservlet" "FinTS V3.0";
   E "74369088" "3.0" "https://fints2.atruvia.de/cgi-bin/hbciservlet" "FinTS V3.0";
   E "74369130" "3.0" "https://fints2.atruvia.de/cgi-bin/hbciservlet" "FinTS V3.0";
   E "74369146" "3.0" "https://fints2.atruvia.de/cgi-bin/hbciservlet" "FinTS V3.0";
   E "74369662" "3.0" "https://fints2.atruvia.de/cgi-bin/hbciservlet" "FinTS V3.0";
   E "74390000" "3.0" "https://fints2.atruvia.de/cgi-bin/hbciservlet" "FinTS V3.0";
   E "74392300" "3.0" "https://fints2.atruvia.de/cgi-bin/hbciservlet" "FinTS V3.0";
   E "75020073" "3.0" "https://hbci-01.hypovereinsbank.de/bank/hbci" "FinTS V3.0";
   E "75020073" "3.0" "https://hbci-01.hypovereinsbank.de/bank/hbci" "FinTS V3.0";
   E "75020073" "3.0" "https://hbci-01.hypovereinsbank.de/bank/hbci" "FinTS V3.0";
   E "75020073" "3.0" "https://hbci-01.hypovereinsbank.de/bank/hbci" "FinTS V3.0";
   E "75020073" "3.0" "https://hbci-01.hypovereinsbank.de/bank/hbci" "FinTS V3.0";
   E "75020073" "3.0" "https://hbci-01.hypovereinsbank.de/bank/hbci" "FinTS V3.0";
   E "75020073" "3.0" "https://hbci-01.hypovereinsbank.de/bank/hbci" "FinTS V3.0";
   E "75020073" "3.0" "https://hbci-01.hypovereinsbank.de/bank/hbci" "FinTS V3.0";
   E "75020073" "3.0" "https://hbci-01.hypovereinsbank.de/bank/hbci" "FinTS V3.0";
   E "75021174" "3.0" "https://hbci-01.hypovereinsbank.de/bank/hbci" "FinTS V3.0";
   E "75040062" "3.0" "" "";
   E "75050000" "" "https://banking-by4.s-fints-pt-by.de/fints30" "FinTS V3.0";
   E "75051040" "" "https://banking-by4.s-fints-pt-by.de/fints30" "FinTS V3.0";
   E "75051565" "" "https://banking-by3.s-fints-pt-by.de/fints30" "FinTS V3.0";
   E "75060150" "3.0" "https://fints2.atruvia.de/cgi-bin/hbciservlet" "FinTS V3.0";
   E "75061851" "3.0" "https://fints2.atruvia.de/cgi-bin/hbciservlet" "FinTS V3.0";
   E "75062026" "3.0" "https://fints2.atruvia.de/cgi-bin/hbciservlet" "FinTS V3.0";
   E "75069014" "3.0" "https://fints2.atruvia.de/cgi-bin/hbciservlet" "FinTS V3.0";
   E "75069038" "3.0" "https://fints2.atruvia.de/cgi-bin/hbciservlet" "FinTS V3.0";
   E "75069055" "3.0" "https://fints2.atruvia.de/cgi-bin/hbciservlet" "FinTS V3.0";
   E "75069061" "3.0" "https://fints2.atruvia.de/cgi-bin/hbciservlet" "FinTS V3.0";
   E "75069076" "3.0" "https://fints2.atruvia.de/cgi-bin/hbciservlet" "FinTS V3.0";
   E "75069078" "3.0" "https://fints2.atruvia.de/cgi-bin/hbciservlet" "FinTS V3.0";
   E "75069081" "3.0" "https://fints2.atruvia.de/cgi-bin/hbciservlet" "FinTS V3.0";
   E "75069110" "3.0" "https://fints2.atruvia.de/cgi-bin/hbciservlet" "FinTS V3.0";
   E "75069171" "3.0" "https://fints2.atruvia.de/cgi-bin/hbciservlet" "FinTS V3.0";
   E "75070013" "3.0" "https://fints.deutsche-bank.de/" "FinTS V3.0";
   E "75070013" "3.0" "https://fints.deutsche-bank.de/" "FinTS V3.0";
   E "75070013" "3.0" "https://fints.deutsche-bank.de/" "FinTS V3.0";
   E "75070013" "3.0" "https://fints.deutsche-bank.de/" "FinTS V3.0";
   E "75070024" "3.0" "https://fints.deutsche-bank.de/" "FinTS V3.0";
   E "75070024" "3.0" "https://fints.deutsche-bank.de/" "FinTS V3.0";
   E "75070024" "3.0" "https://fints.deutsche-bank.de/" "FinTS V3.0";
   E "75070024" "3.0" "https://fints.deutsche-bank.de/" "FinTS V3.0"].
(** bankinfo/data.go:30006-32505 *)
Definition table_12 : list bank_info :=
  [E "75090000" "3.0" "https://fints2.atruvia.de/cgi-bin/hbciservlet" "FinTS V3.0";
   E "75090300" "3.0" "https://fints2.atruvia.de/cgi-bin/hbciservlet" "FinTS V3.0";
   E "75090500" "" "https://fints.bankingonline.de/fints/FinTs30PinTanHttpGate" "FinTS V3.0";
   E "75090900" "" "https://fints2.atruvia.de/cgi-bin/hbciservlet" "FinTS V3.0";
   E "75091400" "3.0" "https://fints2.atruvia.de/cgi-bin/hbciservlet" "FinTS V3.0";
   E "75220070" "3.0" "https://hbci-01.hypovereinsbank.de/bank/hbci" "FinTS V3.0";
   E "75220070" "3.0" "https://hbci-01.hypovereinsbank.de/bank/hbci" "FinTS V3.0";
   E "75240000" "3.0" "" "";
   E "75250000" "" "https://banking-by4.s-fints-pt-by.de/fints30" "FinTS V3.0";
   E "75290000" "3.0" "https://fints2.atruvia.de/cgi-bin/hbciservlet" "FinTS V3.0";
   E "75320075" "3.0" "https://hbci-01.hypovereinsbank.de/bank/hbci" "FinTS V3.0";
   E "75320075" "3.0" "https://hbci-01.hypovereinsbank.de/bank/hbci" "FinTS V3.0";
   E "75320075" "3.0" "https://hbci-01.hypovereinsbank.de/bank/hbci" "FinTS V3.0";
   E "75320075" "3.0" "https://hbci-01.hypovereinsbank.de/bank/hbci" "FinTS V3.0";
   E "75340090" "3.0" "" "";
   E "75350000" "" "https://banking-by4.s-fints-pt-by.de/fints30" "FinTS V3.0";
   E "75351960" "" "https://banking-by4.s-fints-pt-by.de/fints30" "FinTS V3.0";
   E "75362039" "3.0" "https://fints2.atruvia.de/cgi-bin/hbciservlet" "FinTS V3.0";
   E "75390000" "3.0" "https://fints2.atruvia.de/cgi-bin/hbciservlet" "FinTS V3.0";
   E "76010085" "" "https://hbci.postbank.de/banking/hbci.do" "FinTS V3.0";
   E "76020070" "3.0" "https://hbci-01.hypovereinsbank.de/bank/hbci" "FinTS V3.0";
   E "76020070" "3.0" "https://hbci-01.hypovereinsbank.de/bank/hbci" "FinTS V3.0";
   E "76020070" "3.0" "https://hbci-01.hypovereinsbank.de/bank/hbci" "FinTS V3.0";
   E "76020070" "3.0" "https://hbci-01.hypovereinsbank.de/bank/hbci" "FinTS V3.0";
   E "76020070" "3.0" "https://hbci-01.hypovereinsbank.de/bank/hbci" "FinTS V3.0";
   E "76020070" "3.0" "https://hbci-01.hypovereinsbank.de/bank/hbci" "FinTS V3.0";
   E "76020070" "3.0" "https://hbci-01.hypovereinsbank.de/bank/hbci" "FinTS V3.0";
   E "76020070" "3.0" "https://hbci-01.hypovereinsbank.de/bank/hbci" "FinTS V3.0";
   E "76020099" "3.0" "https://hbci-01.hypovereinsbank.de/bank/hbci" "FinTS V3.0";
   E "76026000" "" "https://fints.norisbank.de/" "FinTS V3.0";
   E "76030080" "" "https://brokerage-hbci.consorsbank.de/hbci" "FinTS V3.0";
   E "76030600" "3.0" "https://www.bv-activebanking.de/hbciTunnel/hbciTransfer.jsp" "FinTS V3.0";
   E "76035000" "3.0" "https://fints2.atruvia.de/cgi-bin/hbciservlet" "FinTS V3.0";
   E "76040061" "3.0" "" "";
   E "76040061" "3.0" "" "";
   E "76040061" "3.0" "" "";
   E "76050101" "" "https://banking-by1.s-fints-pt-by.de/fints30" "FinTS V3.0";
   E "76052080" "" "https://banking-by4.s-fints-pt-by.de/fints30" "FinTS V3.0";
   E "76061025" "3.0" "https://fints2.atruvia.de/cgi-bin/hbciservlet" "FinTS V3.0";
   E "76061482" "3.0" "https://fints2.atruvia.de/cgi-bin/hbciservlet" "FinTS V3.0";
   E "76069369" "3.0" "https://fints2.atruvia.de/cgi-bin/hbciservlet" "FinTS V3.0";
   E "76069372" "3.0" "https://fints2.atruvia.de/cgi-bin/hbciservlet" "FinTS V3.0";
   E "76069378" "3.0" "https://fints2.atruvia.de/cgi-bin/hbciservlet" "FinTS V3.0";
   E "76069404" "3.0" "https://fints2.atruvia.de/cgi-bin/hbciservlet" "FinTS V3.0";
   E "76069410" "3.0" "https://fints2.atruvia.de/cgi-bin/hbciservlet" "FinTS V3.0";
   E "76069448" "3.0" "https://fints2.atruvia.de/cgi-bin/hbciservlet" "FinTS V3.0";
   E "76069449" "3.0" "https://fints2.atruvia.de/cgi-bin/hbciservlet" "FinTS V3.0";
   E "76069462" "3.0" "https://fints2.atruvia.de/cgi-bin/hbciservlet" "FinTS V3.0";
   E "76069486" "3.0" "https://fints2.atruvia.de/cgi-bin/hbciservlet" "FinTS V3.0";
   E "76069553" "3.0" "https://fints2.atruvia.de/cgi-bin/hbciservlet" "FinTS V3.0";
   E "76069559" "3.0" "https://fints2.atruvia.de/cgi-bin/hbciservlet" "FinTS V3.0";
   E "76069564" "3.0" "https://fints2.atruvia.de/cgi-bin/hbciservlet" "FinTS V3.0";
   E "76069576" "3.0" "https://fints2.atruvia.de/cgi-bin/hbciservlet" "FinTS V3.0";
   E "76069602" "3.0" "https://fints2.atruvia.de/cgi-bin/hbciservlet" "FinTS V3.0";
   E "76069611" "3.0" "https://fints2.atruvia.de/cgi-bin/hbciservlet" "FinTS V3.0";
   E "76069669" "3.0" "https://fints2.atruvia.de/cgi-bin/hbciservlet" "FinTS V3.0";
   E "76070012" "3.0" "https://fints.deutsche-bank.de/" "FinTS V3.0";
   E "76070012" "3.0" "https://fints.deutsche-bank.de/" "FinTS V3.0";
   E "76070012" "3.0" "https://fints.deutsche-bank.de/" "FinTS V3.0";
   E "76070012" "3.0" "https://fints.deutsche-bank.de/" "FinTS V3.0";
   E "76070012" "3.0" "https://fints.deutsche-bank.de/" "FinTS V3.0";
   E "76070012" "3.0" "https://fints.deutsche-bank.de/" "FinTS V3.0";
   E "76070012" "3.0" "https://fints.deutsche-bank.de/" "FinTS V3.0";
   E "76070012" "3.0" "https://fints.deutsche-bank.de/" "FinTS V3.0";
   E "76070012" "3.0" "https://fints.deutsche-bank.de/" "FinTS V3.0";
   E "76070012" "3.0" "https://fints.deutsche-bank.de/" "FinTS V3.0";
   E "76070012" "3.0" "https://fints.deutsche-bank.de/" "FinTS V3.0";
   E "76070012" "3.0" "https://fints.deutsche-bank.de/" "FinTS V3.0";
   E "76070012" "3.0" "https://fints.deutsche-bank.de/" "FinTS V3.0";
   E "76070012" "3.0" "https://fints.deutsche-bank.de/" "FinTS V3.0";
   E "76070012" "3.0" "https://fints.deutsche-bank.de/" "FinTS V3.0";
   E "76070012" "3.0" "https://fints.deutsche-bank.de/" "FinTS V3.0";
   E "76070024" "3.0" "https://fints.deutsche-bank.de/" "FinTS V3.0";
   E "76070024" "3.0" "https://fints.deutsche-bank.de/" "FinTS V3.0";
   E "76070024" "3.0" "https://fints.deutsche-bank.de/" "FinTS V3.0";
   E "76070024" "3.0" "https://fints.deutsche-bank.de/" "FinTS V3.0";
   E "76070024" "3.0" "https://fints.deutsche-bank.de/" "FinTS V3.0";
   E "76070024" "3.0" "https://fints.deutsche-bank.de/" "FinTS V3.0";
   E "76070024" "3.0" "https://fints.deutsche-bank.de/" "FinTS V3.0";
   E "76070024" "3.0" "https://fints.deutsche-bank.de/" "FinTS V3.0";
   E "76070024" "3.0" "https://fints.deutsche-bank.de/" "FinTS V3.0";
   E "76070024" "3.0" "https://fints.deutsche-bank.de/" "FinTS V3.0";
   E "76070024" "3.0" "https://fints.deutsche-bank.de/" "FinTS V3.0";
   E "76070024" "3.0" "https://fints.deutsche-bank.de/" "FinTS V3.0";
   E "76070024" "3.0" "https://fints.deutsche-bank.de/" "FinTS V3.0";
   E "76070024" "3.0" "https://fints.deutsche-bank.de/" "FinTS V3.0";
   E "76070024" "3.0" "https://fints.deutsche-bank.de/" "FinTS V3.0";
   E "76070024" "3.0" "https://fints.deutsche-bank.de/" "FinTS V3.0";
   E "76090400" "3.0" "https://fints2.atruvia.de/cgi-bin/hbciservlet" "FinTS V3.0";
   E "76090500" "" "https://fints.bankingonline.de/fints/FinTs30PinTanHttpGate" "FinTS V3.0";
   E "76090900" "" "https://fints2.atruvia.de/cgi-bin/hbciservlet" "FinTS V3.0";
   E "76211900" "3.0" "https://fints2.atruvia.de/cgi-bin/hbciservlet" "FinTS V3.0";
   E "76220073" "3.0" "https://hbci-01.hypovereinsbank.de/bank/hbci" "FinTS V3.0";
   E "76220073" "3.0" "https://hbci-01.hypovereinsbank.de/bank/hbci" "FinTS V3.0";
   E "76220073" "3.0" "https://hbci-01.hypovereinsbank.de/bank/hbci" "FinTS V3.0";
   E "76220073" "3.0" "https://hbci-01.hypovereinsbank.de/bank/hbci" "FinTS V3.0";
   E "76240011" "3.0" "" "";
   E "76240011" "3.0" "" "";
   E "76250000" "" "https://banking-by1.s-fints-pt-by.de/fints30" "FinTS V3.0";
   E "76251020" "" "https://banking-by1.s-fints-pt-by.de/fints30" "FinTS V3.0";
   E "76320072" "3.0" "https://hbci-01.hypovereinsbank.de/bank/hbci" "FinTS V3.0";
   E "76320072" "3.0" "https://hbci-01.hypovereinsbank.de/bank/hbci" "FinTS V3.0";
   E "76320072" "3.0" "https://hbci-01.hypovereinsbank.de/bank/hbci" "FinTS V3.0";
   E "76320072" "3.0" "https://hbci-01.hypovereinsbank.de/bank/hbci" "FinTS V3.0";
   E "76320072" "3.0" "https://hbci-01.hypovereinsbank.de/bank/hbci" "FinTS V3.0";
   E "76320072" "3.0" "https://hbci-01.hypovereinsbank.de/bank/hbci" "FinTS V3.0";
   E "76320072" "3.0" "https://hbci-01.hypovereinsbank.de/bank/hbci" "FinTS V3.0";
   E "76340061" "3.0" "" "";
   E "76350000" "" "https://banking-by1.s-fints-pt-by.de/fints30" "FinTS V3.0";
   E "76351040" "" "https://banking-by4.s-fints-pt-by.de/fints30" "FinTS V3.0";
   E "76391000" "3.0" "https://fints2.atruvia.de/cgi-bin/hbciservlet" "FinTS V3.0";
   E "76420080" "3.0" "https://hbci-01.hypovereinsbank.de/bank/hbci" "FinTS V3.0";
   E "76420080" "3.0" "https://hbci-01.hypovereinsbank.de/bank/hbci" "FinTS V3.0";
   E "76450000" "" "https://banking-by1.s-fints-pt-by.de/fints30" "FinTS V3.0";
   E "76520071" "3.0" "https://hbci-01.hypovereinsbank.de/bank/hbci" "FinTS V3.0";
   E "76520071" "3.0" "https://hbci-01.hypovereinsbank.de/bank/hbci" "FinTS V3.0";
   E "76520071" "3.0" "https://hbci-01.hypovereinsbank.de/bank/hbci" "FinTS V3.0";
   E "76520071" "3.0" "https://hbci-01.hypovereinsbank.de/bank/hbci" "FinTS V3.0";
   E "76520071" "3.0" "https://hbci-01.hypovereinsbank.de/bank/hbci" "FinTS V3.0";
   E "76520071" "3.0" "https://hbci-01.hypovereinsbank.de/bank/hbci" "FinTS V3.0";
   E "76550000" "" "https://banking-by1.s-fints-pt-by.de/fints30" "FinTS V3.0";
   E "76551540" "" "https://banking-by1.s-fints-pt-by.de/fints30" "FinTS V3.0";
   E "76560060" "3.0" "https://fints2.atruvia.de/cgi-bin/hbciservlet" "FinTS V3.0";
   E "76561979" "3.0" "https://fints2.atruvia.de/cgi-bin/hbciservlet" "FinTS V3.0";
   E "76591000" "3.0" "https://fints2.atruvia.de/cgi-bin/hbciservlet" "FinTS V3.0";
   E "77020070" "3.0" "https://hbci-01.hypovereinsbank.de/bank/hbci" "FinTS V3.0";
   E "77020070" "3.0" "https://hbci-01.hypovereinsbank.de/bank/hbci" "FinTS V3.0";
   E "77020070" "3.0" "https://hbci-01.hypovereinsbank.de/bank/hbci" "FinTS V3.0";
   E "77040080" "3.0" "" "";
   E "77050000" "" "https://banking-by4.s-fints-pt-by.de/fints30" "FinTS V3.0";
   E "77061004" "3.0" "https://fints2.atruvia.de/cgi-bin/hbciservlet" "FinTS V3.0";
   E "77062014" "3.0" "https://fints2.atruvia.de/cgi-bin/hbciservlet" "FinTS V3.0";
   E "77062139" "3.0" "https://fints2.atruvia.de/cgi-bin/hbciservlet" "FinTS V3.0";
   E "77069044" "3.0" "https://fints2.atruvia.de/cgi-bin/hbciservlet" "FinTS V3.0";
   E "77069739" "3.0" "https://fints2.atruvia.de/cgi-bin/hbciservlet" "FinTS V3.0";
   E "77069764" "3.0" "https://fints2.atruvia.de/cgi-bin/hbciservlet" "FinTS V3.0";
   E "77069782" "3.0" "https://fints2.atruvia.de/cgi-bin/hbciservlet" "FinTS V3.0";
   E "77069868" "3.0" "https://fints2.atruvia.de/cgi-bin/hbciservlet" "FinTS V3.0";
   E "77069870" "3.0" "https://fints2.atruvia.de/cgi-bin/hbciservlet" "FinTS V3.0";
   E "77069906" "3.0" "https://fints2.atruvia.de/cgi-bin/hbciservlet" "FinTS V3.0";
   E "77091800" "3.0" "https://fints2.atruvia.de/cgi-bin/hbciservlet" "FinTS V3.0";
   E "77120073" "3.0" "https://hbci-01.hypovereinsbank.de/bank/hbci" "FinTS V3.0";
   E "77120073" "3.0" "https://hbci-01.hypovereinsbank.de/bank/hbci" "FinTS V3.0";
   E "77140061" "3.0" "" "";
   E "77150000" "" "https://banking-by4.s-fints-pt-by.de/fints30" "FinTS V3.0";
   E "77190000" "3.0" "https://fints2.atruvia.de/cgi-bin/hbciservlet" "FinTS V3.0";
   E "77190000" "3.0" "https://fints2.atruvia.de/cgi-bin/hbciservlet" "FinTS V3.0";
   E "77320072" "3.0" "https://hbci-01.hypovereinsbank.de/bank/hbci" "FinTS V3.0";
   E "77320072" "3.0" "https://hbci-01.hypovereinsbank.de/bank/hbci" "FinTS V3.0";
   E "77320072" "3.0" "https://hbci-01.hypovereinsbank.de/bank/hbci" "FinTS V3.0";
   E "77340076" "3.0" "" "";
   E "77350110" "" "https://banking-by4.s-fints-pt-by.de/fints30" "FinTS V3.0";
   E "77365792" "3.0" "https://fints2.atruvia.de/cgi-bin/hbciservlet" "FinTS V3.0";
   E "78020070" "3.0" "https://hbci-01.hypovereinsbank.de/bank/hbci" "FinTS V3.0";
   E "78020070" "3.0" "https://hbci-01.hypovereinsbank.de/bank/hbci" "FinTS V3.0";
   E "78020070" "3.0" "https://hbci-01.hypovereinsbank.de/bank/hbci" "FinTS V3.0";
   E "78020070" "3.0" "https://hbci-01.hypovereinsbank.de/bank/hbci" "FinTS V3.0";
   E "78020070" "3.0" "https://hbci-01.hypovereinsbank.de/bank/hbci" "FinTS V3.0";
   E "78020070" "3.0" "https://hbci-01.hypovereinsbank.de/bank/hbci" "FinTS V3.0";
   E "78020070" "3.0" "https://hbci-01.hypovereinsbank.de/bank/hbci" "FinTS V3.0";
   E "78040081" "3.0" "" "";
   E "78050000" "" "https://banking-by4.s-fints-pt-by.de/fints30" "FinTS V3.0";
   E "78060896" "3.0" "https://fints2.atruvia.de/cgi-bin/hbciservlet" "FinTS V3.0";
   E "78160069" "3.0" "https://fints2.atruvia.de/cgi-bin/hbciservlet" "FinTS V3.0";
   E "78320076" "3.0" "https://hbci-01.hypovereinsbank.de/bank/hbci" "FinTS V3.0";
   E "78320076" "3.0" "https://hbci-01.hypovereinsbank.de/bank/hbci" "FinTS V3.0";
   E "78320076" "3.0" "https://hbci-01.hypovereinsbank.de/bank/hbci" "FinTS V3.0";
   E "78320076" "3.0" "https://hbci-01.hypovereinsbank.de/bank/hbci" "FinTS V3.0";
   E "78340091" "3.0" "" "";
   E "78340091" "3.0" "" "";
   E "78350000" "" "https://banking-by4.s-fints-pt-by.de/fints30" "FinTS V3.0";
   E "78360000" "3.0" "https://fints2.atruvia.de/cgi-bin/hbciservlet" "FinTS V3.0";
   E "79020076" "3.0" "https://hbci-01.hypovereinsbank.de/bank/hbci" "FinTS V3.0";
   E "79020076" "3.0" "https://hbci-01.hypovereinsbank.de/bank/hbci" "FinTS V3.0";
   E "79020076" "3.0" "https://hbci-01.hypovereinsbank.de/bank/hbci" "FinTS V3.0";
   E "79020076" "3.0" "https://hbci-01.hypovereinsbank.de/bank/hbci" "FinTS V3.0";
   E "79020076" "3.0" "https://hbci-01.hypovereinsbank.de/bank/hbci" "FinTS V3.0";
   E "79020076" "3.0" "https://hbci-01.hypovereinsbank.de/bank/hbci" "FinTS V3.0";
   E "79020076" "3.0" "https://hbci-01.hypovereinsbank.de/bank/hbci" "FinTS V3.0";
   E "79020076" "3.0" "https://hbci-01.hypovereinsbank.de/bank/hbci" "FinTS V3.0";
   E "79030001" "3.0" "https://fints1.atruvia.de/cgi-bin/hbciservlet" "FinTS V3.0";
   E "79030001" "3.0" "https://fints1.atruvia.de/cgi-bin/hbciservlet" "FinTS V3.0";
   E "79030001" "3.0" "https://fints1.atruvia.de/cgi-bin/hbciservlet" "FinTS V3.0";
   E "79030001" "3.0" "https://fints1.atruvia.de/cgi-bin/hbciservlet" "FinTS V3.0";
   E "79030001" "3.0" "https://fints1.atruvia.de/cgi-bin/hbciservlet" "FinTS V3.0";
   E "79030001" "3.0" "https://fints1.atruvia.de/cgi-bin/hbciservlet" "FinTS V3.0";
   E "79030001" "3.0" "https://fints1.atruvia.de/cgi-bin/hbciservlet" "FinTS V3.0";
   E "79030001" "3.0" "https://fints1.atruvia.de/cgi-bin/hbciservlet" "FinTS V3.0";
   E "79030001" "3.0" "https://fints1.atruvia.de/cgi-bin/hbciservlet" "FinTS V3.0";
   E "79030001" "3.0" "https://fints1.atruvia.de/cgi-bin/hbciservlet" "FinTS V3.0";
   E "79030001" "3.0" "https://fints1.atruvia.de/cgi-bin/hbciservlet" "FinTS V3.0";
   E "79030001" "3.0" "https://fints1.atruvia.de/cgi-bin/hbciservlet" "FinTS V3.0";
   E "79030001" "3.0" "https://fints1.atruvia.de/cgi-bin/hbciservlet" "FinTS V3.0";
   E "79030001" "3.0" "https://fints1.atruvia.de/cgi-bin/hbciservlet" "FinTS V3.0";
   E "79030001" "3.0" "https://fints1.atruvia.de/cgi-bin/hbciservlet" "FinTS V3.0";
   E "79040047" "3.0" "" "";
   E "79040047" "3.0" "" "";
   E "79050000" "" "https://banking-by7.s-fints-pt-by.de/fints30" "FinTS V3.0";
   E "79063122" "3.0" "https://fints2.atruvia.de/cgi-bin/hbciservlet" "FinTS V3.0";
   E "79065028" "3.0" "https://fints2.atruvia.de/cgi-bin/hbciservlet" "FinTS V3.0";
   E "79069001" "3.0" "https://fints2.atruvia.de/cgi-bin/hbciservlet" "FinTS V3.0";
   E "79069031" "3.0" "https://fints2.atruvia.de/cgi-bin/hbciservlet" "FinTS V3.0";
   E "79069150" "3.0" "https://fints2.atruvia.de/cgi-bin/hbciservlet" "FinTS V3.0";
   E "79069165" "3.0" "https://fints2.atruvia.de/cgi-bin/hbciservlet" "FinTS V3.0";
   E "79069188" "3.0" "https://fints2.atruvia.de/cgi-bin/hbciservlet" "FinTS V3.0";
   E "79069213" "3.0" "https://fints2.atruvia.de/cgi-bin/hbciservlet" "FinTS V3.0";
   E "79070016" "3.0" "https://fints.deutsche-bank.de/" "FinTS V3.0";
   E "79070016" "3.0" "https://fints.deutsche-bank.de/" "FinTS V3.0";
   E "79070016" "3.0" "https://fints.deutsche-bank.de/" "FinTS V3.0";
   E "79070024" "3.0" "https://fints.deutsche-bank.de/" "FinTS V3.0";
   E "79070024" "3.0" "https://fints.deutsche-bank.de/" "FinTS V3.0";
   E "79070024" "3.0" "https://fints.deutsche-bank.de/" "FinTS V3.0";
   E "79090000" "3.0" "https://fints2.atruvia.de/cgi-bin/hbciservlet" "FinTS V3.0";
   E "79190000" "3.0" "https://fints2.atruvia.de/cgi-bin/hbciservlet" "FinTS V3.0";
   E "79320075" "3.0" "https://hbci-01.hypovereinsbank.de/bank/hbci" "FinTS V3.0";
   E "79320075" "3.0" "https://hbci-01.hypovereinsbank.de/bank/hbci" "FinTS V3.0";
   E "79320075" "3.0" "https://hbci-01.hypovereinsbank.de/bank/hbci" "FinTS V3.0";
   E "79320075" "3.0" "https://hbci-01.hypovereinsbank.de/bank/hbci" "FinTS V3.0";
   E "79320075" "3.0" "https://hbci-01.hypovereinsbank.de/bank/hbci" "FinTS V3.0";
   E "79320075" "3.0" "https://hbci-01.hypovereinsbank.de/bank/hbci" "FinTS V3.0";
   E "79320075" "3.0" "https://hbci-01.hypovereinsbank.de/bank/hbci" "FinTS V3.0";
   E "79320075" "3.0" "https://hbci-01.hypovereinsbank.de/bank/hbci" "FinTS V3.0";
   E "79320075" "3.0" "https://hbci-01.hypovereinsbank.de/bank/hbci" "FinTS V3.0";
   E "79320075" "3.0" "https://hbci-01.hypovereinsbank.de/bank/hbci" "FinTS V3.0";
   E "79320075" "3.0" "https://hbci-01.hypovereinsbank.de/bank/hbci" "FinTS V3.0";
   E "79330111" "3.0" "https://fints2.atruvia.de/cgi-bin/hbciservlet" "FinTS V3.0";
   E "79340054" "3.0" "" "";
   E "79340054" "3.0" "" "";
   E "79350101" "" "https://banking-by7.s-fints-pt-by.de/fints30" "FinTS V3.0";
   E "79351010" "" "https://banking-by7.s-fints-pt-by.de/fints30" "FinTS V3.0";
   E "79353090" "" "https://banking-by7.s-fints-pt-by.de/fints30" "FinTS V3.0";
   E "79362081" "3.0" "https://fints2.atruvia.de/cgi-bin/hbciservlet" "FinTS V3.0";
   E "79363151" "3.0" "https://fints2.atruvia.de/cgi-bin/hbciservlet" "FinTS V3.0";
   E "79520070" "3.0" "https://hbci-01.hypovereinsbank.de/bank/hbci" "FinTS V3.0";
   E "79520070" "3.0" "https://hbci-01.hypovereinsbank.de/bank/hbci" "FinTS V3.0";
   E "79520070" "3.0" "https://hbci-01.hypovereinsbank.de/bank/hbci" "FinTS V3.0";
   E "79520070" "3.0" "https://hbci-01.hypovereinsbank.de/bank/hbci" "FinTS V3.0";
   E "79520070" "3.0" "https://hbci-01.hypovereinsbank.de/bank/hbci" "FinTS V3.0";
   E "79520070" "3.0" "https://hbci-01.hypovereinsbank.de/bank/hbci" "FinTS V3.0";
   E "79520070" "3.0" "https://hbci-01.hypovereinsbank.de/bank/hbci" "FinTS V3.0";
   E "79540049" "3.0" "" "";
   E "79550000" "" "https://banking-by7.s-fints-pt-by.de/fints30" "FinTS V3.0";
   E "79562514" "3.0" "https://fints2.atruvia.de/cgi-bin/hbciservlet" "FinTS V3.0";
   E "79566545" "3.0" "https://fints2.atruvia.de/cgi-bin/hbciservlet" "FinTS V3.0";
   E "79570024" "3.0" "https://fints.deutsche-bank.de/" "FinTS V3.0";
   E "79570024" "3.0" "https://fints.deutsche-bank.de/" "FinTS V3.0";
   E "79570051" "3.0" "https://fints.deutsche-bank.de/" "FinTS V3.0";
   E "79570051" "3.0" "https://fints.deutsche-bank.de/" "FinTS V3.0";
   E "79650000" "" "https://banking-by7.s-fints-pt-by.de/fints30" "FinTS V3.0";
   E "79665540" "3.0" "https://fints2.atruvia.de/cgi-bin/hbciservlet" "FinTS V3.0"].
(** bankinfo/data.go:32506-35005 *)
Definition table_13 : list bank_info :=
  [E "80020086" "3.0" "https://hbci-01.hypovereinsbank.de/bank/hbci" "FinTS V3.0";
   E "80020086" "3.0" "https://hbci-01.hypovereinsbank.de/bank/hbci" "FinTS V3.0";
   E "80020086" "3.0" "https://hbci-01.hypovereinsbank.de/bank/hbci" "FinTS V3.0";
   E "80020086" "3.0" "https://hbci-01.hypovereinsbank.de/bank/hbci" "FinTS V3.0";
   E "80020087" "3.0" "https://hbci-01.hypovereinsbank.de/bank/hbci" "FinTS V3.0";
   E "80020087" "3.0" "https://hbci-01.hypovereinsbank.de/bank/hbci" "FinTS V3.0";
   E "80040000" "3.0" "" "";
   E "80040000" "3.0" "" "";
   E "80040000" "3.0" "" "";
   E "80040000" "3.0" "" "";
   E "80040000" "3.0" "" "";
   E "80040000" "3.0" "" "";
   E "80053000" "" "https://banking-st5.s-fints-pt-st.de/fints30" "FinTS V3.0";
   E "80053572" "" "https://banking-st5.s-fints-pt-st.de/fints30" "FinTS V3.0";
   E "80053722" "" "https://banking-st5.s-fints-pt-st.de/fints30" "FinTS V3.0";
   E "80053762" "" "https://banking-st5.s-fints-pt-st.de/fints30" "FinTS V3.0";
   E "80055008" "" "https://banking-st5.s-fints-pt-st.de/fints30" "FinTS V3.0";
   E "80055500" "" "https://banking-st5.s-fints-pt-st.de/fints30" "FinTS V3.0";
   E "80063508" "3.0" "https://fints1.atruvia.de/cgi-bin/hbciservlet" "FinTS V3.0";
   E "80063558" "3.0" "https://fints1.atruvia.de/cgi-bin/hbciservlet" "FinTS V3.0";
   E "80063598" "3.0" "https://fints1.atruvia.de/cgi-bin/hbciservlet" "FinTS V3.0";
   E "80063628" "3.0" "https://fints1.atruvia.de/cgi-bin/hbciservlet" "FinTS V3.0";
   E "80063648" "3.0" "https://fints1.atruvia.de/cgi-bin/hbciservlet" "FinTS V3.0";
   E "80093574" "3.0" "https://fints1.atruvia.de/cgi-bin/hbciservlet" "FinTS V3.0";
   E "80093784" "3.0" "https://fints1.atruvia.de/cgi-bin/hbciservlet" "FinTS V3.0";
   E "80550101" "" "https://banking-st5.s-fints-pt-st.de/fints30" "FinTS V3.0";
   E "81040000" "3.0" "" "";
   E "81040000" "3.0" "" "";
   E "81040000" "3.0" "" "";
   E "81040000" "3.0" "" "";
   E "81040000" "3.0" "" "";
   E "81040000" "3.0" "" "";
   E "81040000" "3.0" "" "";
   E "81040000" "3.0" "" "";
   E "81040000" "3.0" "" "";
   E "81040000" "3.0" "" "";
   E "81050555" "" "https://banking-st5.s-fints-pt-st.de/fints30" "FinTS V3.0";
   E "81052000" "" "https://banking-st5.s-fints-pt-st.de/fints30" "FinTS V3.0";
   E "81053272" "" "https://banking-st5.s-fints-pt-st.de/fints30" "FinTS V3.0";
   E "81055000" "" "https://banking-st5.s-fints-pt-st.de/fints30" "FinTS V3.0";
   E "81055555" "" "https://banking-st5.s-fints-pt-st.de/fints30" "FinTS V3.0";
   E "81063028" "3.0" "https://fints1.atruvia.de/cgi-bin/hbciservlet" "FinTS V3.0";
   E "81063238" "3.0" "https://fints1.atruvia.de/cgi-bin/hbciservlet" "FinTS V3.0";
   E "81069052" "3.0" "https://fints1.atruvia.de/cgi-bin/hbciservlet" "FinTS V3.0";
   E "81070000" "3.0" "https://fints.deutsche-bank.de/" "FinTS V3.0";
   E "81070000" "3.0" "https://fints.deutsche-bank.de/" "FinTS V3.0";
   E "81070000" "3.0" "https://fints.deutsche-bank.de/" "FinTS V3.0";
   E "81070000" "3.0" "https://fints.deutsche-bank.de/" "FinTS V3.0";
   E "81070000" "3.0" "https://fints.deutsche-bank.de/" "FinTS V3.0";
   E "81070000" "3.0" "https://fints.deutsche-bank.de/" "FinTS V3.0";
   E "81070000" "3.0" "https://fints.deutsche-bank.de/" "FinTS V3.0";
   E "81070000" "3.0" "https://fints.deutsche-bank.de/" "FinTS V3.0";
   E "81070000" "3.0" "https://fints.deutsche-bank.de/" "FinTS V3.0";
   E "81070000" "3.0" "https://fints.deutsche-bank.de/" "FinTS V3.0";
   E "81070000" "3.0" "https://fints.deutsche-bank.de/" "FinTS V3.0";
   E "81070000" "3.0" "https://fints.deutsche-bank.de/" "FinTS V3.0";
   E "81070000" "3.0" "https://fints.deutsche-bank.de/" "FinTS V3.0";
   E "81070000" "3.0" "https://fints.deutsche-bank.de/" "FinTS V3.0";
   E "81070024" "3.0" "https://fints.deutsche-bank.de/" "FinTS V3.0";
   E "81070024" "3.0" "https://fints.deutsche-bank.de/" "FinTS V3.0";
   E "81070024" "3.0" "https://fints.deutsche-bank.de/" "FinTS V3.0";
   E "81070024" "3.0" "https://fints.deutsche-bank.de/" "FinTS V3.0";
   E "81070024" "3.0" "https://fints.deutsche-bank.de/" "FinTS V3.0";
   E "81070024" "3.0" "https://fints.deutsche-bank.de/" "FinTS V3.0";
   E "81070024" "3.0" "https://fints.deutsche-bank.de/" "FinTS V3.0";
   E "81070024" "3.0" "https://fints.deutsche-bank.de/" "FinTS V3.0";
   E "81070024" "3.0" "https://fints.deutsche-bank.de/" "FinTS V3.0";
   E "81070024" "3.0" "https://fints.deutsche-bank.de/" "FinTS V3.0";
   E "81070024" "3.0" "https://fints.deutsche-bank.de/" "FinTS V3.0";
   E "81070024" "3.0" "https://fints.deutsche-bank.de/" "FinTS V3.0";
   E "81070024" "3.0" "https://fints.deutsche-bank.de/" "FinTS V3.0";
   E "81070024" "3.0" "https://fints.deutsche-bank.de/" "FinTS V3.0";
   E "81093034" "3.0" "https://fints1.atruvia.de/cgi-bin/hbciservlet" "FinTS V3.0";
   E "81093054" "3.0" "https://fints1.atruvia.de/cgi-bin/hbciservlet" "FinTS V3.0";
   E "81093274" "3.0" "https://fints1.atruvia.de/cgi-bin/hbciservlet" "FinTS V3.0";
   E "82020086" "3.0" "https://hbci-01.hypovereinsbank.de/bank/hbci" "FinTS V3.0";
   E "82020087" "3.0" "https://hbci-01.hypovereinsbank.de/bank/hbci" "FinTS V3.0";
   E "82020088" "3.0" "https://hbci-01.hypovereinsbank.de/bank/hbci" "FinTS V3.0";
   E "82040000" "3.0" "" "";
   E "82040000" "3.0" "" "";
   E "82040000" "3.0" "" "";
   E "82040000" "3.0" "" "";
   E "82040000" "3.0" "" "";
   E "82040000" "3.0" "" "";
   E "82040000" "3.0" "" "";
   E "82040000" "3.0" "" "";
   E "82040000" "3.0" "" "";
   E "82040000" "3.0" "" "";
   E "82040000" "3.0" "" "";
   E "82040000" "3.0" "" "";
   E "82040000" "3.0" "" "";
   E "82040000" "3.0" "" "";
   E "82040000" "3.0" "" "";
   E "82051000" "" "https://banking-th5.s-fints-pt-th.de/fints30" "FinTS V3.0";
   E "82052020" "" "https://banking-th5.s-fints-pt-th.de/fints30" "FinTS V3.0";
   E "82054052" "" "https://banking-th5.s-fints-pt-th.de/fints30" "FinTS V3.0";
   E "82055000" "" "https://banking-th5.s-fints-pt-th.de/fints30" "FinTS V3.0";
   E "82056060" "" "https://banking-th5.s-fints-pt-th.de/fints30" "FinTS V3.0";
   E "82057070" "" "https://banking-th5.s-fints-pt-th.de/fints30" "FinTS V3.0";
   E "82064038" "3.0" "https://fints2.atruvia.de/cgi-bin/hbciservlet" "FinTS V3.0";
   E "82064088" "3.0" "https://fints2.atruvia.de/cgi-bin/hbciservlet" "FinTS V3.0";
   E "82064188" "3.0" "https://fints2.atruvia.de/cgi-bin/hbciservlet" "FinTS V3.0";
   E "82064228" "3.0" "https://fints2.atruvia.de/cgi-bin/hbciservlet" "FinTS V3.0";
   E "82070000" "3.0" "https://fints.deutsche-bank.de/" "FinTS V3.0";
   E "82070000" "3.0" "https://fints.deutsche-bank.de/" "FinTS V3.0";
   E "82070000" "3.0" "https://fints.deutsche-bank.de/" "FinTS V3.0";
   E "82070000" "3.0" "https://fints.deutsche-bank.de/" "FinTS V3.0";
   E "82070000" "3.0" "https://fints.deutsche-bank.de/" "FinTS V3.0";
   E "82070000" "3.0" "https://fints.deutsche-bank.de/" "FinTS V3.0";
   E "82070000" "3.0" "https://fints.deutsche-bank.de/" "FinTS V3.0";
   E "82070000" "3.0" "https://fints.deutsche-bank.de/" "FinTS V3.0";
   E "82070000" "3.0" "https://fints.deutsche-bank.de/" "FinTS V3.0";
   E "82070000" "3.0" "https://fints.deutsche-bank.de/" "FinTS V3.0";
   E "82070000" "3.0" "https://fints.deutsche-bank.de/" "FinTS V3.0";
   E "82070000" "3.0" "https://fints.deutsche-bank.de/" "FinTS V3.0";
   E "82070000" "3.0" "https://fints.deutsche-bank.de/" "FinTS V3.0";
   E "82070000" "3.0" "https://fints.deutsche-bank.de/" "FinTS V3.0";
   E "82070000" "3.0" "https://fints.deutsche-bank.de/" "FinTS V3.0";
   E "82070000" "3.0" "https://fints.deutsche-bank.de/" "FinTS V3.0";
   E "82070000" "3.0" "https://fints.deutsche-bank.de/" "FinTS V3.0";
   E "82070000" "3.0" "https://fints.deutsche-bank.de/" "FinTS V3.0";
   E "82070000" "3.0" "https://fints.deutsche-bank.de/" "FinTS V3.0";
   E "82070000" "3.0" "https://fints.deutsche-bank.de/" "FinTS V3.0";
   E "82070000" "3.0" "https://fints.deutsche-bank.de/" "FinTS V3.0";
   E "82070000" "3.0" "https://fints.deutsche-bank.de/" "FinTS V3.0";
   E "82070000" "3.0" "https://fints.deutsche-bank.de/" "FinTS V3.0";
   E "82070000" "3.0" "https://fints.deutsche-bank.de/" "FinTS V3.0";
   E "82070000" "3.0" "https://fints.deutsche-bank.de/" "FinTS V3.0";
   E "82070000" "3.0" "https://fints.deutsche-bank.de/" "FinTS V3.0";
   E "82070000" "3.0" "https://fints.deutsche-bank.de/" "FinTS V3.0";
   E "82070000" "3.0" "https://fints.deutsche-bank.de/" "FinTS V3.0";
   E "82070000" "3.0" "https://fints.deutsche-bank.de/" "FinTS V3.0";
   E "82070024" "3.0" "https://fints.deutsche-bank.de/" "FinTS V3.0";
   E "82070024" "3.0" "https://fints.deutsche-bank.de/" "FinTS V3.0";
   E "82070024" "3.0" "https://fints.deutsche-bank.de/" "FinTS V3.0";
   E "82070024" "3.0" "https://fints.deutsche-bank.de/" "FinTS V3.0";
   E "82070024" "3.0" "https://fints.deutsche-bank.de/" "FinTS V3.0";
   E "82070024" "3.0" "https://fints.deutsche-bank.de/" "FinTS V3.0";
   E "82070024" "3.0" "https://fints.deutsche-bank.de/" "FinTS V3.0";
   E "82070024" "3.0" "https://fints.deutsche-bank.de/" "FinTS V3.0";
   E "82070024" "3.0" "https://fints.deutsche-bank.de/" "FinTS V3.0";
   E "82070024" "3.0" "https://fints.deutsche-bank.de/" "FinTS V3.0";
   E "82070024" "3.0" "https://fints.deutsche-bank.de/" "FinTS V3.0";
   E "82070024" "3.0" "https://fints.deutsche-bank.de/" "FinTS V3.0";
   E "82070024" "3.0" "https://fints.deutsche-bank.de/" "FinTS V3.0";
   E "82070024" "3.0" "https://fints.deutsche-bank.de/" "FinTS V3.0";
   E "82070024" "3.0" "https://fints.deutsche-bank.de/" "FinTS V3.0";
   E "82070024" "3.0" "https://fints.deutsche-bank.de/" "FinTS V3.0";
   E "82070024" "3.0" "https://fints.deutsche-bank.de/" "FinTS V3.0";
   E "82070024" "3.0" "https://fints.deutsche-bank.de/" "FinTS V3.0";
   E "82070024" "3.0" "https://fints.deutsche-bank.de/" "FinTS V3.0";
   E "82070024" "3.0" "https://fints.deutsche-bank.de/" "FinTS V3.0";
   E "82070024" "3.0" "https://fints.deutsche-bank.de/" "FinTS V3.0";
   E "82070024" "3.0" "https://fints.deutsche-bank.de/" "FinTS V3.0";
   E "82070024" "3.0" "https://fints.deutsche-bank.de/" "FinTS V3.0";
   E "82070024" "3.0" "https://fints.deutsche-bank.de/" "FinTS V3.0";
   E "82070024" "3.0" "https://fints.deutsche-bank.de/" "FinTS V3.0";
   E "82070024" "3.0" "https://fints.deutsche-bank.de/" "FinTS V3.0";
   E "82070024" "3.0" "https://fints.deutsche-bank.de/" "FinTS V3.0";
   E "82070024" "3.0" "https://fints.deutsche-bank.de/" "FinTS V3.0";
   E "82070024" "3.0" "https://fints.deutsche-bank.de/" "FinTS V3.0";
   E "82094054" "3.0" "https://fints2.atruvia.de/cgi-bin/hbciservlet" "FinTS V3.0";
   E "83020086" "3.0" "https://hbci-01.hypovereinsbank.de/bank/hbci" "FinTS V3.0";
   E "83020086" "3.0" "https://hbci-01.hypovereinsbank.de/bank/hbci" "FinTS V3.0";
   E "83020087" "3.0" "https://hbci-01.hypovereinsbank.de/bank/hbci" "FinTS V3.0";
   E "83020088" "3.0" "https://hbci-01.hypovereinsbank.de/bank/hbci" "FinTS V3.0";
   E "83040000" "3.0" "" "";
   E "83040000" "3.0" "" "";
   E "83040000" "3.0" "" "";
   E "83050000" "" "https://banking-th5.s-fints-pt-th.de/fints30" "FinTS V3.0";
   E "83050200" "" "https://banking-th5.s-fints-pt-th.de/fints30" "FinTS V3.0";
   E "83050303" "" "https://banking-th5.s-fints-pt-th.de/fints30" "FinTS V3.0";
   E "83050505" "" "https://banking-th5.s-fints-pt-th.de/fints30" "FinTS V3.0";
   E "83053030" "" "https://banking-th5.s-fints-pt-th.de/fints30" "FinTS V3.0";
   E "83064488" "3.0" "https://fints2.atruvia.de/cgi-bin/hbciservlet" "FinTS V3.0";
   E "83065408" "3.0" "https://fints2.atruvia.de/cgi-bin/hbciservlet" "FinTS V3.0";
   E "83065410" "3.0" "https://fints2.atruvia.de/cgi-bin/hbciservlet" "FinTS V3.0";
   E "83094454" "3.0" "https://fints2.atruvia.de/cgi-bin/hbciservlet" "FinTS V3.0";
   E "83094494" "3.0" "https://fints1.atruvia.de/cgi-bin/hbciservlet" "FinTS V3.0";
   E "83094495" "3.0" "https://fints1.atruvia.de/cgi-bin/hbciservlet" "FinTS V3.0";
   E "84020087" "3.0" "https://hbci-01.hypovereinsbank.de/bank/hbci" "FinTS V3.0";
   E "84040000" "3.0" "" "";
   E "84050000" "" "https://banking-th5.s-fints-pt-th.de/fints30" "FinTS V3.0";
   E "84051010" "" "https://banking-th5.s-fints-pt-th.de/fints30" "FinTS V3.0";
   E "84054040" "" "https://banking-th5.s-fints-pt-th.de/fints30" "FinTS V3.0";
   E "84054722" "" "https://banking-th5.s-fints-pt-th.de/fints30" "FinTS V3.0";
   E "84055050" "" "https://banking-th5.s-fints-pt-th.de/fints30" "FinTS V3.0";
   E "84064798" "3.0" "https://fints2.atruvia.de/cgi-bin/hbciservlet" "FinTS V3.0";
   E "84094754" "3.0" "https://fints2.atruvia.de/cgi-bin/hbciservlet" "FinTS V3.0";
   E "84094814" "3.0" "https://fints2.atruvia.de/cgi-bin/hbciservlet" "FinTS V3.0";
   E "85020086" "3.0" "https://hbci-01.hypovereinsbank.de/bank/hbci" "FinTS V3.0";
   E "85020086" "3.0" "https://hbci-01.hypovereinsbank.de/bank/hbci" "FinTS V3.0";
   E "85020086" "3.0" "https://hbci-01.hypovereinsbank.de/bank/hbci" "FinTS V3.0";
   E "85040000" "3.0" "" "";
   E "85040000" "3.0" "" "";
   E "85040000" "3.0" "" "";
   E "85040000" "3.0" "" "";
   E "85040000" "3.0" "" "";
   E "85040000" "3.0" "" "";
   E "85040000" "3.0" "" "";
   E "85040000" "3.0" "" "";
   E "85050100" "" "https://banking-sn5.s-fints-pt-sn.de/fints30" "FinTS V3.0";
   E "85050300" "" "https://banking-sn5.s-fints-pt-sn.de/fints30" "FinTS V3.0";
   E "85055000" "" "https://banking-sn5.s-fints-pt-sn.de/fints30" "FinTS V3.0";
   E "85060000" "3.0" "https://fints2.atruvia.de/cgi-bin/hbciservlet" "FinTS V3.0";
   E "85090000" "3.0" "https://fints2.atruvia.de/cgi-bin/hbciservlet" "FinTS V3.0";
   E "85094984" "3.0" "https://fints2.atruvia.de/cgi-bin/hbciservlet" "FinTS V3.0";
   E "85095004" "3.0" "https://fints2.atruvia.de/cgi-bin/hbciservlet" "FinTS V3.0";
   E "85550000" "" "https://banking-sn5.s-fints-pt-sn.de/fints30" "FinTS V3.0";
   E "85590100" "3.0" "https://fints2.atruvia.de/cgi-bin/hbciservlet" "FinTS V3.0";
   E "85591000" "3.0" "https://fints2.atruvia.de/cgi-bin/hbciservlet" "FinTS V3.0";
   E "86010090" "" "https://hbci.postbank.de/banking/hbci.do" "FinTS V3.0";
   E "86020086" "3.0" "https://hbci-01.hypovereinsbank.de/bank/hbci" "FinTS V3.0";
   E "86033300" "3.0" "" "";
   E "86040000" "3.0" "" "";
   E "86040000" "3.0" "" "";
   E "86040000" "3.0" "" "";
   E "86040000" "3.0" "" "";
   E "86040000" "3.0" "" "";
   E "86040000" "3.0" "" "";
   E "86040000" "3.0" "" "";
   E "86050200" "" "https://banking-sn5.s-fints-pt-sn.de/fints30" "FinTS V3.0";
   E "86055462" "" "https://banking-sn4.s-fints-pt-sn.de/fints30" "FinTS V3.0";
   E "86055592" "" "https://banking-sn5.s-fints-pt-sn.de/fints30" "FinTS V3.0";
   E "86065468" "3.0" "https://fints2.atruvia.de/cgi-bin/hbciservlet" "FinTS V3.0";
   E "86065483" "3.0" "https://fints2.atruvia.de/cgi-bin/hbciservlet" "FinTS V3.0";
   E "86070000" "3.0" "https://fints.deutsche-bank.de/" "FinTS V3.0";
   E "86070000" "3.0" "https://fints.deutsche-bank.de/" "FinTS V3.0";
   E "86070000" "3.0" "https://fints.deutsche-bank.de/" "FinTS V3.0";
   E "86070000" "3.0" "https://fints.deutsche-bank.de/" "FinTS V3.0";
   E "86070000" "3.0" "https://fints.deutsche-bank.de/" "FinTS V3.0";
   E "86070000" "3.0" "https://fints.deutsche-bank.de/" "FinTS V3.0";
   E "86070000" "3.0" "https://fints.deutsche-bank.de/" "FinTS V3.0";
   E "86070000" "3.0" "https://fints.deutsche-bank.de/" "FinTS V3.0";
   E "86070000" "3.0" "https://fints.deutsche-bank.de/" "FinTS V3.0";
   E "86070000" "3.0" "https://fints.deutsche-bank.de/" "FinTS V3.0";
   E "86070000" "3.0" "https://fints.deutsche-bank.de/" "FinTS V3.0";
   E "86070000" "3.0" "https://fints.deutsche-bank.de/" "FinTS V3.0";
   E "86070000" "3.0" "https://fints.deutsche-bank.de/" "FinTS V3.0";
   E "86070000" "3.0" "https://fints.deutsche-bank.de/" "FinTS V3.0";
   E "86070000" "3.0" "https://fints.deutsche-bank.de/" "FinTS V3.0";
   E "86070000" "3.0" "https://fints.deutsche-bank.de/" "FinTS V3.0";
   E "86070000" "3.0" "https://fints.deutsche-bank.de/" "FinTS V3.0";
   E "86070000" "3.0" "https://fints.deutsche-bank.de/" "FinTS V3.0";
   E "86070000" "3.0" "https://fints.deutsche-bank.de/" "FinTS V3.0";
   E "86070000" "3.0" "https://fints.deutsche-bank.de/" "FinTS V3.0";
   E "86070000" "3.0" "https://fints.deutsche-bank.de/" "FinTS V3.0";
   E "86070000" "3.0" "https://fints.deutsche-bank.de/" "FinTS V3.0";
   E "86070000" "3.0" "https://fints.deutsche-bank.de/" "FinTS V3.0";
   E "86070000" "3.0" "https://fints.deutsche-bank.de/" "FinTS V3.0"].
(** bankinfo/data.go:35006-36455 *)
Definition table_14 : list bank_info :=
  [E "86070000" "3.0" "https://fints.deutsche-bank.de/" "FinTS V3.0";
   E "86070000" "3.0" "https://fints.deutsche-bank.de/" "FinTS V3.0";
   E "86070000" "3.0" "https://fints.deutsche-bank.de/" "FinTS V3.0";
   E "86070000" "3.0" "https://fints.deutsche-bank.de/" "FinTS V3.0";
   E "86070024" "3.0" "https://fints.deutsche-bank.de/" "FinTS V3.0";
   E "86070024" "3.0" "https://fints.deutsche-bank.de/" "FinTS V3.0";
   E "86070024" "3.0" "https://fints.deutsche-bank.de/" "FinTS V3.0";
   E "86070024" "3.0" "https://fints.deutsche-bank.de/" "FinTS V3.0";
   E "86070024" "3.0" "https://fints.deutsche-bank.de/" "FinTS V3.0";
   E "86070024" "3.0" "https://fints.deutsche-bank.de/" "FinTS V3.0";
   E "86070024" "3.0" "https://fints.deutsche-bank.de/" "FinTS V3.0";
   E "86070024" "3.0" "https://fints.deutsche-bank.de/" "FinTS V3.0";
   E "86070024" "3.0" "https://fints.deutsche-bank.de/" "FinTS V3.0";
   E "86070024" "3.0" "https://fints.deutsche-bank.de/" "FinTS V3.0";
   E "86070024" "3.0" "https://fints.deutsche-bank.de/" "FinTS V3.0";
   E "86070024" "3.0" "https://fints.deutsche-bank.de/" "FinTS V3.0";
   E "86070024" "3.0" "https://fints.deutsche-bank.de/" "FinTS V3.0";
   E "86070024" "3.0" "https://fints.deutsche-bank.de/" "FinTS V3.0";
   E "86070024" "3.0" "https://fints.deutsche-bank.de/" "FinTS V3.0";
   E "86070024" "3.0" "https://fints.deutsche-bank.de/" "FinTS V3.0";
   E "86070024" "3.0" "https://fints.deutsche-bank.de/" "FinTS V3.0";
   E "86070024" "3.0" "https://fints.deutsche-bank.de/" "FinTS V3.0";
   E "86070024" "3.0" "https://fints.deutsche-bank.de/" "FinTS V3.0";
   E "86070024" "3.0" "https://fints.deutsche-bank.de/" "FinTS V3.0";
   E "86070024" "3.0" "https://fints.deutsche-bank.de/" "FinTS V3.0";
   E "86070024" "3.0" "https://fints.deutsche-bank.de/" "FinTS V3.0";
   E "86070024" "3.0" "https://fints.deutsche-bank.de/" "FinTS V3.0";
   E "86070024" "3.0" "https://fints.deutsche-bank.de/" "FinTS V3.0";
   E "86070024" "3.0" "https://fints.deutsche-bank.de/" "FinTS V3.0";
   E "86070024" "3.0" "https://fints.deutsche-bank.de/" "FinTS V3.0";
   E "86070024" "3.0" "https://fints.deutsche-bank.de/" "FinTS V3.0";
   E "86070024" "3.0" "https://fints.deutsche-bank.de/" "FinTS V3.0";
   E "86095484" "3.0" "https://fints2.atruvia.de/cgi-bin/hbciservlet" "FinTS V3.0";
   E "86095554" "3.0" "https://fints2.atruvia.de/cgi-bin/hbciservlet" "FinTS V3.0";
   E "86095604" "3.0" "https://fints2.atruvia.de/cgi-bin/hbciservlet" "FinTS V3.0";
   E "87020086" "3.0" "https://hbci-01.hypovereinsbank.de/bank/hbci" "FinTS V3.0";
   E "87020086" "3.0" "https://hbci-01.hypovereinsbank.de/bank/hbci" "FinTS V3.0";
   E "87020087" "3.0" "https://hbci-01.hypovereinsbank.de/bank/hbci" "FinTS V3.0";
   E "87020088" "3.0" "https://hbci-01.hypovereinsbank.de/bank/hbci" "FinTS V3.0";
   E "87040000" "3.0" "" "";
   E "87040000" "3.0" "" "";
   E "87040000" "3.0" "" "";
   E "87040000" "3.0" "" "";
   E "87040000" "3.0" "" "";
   E "87040000" "3.0" "" "";
   E "87040000" "3.0" "" "";
   E "87040000" "3.0" "" "";
   E "87050000" "" "https://banking-sn4.s-fints-pt-sn.de/fints30" "FinTS V3.0";
   E "87052000" "" "https://banking-sn4.s-fints-pt-sn.de/fints30" "FinTS V3.0";
   E "87054000" "" "https://banking-sn4.s-fints-pt-sn.de/fints30" "FinTS V3.0";
   E "87055000" "" "https://banking-sn4.s-fints-pt-sn.de/fints30" "FinTS V3.0";
   E "87058000" "" "https://banking-sn4.s-fints-pt-sn.de/fints30" "FinTS V3.0";
   E "87069075" "3.0" "https://fints2.atruvia.de/cgi-bin/hbciservlet" "FinTS V3.0";
   E "87069077" "3.0" "https://fints2.atruvia.de/cgi-bin/hbciservlet" "FinTS V3.0";
   E "87070000" "3.0" "https://fints.deutsche-bank.de/" "FinTS V3.0";
   E "87070000" "3.0" "https://fints.deutsche-bank.de/" "FinTS V3.0";
   E "87070000" "3.0" "https://fints.deutsche-bank.de/" "FinTS V3.0";
   E "87070000" "3.0" "https://fints.deutsche-bank.de/" "FinTS V3.0";
   E "87070000" "3.0" "https://fints.deutsche-bank.de/" "FinTS V3.0";
   E "87070000" "3.0" "https://fints.deutsche-bank.de/" "FinTS V3.0";
   E "87070000" "3.0" "https://fints.deutsche-bank.de/" "FinTS V3.0";
   E "87070000" "3.0" "https://fints.deutsche-bank.de/" "FinTS V3.0";
   E "87070000" "3.0" "https://fints.deutsche-bank.de/" "FinTS V3.0";
   E "87070000" "3.0" "https://fints.deutsche-bank.de/" "FinTS V3.0";
   E "87070000" "3.0" "https://fints.deutsche-bank.de/" "FinTS V3.0";
   E "87070000" "3.0" "https://fints.deutsche-bank.de/" "FinTS V3.0";
   E "87070000" "3.0" "https://fints.deutsche-bank.de/" "FinTS V3.0";
   E "87070000" "3.0" "https://fints.deutsche-bank.de/" "FinTS V3.0";
   E "87070000" "3.0" "https://fints.deutsche-bank.de/" "FinTS V3.0";
   E "87070000" "3.0" "https://fints.deutsche-bank.de/" "FinTS V3.0";
   E "87070000" "3.0" "https://fints.deutsche-bank.de/" "FinTS V3.0";
   E "87070000" "3.0" "https://fints.deutsche-bank.de/" "FinTS V3.0";
   E "87070000" "3.0" "https://fints.deutsche-bank.de/" "FinTS V3.0";
   E "87070000" "3.0" "https://fints.deutsche-bank.de/" "FinTS V3.0";
   E "87070000" "3.0" "https://fints.deutsche-bank.de/" "FinTS V3.0";
   E "87070000" "3.0" "https://fints.deutsche-bank.de/" "FinTS V3.0";
   E "87070000" "3.0" "https://fints.deutsche-bank.de/" "FinTS V3.0";
   E "87070000" "3.0" "https://fints.deutsche-bank.de/" "FinTS V3.0";
   E "87070000" "3.0" "https://fints.deutsche-bank.de/" "FinTS V3.0";
   E "87070000" "3.0" "https://fints.deutsche-bank.de/" "FinTS V3.0";
   E "87070000" "3.0" "https://fints.deutsche-bank.de/" "FinTS V3.0";
   E "87070000" "3.0" "https://fints.deutsche-bank.de/" "FinTS V3.0";
   E "87070000" "3.0" "https://fints.deutsche-bank.de/" "FinTS V3.0";
   E "87070000" "3.0" "https://fints.deutsche-bank.de/" "FinTS V3.0";
   E "87070000" "3.0" "https://fints.deutsche-bank.de/" "FinTS V3.0";
   E "87070000" "3.0" "https://fints.deutsche-bank.de/" "FinTS V3.0";
   E "87070000" "3.0" "https://fints.deutsche-bank.de/" "FinTS V3.0";
   E "87070000" "3.0" "https://fints.deutsche-bank.de/" "FinTS V3.0";
   E "87070000" "3.0" "https://fints.deutsche-bank.de/" "FinTS V3.0";
   E "87070000" "3.0" "https://fints.deutsche-bank.de/" "FinTS V3.0";
   E "87070000" "3.0" "https://fints.deutsche-bank.de/" "FinTS V3.0";
   E "87070000" "3.0" "https://fints.deutsche-bank.de/" "FinTS V3.0";
   E "87070000" "3.0" "https://fints.deutsche-bank.de/" "FinTS V3.0";
   E "87070000" "3.0" "https://fints.deutsche-bank.de/" "FinTS V3.0";
   E "87070000" "3.0" "https://fints.deutsche-bank.de/" "FinTS V3.0";
   E "87070000" "3.0" "https://fints.deutsche-bank.de/" "FinTS V3.0";
   E "87070000" "3.0" "https://fints.deutsche-bank.de/" "FinTS V3.0";
   E "87070024" "3.0" "https://fints.deutsche-bank.de/" "FinTS V3.0";
   E "87070024" "3.0" "https://fints.deutsche-bank.de/" "FinTS V3.0";
   E "87070024" "3.0" "https://fints.deutsche-bank.de/" "FinTS V3.0";
   E "87070024" "3.0" "https://fints.deutsche-bank.de/" "FinTS V3.0";
   E "87070024" "3.0" "https://fints.deutsche-bank.de/" "FinTS V3.0";
   E "87070024" "3.0" "https://fints.deutsche-bank.de/" "FinTS V3.0";
   E "87070024" "3.0" "https://fints.deutsche-bank.de/" "FinTS V3.0";
   E "87070024" "3.0" "https://fints.deutsche-bank.de/" "FinTS V3.0";
   E "87070024" "3.0" "https://fints.deutsche-bank.de/" "FinTS V3.0";
   E "87070024" "3.0" "https://fints.deutsche-bank.de/" "FinTS V3.0";
   E "87070024" "3.0" "https://fints.deutsche-bank.de/" "FinTS V3.0";
   E "87070024" "3.0" "https://fints.deutsche-bank.de/" "FinTS V3.0";
   E "87070024" "3.0" "https://fints.deutsche-bank.de/" "FinTS V3.0";
   E "87070024" "3.0" "https://fints.deutsche-bank.de/" "FinTS V3.0";
   E "87070024" "3.0" "https://fints.deutsche-bank.de/" "FinTS V3.0";
   E "87070024" "3.0" "https://fints.deutsche-bank.de/" "FinTS V3.0";
   E "87070024" "3.0" "https://fints.deutsche-bank.de/" "FinTS V3.0";
   E "87070024" "3.0" "https://fints.deutsche-bank.de/" "FinTS V3.0";
   E "87070024" "3.0" "https://fints.deutsche-bank.de/" "FinTS V3.0";
   E "87070024" "3.0" "https://fints.deutsche-bank.de/" "FinTS V3.0";
   E "87070024" "3.0" "https://fints.deutsche-bank.de/" "FinTS V3.0";
   E "87070024" "3.0" "https://fints.deutsche-bank.de/" "FinTS V3.0";
   E "87070024" "3.0" "https://fints.deutsche-bank.de/" "FinTS V3.0";
   E "87070024" "3.0" "https://fints.deutsche-bank.de/" "FinTS V3.0";
   E "87070024" "3.0" "https://fints.deutsche-bank.de/" "FinTS V3.0";
   E "87070024" "3.0" "https://fints.deutsche-bank.de/" "FinTS V3.0";
   E "87070024" "3.0" "https://fints.deutsche-bank.de/" "FinTS V3.0";
   E "87070024" "3.0" "https://fints.deutsche-bank.de/" "FinTS V3.0";
   E "87070024" "3.0" "https://fints.deutsche-bank.de/" "FinTS V3.0";
   E "87070024" "3.0" "https://fints.deutsche-bank.de/" "FinTS V3.0";
   E "87070024" "3.0" "https://fints.deutsche-bank.de/" "FinTS V3.0";
   E "87070024" "3.0" "https://fints.deutsche-bank.de/" "FinTS V3.0";
   E "87070024" "3.0" "https://fints.deutsche-bank.de/" "FinTS V3.0";
   E "87070024" "3.0" "https://fints.deutsche-bank.de/" "FinTS V3.0";
   E "87070024" "3.0" "https://fints.deutsche-bank.de/" "FinTS V3.0";
   E "87070024" "3.0" "https://fints.deutsche-bank.de/" "FinTS V3.0";
   E "87070024" "3.0" "https://fints.deutsche-bank.de/" "FinTS V3.0";
   E "87070024" "3.0" "https://fints.deutsche-bank.de/" "FinTS V3.0";
   E "87070024" "3.0" "https://fints.deutsche-bank.de/" "FinTS V3.0";
   E "87070024" "3.0" "https://fints.deutsche-bank.de/" "FinTS V3.0";
   E "87070024" "3.0" "https://fints.deutsche-bank.de/" "FinTS V3.0";
   E "87070024" "3.0" "https://fints.deutsche-bank.de/" "FinTS V3.0";
   E "87070024" "3.0" "https://fints.deutsche-bank.de/" "FinTS V3.0";
   E "87095824" "3.0" "https://fints2.atruvia.de/cgi-bin/hbciservlet" "FinTS V3.0";
   E "87095934" "3.0" "https://fints2.atruvia.de/cgi-bin/hbciservlet" "FinTS V3.0";
   E "87095974" "3.0" "https://fints2.atruvia.de/cgi-bin/hbciservlet" "FinTS V3.0";
   E "87096124" "3.0" "https://fints2.atruvia.de/cgi-bin/hbciservlet" "FinTS V3.0";
   E "87096214" "3.0" "https://fints2.atruvia.de/cgi-bin/hbciservlet" "FinTS V3.0"].
(** bankinfo/data.go:5-36456 data *)
Definition data : list bank_info :=
  table_00 ++ table_01 ++ table_02 ++ table_03 ++ table_04 ++ table_05 ++ table_06 ++ table_07 ++ table_08 ++ table_09 ++ table_10 ++ table_11 ++ table_12 ++ table_13 ++ table_14.
