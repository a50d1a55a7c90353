(** * C57: what a client finds in a bank's message, from its bytes *)
From Verif Require Import Base BaseFacts Lexer_Model Lexer_Spec Lexer_Proofs Lexer_Facts
  Codec_Model Codec_Spec Codec_Proofs Codec_Props Wire_Model Wire_Spec Wire_Proofs Wire_Facts Wire_Facts2 Wire_Facts3
  Message_Model Message_Spec Message_Proofs Message_Facts Message_Facts2 Message_Facts3
  Dialog_Model Dialog_Spec Seg_Model Seg_Spec Seg_Facts Seg_Facts2 Seg_Facts3 Seg_Facts4 Seg_Facts5 Seg_Props Seg_Props2
  Client_Model Client_Spec Answer_Spec Kept_Facts Answer_Facts Answer_Facts2.
From Coq Require Import Lia ZifyBool ZifyNat ZifyN.
Open Scope Z_scope.

(** Every well-formed message of a bank, in an envelope or not, is read; the dialog ID,
    the numbers, the return codes, every segment of every kind in its order, the
    announced jobs and the raw segments are those the bank wrote. *)
Theorem C57_message_delivered : forall {F} (parse_float : bytes -> option F) neg value,
  reads_decimals parse_float value -> forall l, letter_ok l ->
  exists m, read_response (others parse_float neg) (letter_wire l) = Ok m /\
    mh_hbci (bm_header m) = Some (lt_version l) /\ mh_dialog (bm_header m) = Some (utf8 (lt_dialog l)) /\
    mh_number (bm_header m) = Some (lt_number l) /\ referencing_message (bm_header m) = reply_value l /\
    bm_acks m = letter_acks l /\
    (forall id, ~ In id [B "HIRMG"; B "HIRMS"; B "HNHBK"; B "HNHBS"] -> segs m id = letter_segs l id) /\
    supported_segments m = letter_offers l /\ bm_raw m = letter_raw l.
Proof. intros F pf neg value Hf l Hok. exact (letter_read pf neg value Hf l Hok). Qed.
Print Assumptions C57_message_delivered.

(** ** The answers to jobs *)
Section Contents.
  Context {F : Type} (parse_float : bytes -> option F) (neg : F -> F) (value : N -> bytes -> F).
  Hypothesis Hfloat : reads_decimals parse_float value.

  Lemma piece_len l p : letter_ok l -> In p (lt_pieces l) -> len (piece_wire p) < 2 ^ 61.
  Proof.
    intros Hok Hin. pose proof Hok as (_&_&_&_&_&_&_&_&_&Hl). change (Z.of_nat (List.length (letter_wire l))) with (len (letter_wire l)) in Hl.
    pose proof (concat_len (map piece_wire (lt_pieces l)) (piece_wire p) ltac:(now apply in_map)) as K. fold (letter_content l) in K.
    enough (len (letter_content l) <= len (letter_wire l)) by lia. unfold letter_wire. rewrite !len_app.
    pose proof (len_nonneg (letter_header l)). pose proof (len_nonneg (letter_end l)).
    destruct (lt_envelope l) as [[v fs]|]; [|lia]. rewrite len_app. pose proof (len_nonneg (segment_wire (B "HNVSK") 998 v None fs)).
    pose proof (in_wire_len (group_wire [TBinary (letter_content l)]) (B "HNVSD") 999 1 None [[TBinary (letter_content l)]] ltac:(right; now left)) as J.
    rewrite single_wire in J. cbn [item_wire] in J.
    change ("@"%byte :: itoa_N (N.of_nat (List.length (letter_content l))) ++ "@"%byte :: letter_content l)
      with (["@"%byte] ++ itoa_N (N.of_nat (List.length (letter_content l))) ++ ["@"%byte] ++ letter_content l) in J.
    rewrite !len_app in J. change (len ["@"%byte]) with 1 in J. pose proof (len_nonneg (itoa_N (N.of_nat (List.length (letter_content l))))). lia.
  Qed.
  (** A general way to read the pieces of one kind. *)
  Lemma pieces_contents {X Y} (f : bytes -> outcome X) id (sel : info -> list Y) (val : Y -> X) ps :
    (forall p, In p ps -> match sel (pc_info p) with
       | [] => info_id (pc_info p) <> id \/ @piece_value F p = None
       | y :: r => r = [] /\ info_id (pc_info p) = id /\ @piece_value F p = Some (OSeg (piece_wire p)) /\ f (piece_wire p) = Ok (val y)
       end) ->
    Forall2 (fun s x => exists raw, s = OSeg raw /\ f raw = Ok x)
      (flat_map (fun p => if list_eq_dec byte_eq_dec (info_id (pc_info p)) id
                     then match @piece_value F p with Some o => [o] | None => [] end else []) ps)
      (map val (flat_map (fun p => sel (pc_info p)) ps)).
  Proof.
    induction ps as [|p ps IH]; intros H; [constructor|]. cbn [flat_map]. rewrite map_app.
    specialize (IH (fun q Hq => H q (or_intror Hq))). specialize (H p (or_introl eq_refl)).
    apply Forall2_app; [|exact IH]. destruct (sel (pc_info p)) as [|y r].
    - destruct (list_eq_dec byte_eq_dec (info_id (pc_info p)) id) as [E|E]; [|constructor].
      destruct H as [H|H]; [contradiction|]. rewrite H. constructor.
    - destruct H as (->&->&H1&H2). destruct (list_eq_dec byte_eq_dec id id) as [_|E]; [|contradiction]. rewrite H1.
      constructor; [|constructor]. now exists (piece_wire p).
  Qed.

  (** AccountBalances and AccountTransactions read from the answer exactly the balances and
      the statements the bank reported, in their order. *)
  Theorem C57_balances_in_message : forall l m, letter_ok l -> read_response (others parse_float neg) (letter_wire l) = Ok m ->
    contents (balance_in parse_float neg) (B "HISAL") m (map (balance_value value neg) (letter_balances l)).
  Proof.
    intros l m Hok Hm. destruct (C57_message_delivered parse_float neg value Hfloat l Hok) as (m'&Hm'&_&_&_&_&_&Hs&_).
    assert (m' = m) by congruence. subst m'. unfold contents. rewrite Hs by (intros K; cbn in K; repeat (destruct K as [K|K]; [discriminate|]); exact K).
    apply (pieces_contents _ _ (fun i => match i with IBalances v b => [(v, b)] | _ => [] end) (balance_value value neg)).
    intros p Hp. pose proof (piece_len l p Hok Hp) as Hl. destruct Hok as (_&_&_&_&_&_&_&Hps&_).
    rewrite Forall_forall in Hps. destruct (Hps p Hp) as [Hh Hi]. destruct p as [pos ref i]. cbn [pc_info pc_pos pc_ref] in *.
    destruct i; try (left; discriminate); try (left; destruct k; discriminate); try (right; reflexivity).
    split; [reflexivity|]. split; [reflexivity|]. split; [reflexivity|]. destruct Hi as [Hv Hb].
    exact (C51_balances_delivered parse_float neg value Hfloat pos version ref b Hv Hh Hb Hl).
  Qed.
  Theorem C57_booked_in_message : forall l m, letter_ok l -> read_response (others parse_float neg) (letter_wire l) = Ok m ->
    contents booked_in (B "HIKAZ") m (letter_booked l).
  Proof.
    intros l m Hok Hm. destruct (C57_message_delivered parse_float neg value Hfloat l Hok) as (m'&Hm'&_&_&_&_&_&Hs&_).
    assert (m' = m) by congruence. subst m'. unfold contents. rewrite Hs by (intros K; cbn in K; repeat (destruct K as [K|K]; [discriminate|]); exact K).
    rewrite <- (map_id (letter_booked l)).
    apply (pieces_contents _ _ (fun i => match i with IBooked _ b _ => [b] | _ => [] end) (fun b => b)).
    intros p Hp. pose proof (piece_len l p Hok Hp) as Hl. destruct Hok as (_&_&_&_&_&_&_&Hps&_).
    rewrite Forall_forall in Hps. destruct (Hps p Hp) as [Hh Hi]. destruct p as [pos ref i]. cbn [pc_info pc_pos pc_ref] in *.
    destruct i; try (left; discriminate); try (left; destruct k; discriminate); try (right; reflexivity).
    split; [reflexivity|]. split; [reflexivity|]. split; [reflexivity|]. destruct Hi as (Hv&Hb&Hp').
    apply C52_booked_delivered; try assumption; lia.
  Qed.
  (** SepaAccountBalances: if the bank reports its balances in a version that has
      international accounts. *)
  Theorem C57_sepa_balances_in_message : forall l m bs, letter_ok l -> read_response (others parse_float neg) (letter_wire l) = Ok m ->
    Forall2 (fun vb x => 7 <= fst vb <= 8 /\ exists a, bs_account (snd vb) = BInternational a /\ x = sepa_value value neg a vb) (letter_balances l) bs ->
    contents (sepa_balance_in parse_float neg) (B "HISAL") m bs.
  Proof.
    intros l m bs Hok Hm Hb. destruct (C57_message_delivered parse_float neg value Hfloat l Hok) as (m'&Hm'&_&_&_&_&_&Hs&_).
    assert (m' = m) by congruence. subst m'. unfold contents. rewrite Hs by (intros K; cbn in K; repeat (destruct K as [K|K]; [discriminate|]); exact K).
    unfold letter_segs, letter_balances in *.
    assert (P : forall p, In p (lt_pieces l) -> piece_ok p /\ len (piece_wire p) < 2 ^ 61).
    { intros p Hp. split; [|now apply (piece_len l)]. destruct Hok as (_&_&_&_&_&_&_&Hps&_). rewrite Forall_forall in Hps. now apply Hps. }
    clear - Hfloat Hb P. revert bs Hb. induction (lt_pieces l) as [|p ps IH]; intros bs Hb; [inversion Hb; constructor|].
    cbn [flat_map] in *. specialize (IH (fun q Hq => P q (or_intror Hq))). destruct (P p (or_introl eq_refl)) as [[Hh Hi] Hl].
    destruct p as [pos ref i]. cbn [pc_info pc_pos pc_ref] in *.
    destruct i; cbn [app] in Hb; try destruct k; try (cbn [info_id kept_id piece_value pc_info]; match goal with |- context[list_eq_dec ?a ?b ?c] => destruct (list_eq_dec a b c) end; cbn [app]; try discriminate; now apply IH).
    inversion Hb as [|? x ? r (Hv&a&Ha&Hx) Hr]; subst. cbn [fst snd] in *. destruct Hi as [Hv' Hbal].
    cbn [info_id piece_value pc_info]. destruct (list_eq_dec byte_eq_dec (B "HISAL") (B "HISAL")) as [_|E]; [|contradiction].
    constructor; [|now apply IH]. eexists. split; [reflexivity|].
    exact (C51_sepa_balances_delivered parse_float neg value Hfloat pos version ref b a Hv Hh Hbal Hl Ha).
  Qed.
End Contents.
Print Assumptions C57_balances_in_message.
Print Assumptions C57_booked_in_message.
Print Assumptions C57_sepa_balances_in_message.

(** ** A message *)
Definition sample_notices : list notice := [mkNotice 3060 [] (B "Bitte beachten: Hinweise") []; mkNotice 3920 [] (B "Verfahren") [B "942"; B "944"]].
Definition offer (id : bytes) (v : Z) : info := IOther id v [[TNumber 1]; [TNumber 1]].
Definition sample_letter : letter :=
  mkLetter 1234 300 (B "abc=1+2") 1 (Some (B "0", 1)) (Some (3, [[TText (B "PIN"); TNumber 1]; [TNumber 998]]))
    [mkPiece 2 None (IMessage sample_notices); mkPiece 3 (Some 4) (ISegment [mkNotice 20 [] (B "Auftrag ok") []]);
     mkPiece 4 (Some 5) (ISync 4 (B "sys'tem") None None); mkPiece 5 (Some 3) (IBank 3 sample_bank);
     mkPiece 6 (Some 3) (offer (B "HISALS") 5); mkPiece 7 (Some 3) (offer (B "HISALS") 6); mkPiece 8 (Some 3) (offer (B "HIKAZS") 6);
     mkPiece 9 (Some 3) (IPins 1 1 0 sample_pins); mkPiece 10 (Some 3) (ITans 1 1 (B "1") true false [] sample_tans);
     mkPiece 11 (Some 3) (IUser 4 sample_user); mkPiece 12 (Some 3) (IAccount 5 sample_account);
     mkPiece 13 (Some 3) (IBalances 8 sample_balances); mkPiece 14 (Some 3) (IBooked 6 (B ":20:STARTUMSE' a@1@b") None)] 15.
Lemma offer_ok id v : (id = B "HISALS" \/ id = B "HIKAZS") -> 0 <= v <= 99 -> info_ok (offer id v).
Proof.
  intros H Hv. unfold offer, info_ok. split; [destruct H as [-> | ->]; reflexivity|]. split; [exact Hv|].
  assert (K : Forall item_ok [TNumber 1]) by (constructor; [unfold item_ok; lia|constructor]).
  split; [constructor; [exact K|constructor; [exact K|constructor]]|]. clear K.
  split; [|destruct H as [-> | ->]; intros [r K]; discriminate].
  intros vs K. unfold readable in K. cbn [In] in K. destruct H as [-> | ->]; repeat (destruct K as [K|K]; [discriminate|]); contradiction.
Qed.
Lemma sample_letter_ok : letter_ok sample_letter.
Proof.
  unfold letter_ok, letter_form, sample_letter. cbn [lt_version lt_size lt_number lt_dialog lt_reply lt_envelope lt_pieces lt_last opt_ok].
  split; [now right|]. split; [unfold number_ok; lia|]. split; [unfold number_ok; lia|]. split; [prove_item|]. split; [discriminate|].
  split; [split; [prove_items|prove_groupable]|]. split; [split; [cbn; lia|]|].
  { constructor; [prove_items|]. constructor; [prove_items|constructor]. }
  split; [|split; [unfold header_ok; lia|vm_compute; reflexivity]].
  assert (H : forall pos ref, 1 <= pos <= 15 -> (ref = None \/ exists n, ref = Some n /\ 1 <= n <= 5) -> header_ok pos ref)
    by (intros pos ref Hp [-> | (n & -> & Hn)]; unfold header_ok; lia).
  assert (O : forall i pos ref, info_ok i -> 1 <= pos <= 15 -> (ref = None \/ exists n, ref = Some n /\ 1 <= n <= 5) -> piece_ok (mkPiece pos ref i))
    by (intros; split; [now apply H|assumption]).
  destruct C54_witness as (_&Wu&Wb&_). destruct C55_witness as (_&Wp&Wt&_).
  repeat (apply Forall_cons; [apply O; [|lia|first [now left|right; eexists; split; [reflexivity|lia]]]|]); try apply Forall_nil.
  - apply Forall_cons; [|apply Forall_cons; [|apply Forall_nil]];
      (split; [cbn; lia|]; split; [split; [prove_items|prove_groupable]|discriminate]).
  - apply Forall_cons; [|apply Forall_nil]. split; [cbn; lia|]. split; [split; [prove_items|prove_groupable]|discriminate].
  - split; [lia|]. split; [prove_item|]. split; [discriminate|]. split; exact I.
  - split; [lia|exact Wb].
  - apply offer_ok; [now left|lia].
  - apply offer_ok; [now left|lia].
  - apply offer_ok; [now right|lia].
  - split; [unfold number_ok; lia|]. split; [unfold number_ok; lia|]. split; [unfold number_ok; lia|exact Wp].
  - split; [unfold number_ok; lia|]. split; [unfold number_ok; lia|]. split; [prove_item|exact Wt].
  - split; [lia|exact Wu].
  - split; [lia|]. split; [exact sample_account_ok|discriminate].
  - split; [lia|exact sample_balances_ok].
  - split; [lia|]. split; [vm_compute; discriminate|exact I].
Qed.
Example C57_witness :
  letter_ok sample_letter /\ reads_decimals sample_float sample_value /\
  map (fun a => (ack_code a, ack_params a)) (letter_acks sample_letter) =
    [(3060, []); (3920, [B "942"; B "944"]); (20, [])] /\
  letter_segs sample_letter (B "HISYN") = [@OSync (Seg_Model.account_information bytes) (Ok (B "sys'tem"))] /\
  letter_offers sample_letter = [(B "HISALS", 5); (B "HISALS", 6); (B "HIKAZS", 6); (B "HIPINS", 1); (B "HITANS", 6)] /\
  letter_booked sample_letter = [B ":20:STARTUMSE' a@1@b"] /\ List.length (letter_balances sample_letter) = 1%nat /\
  (exists r, letter_wire sample_letter =
     B "HNHBK:1:3+000000001234+300+abc=1?+2+1+0:1'HNVSK:998:3+PIN:1+998'HNVSD:999:1+@789@HIRMG:2:2+3060::Bitte beachten?: Hinweise+3920::Verfahren:942:944'" ++ r) /\
  omap (@bm_acks _) (read_response (others sample_float sample_neg) (letter_wire sample_letter)) = Ok (letter_acks sample_letter).
Proof.
  split; [exact sample_letter_ok|]. split; [exact sample_float_ok|]. split; [vm_compute; reflexivity|]. split; [vm_compute; reflexivity|].
  split; [vm_compute; reflexivity|]. split; [vm_compute; reflexivity|]. split; [vm_compute; reflexivity|].
  split; [eexists; vm_compute; reflexivity|vm_compute; reflexivity].
Qed.

(** Return codes in a second segment about the message are lost: a client does not see the
    error of this answer. *)
Theorem C57_second_segment_refuted : exists l n m, letter_ok l /\
  In (IMessage [n]) (map pc_info (lt_pieces l)) /\ 9000 <= nt_code n /\
  read_response (others sample_float sample_neg) (letter_wire l) = Ok m /\ ~ has_error m.
Proof.
  exists (mkLetter 120 300 (B "d") 1 None None
    [mkPiece 2 None (IMessage [mkNotice 10 [] (B "ok") []]); mkPiece 3 None (IMessage [mkNotice 9010 [] (B "abgelehnt") []])] 4),
    (mkNotice 9010 [] (B "abgelehnt") []). eexists. split; [|split; [right; now left|split; [cbn; lia|split; [vm_compute; reflexivity|]]]].
  - unfold letter_ok, letter_form. cbn [lt_version lt_size lt_number lt_dialog lt_reply lt_envelope lt_pieces lt_last opt_ok].
    split; [now right|]. split; [unfold number_ok; lia|]. split; [unfold number_ok; lia|]. split; [prove_item|]. split; [discriminate|].
    split; [exact I|]. split; [exact I|]. split; [|split; [unfold header_ok; lia|vm_compute; reflexivity]].
    apply Forall_cons; [|apply Forall_cons; [|apply Forall_nil]];
      (split; [unfold header_ok; cbn; lia|]; apply Forall_cons; [|apply Forall_nil]; split; [cbn; lia|]; split; [split; [prove_items|prove_groupable]|discriminate]).
  - intros (a&[<-|[]]&H). vm_compute in H. now apply H.
Qed.
Print Assumptions C57_second_segment_refuted.
