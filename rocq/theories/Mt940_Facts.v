(** Lemmas about dates, marks, references, balances and transactions of MT940. *)
From Verif Require Import Base BaseFacts Lexer_Model Codec_Model Codec_Spec Codec_Proofs Wire_Model Swift_Model Swift_Spec
  Mt940_Model Mt940_Spec Mt940_Proofs.
From Coq Require Import Lia ZifyBool ZifyNat ZifyN.
Ltac Zify.zify_post_hook ::= Z.div_mod_to_equations.
Open Scope Z_scope.

(** ** Dates *)
Lemma digits2_append z : 0 <= z < 100 -> digits2 z = append_int 2 z.
Proof. intros H. now rewrite digit2. Qed.
Lemma itoa_year y : 1000 <= y <= 9999 -> itoa y = digits2 (y / 100) ++ digits2 (y mod 100).
Proof.
  intros H. rewrite !digits2_append by lia. rewrite <- append_int4 by lia.
  unfold itoa, append_int. replace (y <? 0) with false by lia. unfold pad_left.
  destruct (itoa_N_spec (Z.to_N y)) as (_ & Hd & Hv & _).
  assert (List.length (itoa_N (Z.to_N y)) = 4)%nat as ->; [|reflexivity].
  pose proof (itoa_N_length (Z.to_N y) 4 ltac:(change (10 ^ N.of_nat 4)%N with 10000%N; lia) ltac:(lia)).
  pose proof (dec_val_bound _ Hd) as K. rewrite Hv in K.
  destruct (List.length (itoa_N (Z.to_N y))) as [|[|[|[|[|n]]]]]; cbn in K; lia.
Qed.
Lemma digits2_inj a b : 0 <= a < 100 -> 0 <= b < 100 -> digits2 a = digits2 b -> a = b.
Proof.
  intros Ha Hb E. unfold digits2 in E. injection E as E1 E2.
  apply digit_char_inj in E1; [|lia|lia]. apply digit_char_inj in E2; lia.
Qed.
Lemma real_bounds d : real_date d -> 0 <= d_year d <= 9999 /\ 1 <= d_month d <= 12 /\ 1 <= d_day d <= 31.
Proof. intros (A & B & C). rewrite <- days_in_length in C by lia. pose proof (days_in_bound (d_month d) (d_year d)). lia. Qed.
Lemma format_date_split d : 0 <= d_year d <= 9999 -> 0 <= d_month d < 100 -> 0 <= d_day d < 100 ->
  format_date d = digits2 (d_year d / 100) ++ digits2 (d_year d mod 100) ++ digits2 (d_month d) ++ digits2 (d_day d).
Proof. intros A B C. unfold format_date. rewrite append_int4 by lia. rewrite !digits2_append by lia. now rewrite <- app_assoc. Qed.

(** [time.Parse] on a date of two-digit groups. *)
Lemma parse_groups c y m d : 0 <= c < 100 -> 0 <= y < 100 -> 1 <= m <= 12 -> 1 <= d <= 31 ->
  parse_date (digits2 c ++ digits2 y ++ digits2 m ++ digits2 d) =
  if d <=? days_in m (100 * c + y) then Ok (mkDate (100 * c + y) m d) else Err.
Proof.
  intros Hc Hy Hm Hd. unfold parse_date. rewrite getyear_two, !digits2_append by lia.
  rewrite !getnum2_append by lia.
  replace ((m <=? 0) || (12 <? m)) with false by lia.
  rewrite <- (app_nil_r (append_int 2 d)), getnum2_append by lia.
  destruct (Z.leb_spec d (days_in m (100 * c + y))).
  - now replace ((d <? 1) || (days_in m (100 * c + y) <? d)) with false by lia.
  - now replace ((d <? 1) || (days_in m (100 * c + y) <? d)) with true by lia.
Qed.
Lemma suffix_groups p m d : 0 <= m < 100 -> 0 <= d < 100 -> forall a b, 0 <= a < 100 -> 0 <= b < 100 ->
  has_suffix (digits2 a ++ digits2 b) (p ++ digits2 m ++ digits2 d) = ((m =? a) && (d =? b)).
Proof.
  intros Hm Hd a b Ha Hb. unfold has_suffix. rewrite !rev_app_distr. cbn [rev app digits2].
  destruct (Z.eqb_spec m a) as [->|Hne]; [destruct (Z.eqb_spec d b) as [->|Hne]|]; cbn [andb].
  - cbn [has_prefix]. now rewrite !beq_refl.
  - destruct (has_prefix _ _) eqn:E; [|reflexivity]. exfalso. apply Hne. cbn [has_prefix] in E.
    rewrite !andb_true_iff, !beq_true in E. destruct E as (E1 & E2 & _). apply digits2_inj; [lia|lia|]. unfold digits2. congruence.
  - destruct (has_prefix _ _) eqn:E; [|reflexivity]. exfalso. apply Hne. cbn [has_prefix] in E.
    rewrite !andb_true_iff, !beq_true in E. destruct E as (_ & _ & E1 & E2 & _). apply digits2_inj; [lia|lia|]. unfold digits2. congruence.
Qed.
Lemma days_in_min m y : 1 <= m <= 12 -> 28 <= days_in m y /\ (m <> 2 -> 30 <= days_in m y).
Proof. intros H. unfold days_in. destruct (Z.eqb_spec m 2); [destruct (is_leap y); lia|]. destruct (_ || _); lia. Qed.

(** Whatever a bank writes as a day of some real date in two digits per group. *)
Lemma mt_date_groups pre year c y m d : 1000 <= year <= 9999 ->
  (List.length pre = 6 /\ firstn 2 (itoa year) = digits2 c /\ pre = digits2 y ++ digits2 m ++ digits2 d \/
   List.length pre = 4 /\ itoa year = digits2 c ++ digits2 y /\ pre = digits2 m ++ digits2 d)%nat ->
  0 <= c < 100 -> 0 <= y < 100 -> 1 <= m <= 12 -> 1 <= d <= 31 -> (d <= days_in m (100 * c + y) \/ m = 2 /\ d <= 30) ->
  mt_date pre year = if d <=? days_in m (100 * c + y) then Ok (mkDate (100 * c + y) m d) else Ok (norm_date year 2 d).
Proof.
  intros Hyear Hpre Hc Hy Hm Hd Hok.
  assert (E : mt_date pre year = match parse_date (digits2 c ++ digits2 y ++ digits2 m ++ digits2 d) with
    | Ok x => Ok x | _ => if has_suffix (B "0229") ((digits2 c ++ digits2 y) ++ digits2 m ++ digits2 d) then Ok (norm_date year 2 29)
                          else if has_suffix (B "0230") ((digits2 c ++ digits2 y) ++ digits2 m ++ digits2 d) then Ok (norm_date year 2 30) else Err end).
  { unfold mt_date, len. destruct Hpre as [(L & E1 & ->)|(L & E1 & ->)].
    - rewrite L. cbn [Z.of_nat Z.eqb Pos.of_succ_nat Pos.eqb Pos.succ]. rewrite (itoa_year year Hyear) in *.
      rewrite E1. rewrite app_length. cbn [List.length digits2 Nat.add Nat.ltb Nat.leb]. now rewrite <- app_assoc.
    - rewrite L. cbn [Z.of_nat Z.eqb Pos.of_succ_nat Pos.eqb Pos.succ]. rewrite E1. rewrite app_length.
      cbn [List.length digits2 Nat.add Nat.ltb Nat.leb]. rewrite (firstn_all2 (digits2 c ++ digits2 y)) by (rewrite app_length; cbn; lia).
      now rewrite <- app_assoc. }
  rewrite E, parse_groups by assumption. destruct (Z.leb_spec d (days_in m (100 * c + y))); [reflexivity|].
  destruct Hok as [K|[-> K]]; [lia|].
  change (B "0229") with (digits2 2 ++ digits2 29). change (B "0230") with (digits2 2 ++ digits2 30).
  rewrite !suffix_groups by lia. destruct (days_in_min 2 (100 * c + y) ltac:(lia)) as [K1 _].
  assert (d = 29 \/ d = 30) as [->| ->] by lia; reflexivity.
Qed.
Lemma digits2_length z : List.length (digits2 z) = 2%nat. Proof. reflexivity. Qed.
Lemma real_day d : real_date d -> d_day d <= days_in (d_month d) (d_year d).
Proof. intros (A & B & C). rewrite days_in_length by lia. lia. Qed.
Lemma real_feb d y : real_date d -> d_day d <= days_in (d_month d) y \/ d_month d = 2 /\ d_day d = 29.
Proof.
  intros H. pose proof (real_day d H). pose proof (real_bounds d H) as (_ & Hm & _).
  unfold days_in in *. destruct (Z.eqb_spec (d_month d) 2); [|left; exact H0].
  destruct (is_leap (d_year d)), (is_leap y); lia.
Qed.

Lemma valuta_value now d : 1000 <= now <= 9999 -> real_date d ->
  mt_date (yymmdd d) now =
  let y := 100 * (now / 100) + d_year d mod 100 in
  if d_day d <=? days_in (d_month d) y then Ok (mkDate y (d_month d) (d_day d)) else Ok (norm_date now 2 29).
Proof.
  intros Hn Hd. pose proof (real_bounds d Hd) as (Y & M & D). cbv zeta.
  rewrite (mt_date_groups _ now (now / 100) (d_year d mod 100) (d_month d) (d_day d)); try lia.
  - destruct (real_feb d (100 * (now / 100) + d_year d mod 100) Hd) as [K|[_ K]].
    + destruct (Z.leb_spec (d_day d) (days_in (d_month d) (100 * (now / 100) + d_year d mod 100))); [reflexivity|lia].
    + now rewrite K.
  - left. split; [reflexivity|]. split; [|reflexivity]. now rewrite itoa_year.
  - destruct (real_feb d (100 * (now / 100) + d_year d mod 100) Hd) as [K|K]; [now left|right; lia].
Qed.
Lemma valuta_iff now d : 1000 <= now <= 9999 -> real_date d -> (mt_date (yymmdd d) now = Ok d <-> this_century now d).
Proof.
  intros Hn Hd. rewrite valuta_value by assumption. cbv zeta. pose proof (real_bounds d Hd) as (Y & M & D).
  unfold this_century. split.
  - destruct (Z.leb_spec (d_day d) (days_in (d_month d) (100 * (now / 100) + d_year d mod 100))).
    + intros E. assert (E1 : mkDate (100 * (now / 100) + d_year d mod 100) (d_month d) (d_day d) = d) by congruence. apply (f_equal d_year) in E1. cbn [d_year] in E1. lia.
    + intros E. injection E as E. exfalso. destruct (real_feb d (100 * (now / 100) + d_year d mod 100) Hd) as [K|[K1 K2]]; [lia|].
      unfold norm_date in E. destruct (Z.leb_spec 29 (days_in 2 now)).
      * rewrite <- E in *. cbn [d_year d_month d_day] in *.
        replace (100 * (now / 100) + now mod 100) with now in * by lia. lia.
      * rewrite <- E in K1. cbn in K1. discriminate.
  - intros H. assert (E : 100 * (now / 100) + d_year d mod 100 = d_year d) by lia. rewrite E.
    pose proof (real_day d Hd). destruct (Z.leb_spec (d_day d) (days_in (d_month d) (d_year d))); [|lia].
    now destruct d.
Qed.

Section Runes.
  Variable other_digit : Z -> bool.
  Notation rdigit := (rune_digit other_digit).
  Definition ascii_rune (c : byte) : rune := mkRune (zb c) 1 [c].
  Lemma decode_ascii c s : (zb c <? 128) = true -> decode_rune (c :: s) = Some (ascii_rune c).
  Proof. intros H. unfold decode_rune. now rewrite H. Qed.
  Lemma rdigit_ascii c : (zb c <? 128) = true -> rdigit (ascii_rune c) = is_digit c.
  Proof. intros H. unfold rune_digit, ascii_rune, is_digit. cbn [r_code]. replace (zb c <=? 255) with true by lia. reflexivity. Qed.

  (** ** The booking date *)
  Lemma booking_value valuta b rest : 1000 <= d_year valuta <= 9999 -> real_date b ->
    read_booking other_digit valuta (mmdd b ++ rest) =
    let d := if d_day b <=? days_in (d_month b) (d_year valuta) then mkDate (d_year valuta) (d_month b) (d_day b)
             else norm_date (d_year valuta) 2 29 in
    Ok (Some (if 1 <? Z.abs (d_month valuta - d_month d) then norm_date (d_year d + 1) (d_month d) (d_day d) else d), rest).
  Proof.
    intros Hy Hb. pose proof (real_bounds b Hb) as (Y & M & D). cbv zeta. unfold read_booking.
    assert (E : exists c t, mmdd b ++ rest = c :: t /\ is_digit c = true).
    { unfold mmdd, digits2. cbn [app]. eexists _, _. split; [reflexivity|]. apply digit_char_spec. lia. }
    destruct E as (c & t & E & Hc). rewrite E. pose proof (digit_ascii c Hc) as Ha.
    rewrite decode_ascii, rdigit_ascii, Hc by exact Ha. rewrite <- E.
    rewrite (firstn_app_len (mmdd b) rest 4), (skipn_app_len (mmdd b) rest 4) by reflexivity.
    rewrite (mt_date_groups _ (d_year valuta) (d_year valuta / 100) (d_year valuta mod 100) (d_month b) (d_day b)); try lia.
    - replace (100 * (d_year valuta / 100) + d_year valuta mod 100) with (d_year valuta) by lia.
      destruct (real_feb b (d_year valuta) Hb) as [K|[K1 K2]].
      + destruct (Z.leb_spec (d_day b) (days_in (d_month b) (d_year valuta))); [reflexivity|lia].
      + rewrite K2. destruct (29 <=? days_in (d_month b) (d_year valuta)); reflexivity.
    - right. split; [reflexivity|]. split; [|reflexivity]. now apply itoa_year.
    - replace (100 * (d_year valuta / 100) + d_year valuta mod 100) with (d_year valuta) by lia.
      destruct (real_feb b (d_year valuta) Hb) as [K|K]; [now left|right; lia].
  Qed.
  Lemma date_eta d : d = mkDate (d_year d) (d_month d) (d_day d). Proof. now destruct d. Qed.
  Lemma leap_next y : is_leap y = true -> is_leap (y + 1) = false.
  Proof. unfold is_leap. lia. Qed.
  Lemma booking_iff valuta b rest : 1000 <= d_year valuta <= 9999 -> real_date b ->
    (read_booking other_digit valuta (mmdd b ++ rest) = Ok (Some b, rest) <-> booking_kept valuta b).
  Proof.
    intros Hy Hb. rewrite booking_value by assumption. cbv zeta. pose proof (real_day b Hb) as Hday.
    pose proof (real_bounds b Hb) as (Y & M & D). unfold booking_kept, in_february_29.
    destruct (real_feb b (d_year valuta) Hb) as [K|[K1 K2]].
    - destruct (Z.leb_spec (d_day b) (days_in (d_month b) (d_year valuta))); [clear K|lia]. cbn [d_year d_month d_day].
      destruct (Z.ltb_spec 1 (Z.abs (d_month valuta - d_month b))) as [L|L].
      + unfold norm_date. destruct (Z.leb_spec (d_day b) (days_in (d_month b) (d_year valuta + 1))) as [Q|Q]; split; intros A.
        * assert (E : b = mkDate (d_year valuta + 1) (d_month b) (d_day b)) by congruence. right. rewrite E. cbn [d_year d_month d_day].
          split; [reflexivity|]. split; [exact L|]. intros [F1 F2]. rewrite F1, F2 in *.
          unfold days_in in H, Q. cbn in H, Q. destruct (is_leap (d_year valuta)) eqn:I; [|lia].
          rewrite leap_next in Q by exact I. lia.
        * destruct A as [[_ A]|(A & _ & _)]; [lia|]. rewrite (date_eta b) at 3. now rewrite A.
        * assert (E : b = mkDate (d_year valuta + 1) (d_month b + 1) (d_day b - days_in (d_month b) (d_year valuta + 1))) by congruence.
          exfalso. apply (f_equal d_month) in E. cbn in E. lia.
        * exfalso. destruct A as [[_ A]|(A & _ & _)]; [lia|]. rewrite A in Hday. lia.
      + split; intros A.
        * assert (E : b = mkDate (d_year valuta) (d_month b) (d_day b)) by congruence. left. rewrite E. cbn. lia.
        * destruct A as [[A _]|(_ & A & _)]; [|lia]. rewrite (date_eta b) at 3. now rewrite A.
    - destruct (Z.leb_spec (d_day b) (days_in (d_month b) (d_year valuta))) as [Q|Q].
      + cbn [d_year d_month d_day]. rewrite K1, K2 in *.
        assert (I : is_leap (d_year valuta) = true). { unfold days_in in Q. cbn in Q. destruct (is_leap (d_year valuta)); [reflexivity|lia]. }
        destruct (Z.ltb_spec 1 (Z.abs (d_month valuta - 2))) as [L|L].
        * unfold norm_date. unfold days_in at 1. cbn [Z.eqb Pos.eqb]. rewrite leap_next by exact I. cbn [Z.leb Z.compare Pos.compare Pos.compare_cont].
          split; intros A; [|destruct A as [[_ A]|(_ & _ & A)]; [lia|exfalso; tauto]].
          exfalso. assert (E : b = mkDate (d_year valuta + 1) (2 + 1) (29 - days_in 2 (d_year valuta + 1))) by congruence.
          rewrite E in K1. cbn in K1. discriminate.
        * split; intros A.
          -- assert (E : b = mkDate (d_year valuta) 2 29) by congruence. left. rewrite E. cbn. lia.
          -- destruct A as [[A _]|(_ & A & _)]; [|lia]. rewrite (date_eta b). now rewrite A, K1, K2.
      + rewrite K1, K2 in *.
        assert (I : is_leap (d_year valuta) = false). { unfold days_in in Q. cbn in Q. destruct (is_leap (d_year valuta)); [lia|reflexivity]. }
        assert (N : norm_date (d_year valuta) 2 29 = mkDate (d_year valuta) 3 1).
        { unfold norm_date, days_in. cbn [Z.eqb Pos.eqb]. rewrite I. reflexivity. }
        rewrite N. cbn [d_year d_month d_day]. split; intros A.
        * exfalso. assert (E : d_month b = 3); [|lia]. destruct (1 <? Z.abs (d_month valuta - 3)).
          -- unfold norm_date in A. cbn in A. assert (E : b = mkDate (d_year valuta + 1) 3 1) by congruence. now rewrite E.
          -- assert (E : b = mkDate (d_year valuta) 3 1) by congruence. now rewrite E.
        * destruct A as [[A _]|(_ & _ & A)]; [|exfalso; tauto]. rewrite A in Hday. unfold days_in in Hday. cbn in Hday. rewrite I in Hday. lia.
  Qed.
End Runes.
