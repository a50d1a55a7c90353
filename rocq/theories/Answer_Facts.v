From Verif Require Import Base BaseFacts Lexer_Model Lexer_Spec Lexer_Proofs Lexer_Facts
  Codec_Model Codec_Spec Codec_Proofs Codec_Props Wire_Model Wire_Spec Wire_Proofs Wire_Facts Wire_Facts2 Wire_Facts3
  Message_Model Message_Spec Message_Proofs Message_Facts Message_Facts2 Message_Facts3
  Dialog_Model Dialog_Spec Seg_Model Seg_Spec Seg_Facts Seg_Facts2 Seg_Facts3 Seg_Facts4 Seg_Facts5 Seg_Props Seg_Props2
  Answer_Spec Kept_Facts.
From Coq Require Import Lia ZifyBool ZifyNat ZifyN.
Open Scope Z_scope.
Ltac Zify.zify_post_hook ::= Z.div_mod_to_equations.

(** ** Single segments *)
Definition info_fields (i : info) : list (list item) :=
  match i with
  | IMessage l | ISegment l => map notice_items l
  | ISync _ system message signature => [[TText system]; opt_group number_group message; opt_group number_group signature]
  | IBank v b =>
    [[TNumber (bi_version b)]; [TDigits 3 (bi_country b); TText (bi_code b)]; [TText (bi_name b)];
      [TNumber (bi_jobs b)]; map TNumber (bi_languages b); map TNumber (bi_protocols b);
      opt_group number_group (bi_size b)] ++
     (if v =? 2 then [] else [opt_group number_group (bi_min b); opt_group number_group (bi_max b)])
  | IUser v u => [[TText (ui_user u)]; [TNumber (ui_version u)]; [TNumber (ui_usage u)]] ++
     (if v =? 2 then [] else [[TText (ui_name u)]; [TText (ui_extensions u)]])
  | IAccount v a => limited_fixed v a [] ++ map job_group (ad_jobs a)
  | IPins jobs sigs class p => [[TNumber jobs]; [TNumber sigs]; [TNumber class]; pin_group p]
  | ITans jobs sigs class one more hash l => [[TNumber jobs]; [TNumber sigs]; [TText class]; tan_group one more hash l]
  | IBalances v b => balances_groups v b
  | IBooked _ booked pending => [[TBinary booked]; opt_group (fun d => [TBinary d]) pending]
  | IKept k => kept_fields k
  | IOther _ _ fields => fields
  end.
Lemma piece_wire_eq p : piece_wire p =
  segment_wire (info_id (pc_info p)) (pc_pos p) (info_version (pc_info p)) (pc_ref p) (info_fields (pc_info p)).
Proof.
  destruct p as [pos ref i]. destruct i; cbn [pc_pos pc_ref pc_info info_id info_version info_fields piece_wire]; try reflexivity.
  unfold account_segment, limited_fixed. rewrite <- !app_assoc. reflexivity.
Qed.
Lemma info_items i : info_ok i -> Forall (Forall item_ok) (info_fields i).
Proof.
  destruct i; cbn [info_ok info_fields].
  - apply notices_items.
  - apply notices_items.
  - intros (_&H1&_&H2&H3). constructor; [constructor; [exact H1|constructor]|]. constructor; [now apply number_items|]. constructor; [now apply number_items|constructor].
  - intros (_&H1&H2&H3&H4&_&H5&_&H6&H7&_&H8&_&H9&H10&H11). apply Forall_app. split.
    + constructor; [now apply number_item|]. constructor; [constructor; [exact H2|constructor; [exact H3|constructor]]|].
      constructor; [constructor; [exact H5|constructor]|]. constructor; [now apply number_item|].
      constructor; [apply number_map_items; eapply Forall_impl; [|exact H7]; cbn; unfold number_ok; lia|].
      constructor; [now apply number_map_items|]. constructor; [now apply number_items|constructor].
    + destruct (version =? 2); [constructor|]. constructor; [now apply number_items|]. constructor; [now apply number_items|constructor].
  - intros (_&H1&_&H2&H3&H4&H5). apply Forall_app. split.
    + constructor; [constructor; [exact H1|constructor]|]. constructor; [now apply number_item|]. constructor; [now apply number_item|constructor].
    + destruct (version =? 2); [constructor|]. constructor; [constructor; [exact H4|constructor]|]. constructor; [constructor; [exact H5|constructor]|constructor].
  - intros (_&(H1&H2&H3&_&H4&H5&H6&_&H7&H8&H9)&_). apply Forall_app. split.
    + unfold limited_fixed. pose proof (number_items _ H4) as Hn. assert (T : forall l, item_ok (TText l) -> Forall item_ok [TText l]) by (intros; constructor; [assumption|constructor]).
      apply Forall_app. split; [constructor; [apply H1|constructor]|]. apply Forall_app. split.
      * destruct (version =? 4); [|destruct (version =? 5)]; repeat (apply Forall_cons; [auto|]); apply Forall_nil.
      * repeat (apply Forall_cons; [auto|]); apply Forall_nil.
    + apply Forall_map. eapply Forall_impl; [|exact H9]. intros j [[K _] _]. exact K.
  - intros (H1&H2&H3&[H4 _]&_). constructor; [now apply number_item|]. constructor; [now apply number_item|].
    constructor; [now apply number_item|]. constructor; [exact H4|constructor].
  - intros (H1&H2&H3&[H4 _]&_). constructor; [now apply number_item|]. constructor; [now apply number_item|].
    constructor; [constructor; [exact H3|constructor]|]. constructor; [exact H4|constructor].
  - intros [_ H]. now apply balances_items.
  - intros (_&H1&H2). constructor; [constructor; [exact H1|constructor]|]. constructor; [|constructor].
    destruct pending as [d|]; [constructor; [exact H2|constructor]|constructor].
  - intros [[H _] _]. exact H.
  - intros (_&_&H&_). exact H.
Qed.
Lemma info_head i : info_ok i -> forallb alnum (info_id i) = true /\ 0 <= info_version i <= 99.
Proof.
  destruct i; cbn [info_ok info_id info_version]; intros H; try (split; [try reflexivity; apply H|lia]).
  destruct H as [H _]. destruct k; cbn [kept_id kept_version]; (split; [reflexivity|]); try lia; destruct H as [_ (H&_)]; lia.
Qed.

Section Reader.
  Context {F : Type} (parse_float : bytes -> option F) (neg : F -> F) (value : N -> bytes -> F).
  Hypothesis Hfloat : reads_decimals parse_float value.
  Notation reader := (others parse_float neg).

  Lemma known_none id v : (forall vs, In (id, vs) readable -> ~ In v vs) -> known reader id v = None.
  Proof.
    intros H. unfold known, others.
    Ltac unread H := match goal with |- (if bytes_eqb ?i ?b then _ else _) = None =>
      destruct (bytes_eqb_spec i b) as [->|_];
      [match goal with |- (if ?c then _ else _) = None => destruct c eqn:?; [exfalso|reflexivity] end;
       eapply H; [unfold readable; cbn [In]; repeat (first [left; reflexivity|right])|cbn [In]; lia]|] end.
    do 2 unread H.
    match goal with |- match ?x with _ => _ end = None => assert (E : x = None); [|now rewrite E] end.
    cbv zeta. repeat unread H. reflexivity.
  Qed.
  Lemma known_other id v s o : id <> B "HIRMG" -> id <> B "HIRMS" -> read_as parse_float neg id v s = Ok o ->
    exists f, known reader id v = Some f /\ f s = Ok (POther o).
  Proof.
    intros N1 N2 H. unfold known. rewrite !bytes_eqb_neq by assumption. unfold read_as in H. destruct (reader id v) as [f|]; [|discriminate].
    exists (fun s => omap POther (f s)). split; [reflexivity|]. now rewrite H.
  Qed.

  Definition piece_parsed (p : piece) : option (bytes * parsed (oseg (account_information F))) :=
    match pc_info p with
    | IMessage l => Some (B "HIRMG", PMsgAcks (map (notice_value true ([], 0) (match pc_ref p with Some n => n | None => 0 end)) l))
    | ISegment l => Some (B "HIRMS", PSegAcks (map (notice_value false ([], 0) (match pc_ref p with Some n => n | None => -1 end)) l))
    | _ => option_map (fun o => (info_id (pc_info p), POther o)) (piece_value p)
    end.
  Lemma piece_header p : piece_ok p -> len (piece_wire p) < 2 ^ 61 ->
    segform (piece_wire p) /\
    extract_header (piece_wire p) = Ok (mkSH (info_id (pc_info p)) (pc_pos p) (info_version (pc_info p)) (pc_ref p)).
  Proof.
    intros [Hh Hi] Hl. rewrite piece_wire_eq in *. destruct (info_head _ Hi) as [H1 H2]. pose proof (info_items _ Hi) as H3.
    split; [now apply wire_segform|now apply wire_header].
  Qed.
  Lemma piece_one p : piece_ok p -> len (piece_wire p) < 2 ^ 61 -> unmarshal_one reader (piece_wire p) = Ok (piece_parsed p).
  Proof.
    intros Hp Hl. destruct (piece_header p Hp Hl) as [_ E]. unfold unmarshal_one. rewrite E. cbn [obind sh_id sh_version]. clear E.
    destruct p as [pos ref i]. destruct Hp as [Hh Hi]. cbn [pc_pos pc_ref pc_info] in *. unfold piece_parsed. cbn [pc_info pc_ref].
    assert (G : forall o, info_id i <> B "HIRMG" -> info_id i <> B "HIRMS" ->
      read_as parse_float neg (info_id i) (info_version i) (piece_wire (mkPiece pos ref i)) = Ok o ->
      match known reader (info_id i) (info_version i) with
      | Some f => do p <- f (piece_wire (mkPiece pos ref i)); Ok (Some (info_id i, p))
      | None => Ok None
      end = Ok (Some (info_id i, POther o))).
    { intros o N1 N2 K. destruct (known_other _ _ _ _ N1 N2 K) as (f&K1&K2). rewrite K1, K2. reflexivity. }
    destruct i; cbn [info_id info_version info_ok] in *;
      try (cbn [option_map piece_value pc_info]; apply G; [discriminate..|]; cbn [piece_wire pc_info pc_pos pc_ref] in *).
    - unfold known. rewrite bytes_eqb_refl. cbn [Z.eqb Pos.eqb]. cbn [piece_wire pc_info pc_pos pc_ref] in *.
      now rewrite (notices_segment (B "HIRMG") pos ref l eq_refl Hh Hi Hl true).
    - unfold known. replace (bytes_eqb (B "HIRMS") (B "HIRMG")) with false by reflexivity. rewrite bytes_eqb_refl. cbn [Z.eqb Pos.eqb].
      cbn [piece_wire pc_info pc_pos pc_ref] in *. now rewrite (notices_segment (B "HIRMS") pos ref l eq_refl Hh Hi Hl false).
    - destruct Hi as (H1&H2&H3&H4&H5). rewrite C54_system_id_delivered by assumption. destruct system; [congruence|reflexivity].
    - destruct Hi as (H1&H2). now apply C54_bank_delivered.
    - destruct Hi as (H1&H2). now apply C54_user_delivered.
    - destruct Hi as (H1&H2&H3). now apply C53_account_delivered.
    - destruct Hi as (H1&H2&H3&H4). now apply C55_jobs_delivered.
    - destruct Hi as (H1&H2&H3&H4). now apply C55_processes_delivered.
    - destruct Hi as (H1&H2). now apply (C51_balances_kept parse_float neg value).
    - destruct Hi as (H1&H2&H3). apply C52_booked_kept; try assumption.
    - cbn [option_map piece_value pc_info]. destruct Hi as [H1 H2]. cbn [piece_wire pc_info pc_pos pc_ref] in *.
      pose proof (kept_read parse_float neg value Hfloat pos ref k Hh H1 Hl) as K. rewrite H2 in K.
      apply G; [destruct k; discriminate..|exact K].
    - rewrite known_none by apply Hi. reflexivity.
  Qed.
End Reader.
