From Verif Require Import Base BaseFacts Lexer_Model Lexer_Spec Lexer_Proofs Lexer_Facts
  Codec_Model Codec_Spec Codec_Proofs Codec_Props Wire_Model Wire_Spec Wire_Proofs Wire_Facts Wire_Facts2 Wire_Facts3
  Message_Model Message_Spec Message_Proofs Message_Facts Message_Facts2 Message_Facts3
  Dialog_Model Dialog_Spec Seg_Model Seg_Spec Seg_Facts Seg_Facts2 Seg_Facts3 Seg_Facts4 Seg_Facts5 Seg_Props Seg_Props2
  Client_Model Client_Spec Answer_Spec Kept_Facts Answer_Facts Answer_Facts2 Crash_Spec.
From Coq Require Import Lia ZifyBool ZifyNat ZifyN.
Open Scope Z_scope.
Ltac Zify.zify_post_hook ::= Z.div_mod_to_equations.

(** ** Messages *)
Lemma valid_items p : valid_piece p -> Forall (Forall item_ok) (info_fields (pc_info p)).
Proof.
  intros [_ H]. destruct (pc_info p) eqn:E; try (now apply info_items). cbn [info_fields]. apply H.
Qed.
Lemma valid_head p : valid_piece p -> forallb alnum (info_id (pc_info p)) = true /\ 0 <= info_version (pc_info p) <= 99.
Proof.
  intros [_ H]. destruct (pc_info p) eqn:E; try (now apply info_head).
  destruct k; cbn [info_id info_version kept_id kept_version]; (split; [reflexivity|]); try lia; destruct H as [_ (H&_)]; lia.
Qed.
Lemma valid_segform p : valid_piece p -> segform (piece_wire p).
Proof. intros H. rewrite piece_wire_eq. apply wire_segform; [apply (valid_head p H)|now apply valid_items]. Qed.
Lemma all_ok_panic {A C} (f : A -> outcome C) l :
  (forall x, In x l -> f x <> Err) -> (exists x, In x l /\ f x = Panic) -> all_ok f l = Panic.
Proof.
  induction l as [|x l IH]; intros H [y [Hy E]]; [destruct Hy|]. cbn [all_ok].
  destruct (f x) as [z| |] eqn:Ex; [|now destruct (H x (or_introl eq_refl))|reflexivity]. cbn [obind].
  destruct Hy as [->|Hy]; [congruence|]. rewrite IH; [reflexivity|intros u Hu; apply H; now right|now exists y].
Qed.

Section Reader.
  Context {F : Type} (parse_float : bytes -> option F) (neg : F -> F) (value : N -> bytes -> F).
  Hypothesis Hfloat : reads_decimals parse_float value.
  Notation reader := (others parse_float neg).

  Lemma valid_one p : valid_piece p -> len (piece_wire p) < 2 ^ 61 ->
    unmarshal_one reader (piece_wire p) =
    match pc_info p with
    | IKept k => if crashes k then Panic else Ok (@piece_parsed F p)
    | _ => Ok (piece_parsed p)
    end.
  Proof.
    intros Hp Hl. assert (D : piece_ok p \/ exists k, pc_info p = IKept k /\ kept_ok k /\ crashes k = true).
    { destruct p as [pos ref i]. destruct Hp as [Hh Hi]. cbn [pc_pos pc_ref pc_info] in *.
      destruct i; try (left; split; assumption). destruct (crashes k) eqn:Ek; [right; eauto|left; split; [assumption|now split]]. }
    destruct D as [D|(k&E&Hk&Hc)].
    - rewrite (piece_one parse_float neg value Hfloat p D Hl). destruct D as [_ D]. destruct (pc_info p); try reflexivity.
      destruct D as [_ ->]. reflexivity.
    - rewrite E, Hc. destruct p as [pos ref i]. cbn [pc_info] in E. subst i. destruct Hp as [Hh _]. cbn [pc_pos pc_ref piece_wire pc_info] in *.
      pose proof (kept_read parse_float neg value Hfloat pos ref k Hh Hk Hl) as K. rewrite Hc in K.
      unfold unmarshal_one. rewrite wire_header; [|destruct k; reflexivity|exact Hh| |apply Hk|exact Hl].
      2:{ destruct k; cbn [kept_version]; try lia; destruct Hk as [_ (Hk&_)]; lia. }
      cbn [obind sh_id sh_version]. unfold known.
      replace (bytes_eqb (kept_id k) (B "HIRMG")) with false by (destruct k; reflexivity).
      replace (bytes_eqb (kept_id k) (B "HIRMS")) with false by (destruct k; reflexivity).
      unfold read_as in K. destruct (others parse_float neg (kept_id k) (kept_version k)) as [f|]; [|discriminate].
      rewrite K. reflexivity.
  Qed.
  Lemma content_crash h pre ps post :
    Forall (frame parse_float neg) pre -> Forall segform pre -> Forall (frame parse_float neg) post -> Forall segform post -> Forall valid_piece ps ->
    len (List.concat (pre ++ map piece_wire ps ++ post)) < 2 ^ 61 ->
    (exists p k, In p ps /\ pc_info p = IKept k /\ crashes k = true) ->
    new_decrypted reader h (List.concat (pre ++ map piece_wire ps ++ post)) = Panic.
  Proof.
    intros F1 S1 F2 S2 Hp Hl (p&k&Hin&Ek&Hc).
    assert (L : Forall (fun p => len (piece_wire p) < 2 ^ 61) ps).
    { apply Forall_forall. intros q Hq. pose proof (concat_len (pre ++ map piece_wire ps ++ post) (piece_wire q)) as K.
      assert (In (piece_wire q) (pre ++ map piece_wire ps ++ post)) by (apply in_or_app; right; apply in_or_app; left; now apply in_map).
      specialize (K H). lia. }
    assert (Hx : message_extract (List.concat (pre ++ map piece_wire ps ++ post)) = Ok (pre ++ map piece_wire ps ++ post)).
    { apply message_extract_concat; [|lia]. apply Forall_app. split; [exact S1|]. apply Forall_app. split; [|assumption].
      apply Forall_map. eapply Forall_impl; [|exact Hp]. exact valid_segform. }
    unfold new_decrypted, unmarshal_all. rewrite Hx. cbn [obind]. rewrite Forall_forall in Hp, L, F1, F2.
    rewrite all_ok_panic; [reflexivity| |].
    - intros x Hxi. apply in_app_or in Hxi. destruct Hxi as [Hxi|Hxi]; [|apply in_app_or in Hxi; destruct Hxi as [Hxi|Hxi]].
      + destruct (F1 x Hxi) as (i&o&hd&_&E&_). rewrite E. discriminate.
      + apply in_map_iff in Hxi. destruct Hxi as (q&<-&Hq). rewrite valid_one; [|now apply Hp|now apply L]. destruct (pc_info q); try discriminate.
        destruct (crashes k0); discriminate.
      + destruct (F2 x Hxi) as (i&o&hd&_&E&_). rewrite E. discriminate.
    - exists (piece_wire p). split; [apply in_or_app; right; apply in_or_app; left; now apply in_map|].
      rewrite valid_one; [|now apply Hp|now apply L]. now rewrite Ek, Hc.
  Qed.
  Lemma valid_no_envelope p : valid_piece p -> has_prefix (B "HNVSK") (piece_wire p) = false.
  Proof.
    intros Hp. destruct p as [pos ref i] eqn:Ep. destruct i; try (apply piece_no_envelope; exact Hp).
    cbn [piece_wire pc_info pc_pos pc_ref]. destruct k; cbn [kept_id];
      (eapply no_prefix; [apply wire_starts|prove_absent|intros [r K]; discriminate]).
  Qed.
  Lemma letter_crash l : valid_letter l -> crashing l -> read_response reader (letter_wire l) = Panic.
  Proof.
    intros Hok Hcr. pose proof Hok as (Hv&H1&H2&H3&H4&H5&H6&H7&H8&Hl).
    change (Z.of_nat (List.length (letter_wire l))) with (len (letter_wire l)) in Hl.
    assert (Lh : len (letter_header l) <= len (letter_wire l)) by (unfold letter_wire; rewrite len_app; match goal with |- _ <= _ + len ?x => pose proof (len_nonneg x) end; lia).
    assert (Le : len (letter_end l) <= len (letter_wire l)).
    { unfold letter_wire. rewrite !len_app. pose proof (len_nonneg (letter_header l)).
      match goal with |- _ <= _ + (len ?x + _) => pose proof (len_nonneg x) end. lia. }
    destruct (letter_header_read _ l Hok ltac:(lia)) as [size Hr].
    destruct (header_frame parse_float neg _ l Hok ltac:(lia)) as [Fh Sh]. destruct (end_frame parse_float neg _ l Hok ltac:(lia)) as [Fe Se].
    set (h := mkMH 1 size (Some (lt_version l)) (Some (utf8 (lt_dialog l))) (Some (lt_number l))
      (option_map (fun r => (utf8 (escaped (fst r)), snd r)) (lt_reply l))) in *.
    assert (Bh : has_prefix (B "HNHBK") (letter_header l) = true) by (apply prefix_true, (starts_weaken _ [b_colon]), wire_starts).
    assert (Nh : has_prefix (B "HNVSK") (letter_header l) = false) by (apply (no_prefix _ (B "HNHBK")); [apply wire_starts|prove_absent|intros [r K]; discriminate]).
    assert (Ne : has_prefix (B "HNVSK") (letter_end l) = false) by (apply (no_prefix _ (B "HNHBS")); [apply wire_starts|prove_absent|intros [r K]; discriminate]).
    unfold read_response. destruct (lt_envelope l) as [[v fields]|] eqn:Env.
    - cbn [opt_ok fst snd] in H6. destruct H6 as [H6 H6'].
      set (ks := segment_wire (B "HNVSK") 998 v None fields) in *.
      set (ds := segment_wire (B "HNVSD") 999 1 None [[TBinary (letter_content l)]]) in *.
      assert (Ew : letter_wire l = List.concat [letter_header l; ks; ds; letter_end l]).
      { unfold letter_wire. rewrite Env. cbn [List.concat]. fold ks ds. now rewrite app_nil_r, <- app_assoc. }
      assert (Ls : len ds <= len (letter_wire l)) by (rewrite Ew; apply concat_len; do 2 right; now left).
      assert (Lc : len (letter_content l) <= len ds).
      { pose proof (in_wire_len (group_wire [TBinary (letter_content l)]) (B "HNVSD") 999 1 None [[TBinary (letter_content l)]] ltac:(right; now left)) as K.
        fold ds in K. rewrite single_wire in K. cbn [item_wire] in K.
        change ("@"%byte :: itoa_N (N.of_nat (List.length (letter_content l))) ++ "@"%byte :: letter_content l)
          with (["@"%byte] ++ itoa_N (N.of_nat (List.length (letter_content l))) ++ ["@"%byte] ++ letter_content l) in K.
        rewrite !len_app in K. change (len ["@"%byte]) with 1 in K. pose proof (len_nonneg (itoa_N (N.of_nat (List.length (letter_content l))))). lia. }
      assert (Hx : message_extract (letter_wire l) = Ok [letter_header l; ks; ds; letter_end l]).
      { rewrite Ew in *. apply message_extract_concat; [|lia]. constructor; [exact Sh|].
        constructor; [apply wire_segform; [reflexivity|exact H6']|]. constructor; [|constructor; [exact Se|constructor]].
        apply wire_segform; [reflexivity|]. constructor; [|constructor]. constructor; [|constructor]. cbn [item_ok]. change (Z.of_nat (List.length (letter_content l))) with (len (letter_content l)). lia. }
      rewrite (extract_state _ _ Hx). cbn [obind]. unfold find_segment. cbn [se_segments find]. rewrite Bh, Nh, Hr. cbn [obind].
      rewrite (prefix_true (B "HNVSK") ks) by (apply (starts_weaken _ [b_colon]), wire_starts).
      rewrite (no_prefix (B "HNVSD") (B "HNHBK") (letter_header l)) by (try apply wire_starts; try prove_absent; intros [r K]; discriminate).
      rewrite (no_prefix (B "HNVSD") (B "HNVSK") ks) by (try apply wire_starts; try prove_absent; intros [r K]; discriminate).
      rewrite (prefix_true (B "HNVSD") ds) by (apply (starts_weaken _ [b_colon]), wire_starts).
      unfold ds at 1. rewrite data_read; [|fold ds; lia|change (Z.of_nat (List.length (letter_content l))) with (len (letter_content l)); lia]. cbn [obind].
      pose proof (content_crash h [] (lt_pieces l) []) as M. cbn [app] in M. rewrite app_nil_r in M. apply M; try assumption; try apply Forall_nil.
      fold (letter_content l). lia.
    - assert (Ew : letter_wire l = List.concat ([letter_header l] ++ map piece_wire (lt_pieces l) ++ [letter_end l])).
      { unfold letter_wire. rewrite Env. rewrite !concat_app. cbn [List.concat]. now rewrite !app_nil_r. }
      assert (Hx : message_extract (letter_wire l) = Ok ([letter_header l] ++ map piece_wire (lt_pieces l) ++ [letter_end l])).
      { rewrite Ew in *. apply message_extract_concat; [|lia]. constructor; [exact Sh|]. apply Forall_app. split; [|constructor; [exact Se|constructor]].
        apply Forall_map. eapply Forall_impl; [|exact H7]. exact valid_segform. }
      rewrite (extract_state _ _ Hx). cbn [obind]. unfold find_segment. cbn [se_segments find app]. rewrite Bh, Nh, Hr. cbn [obind].
      assert (Nf : find (has_prefix (B "HNVSK")) (map piece_wire (lt_pieces l) ++ [letter_end l]) = None).
      { clear - H7 Ne. induction H7 as [|p ps Hp _ IH]; [cbn [map app find]; now rewrite Ne|]. cbn [map app find].
        rewrite valid_no_envelope by exact Hp. exact IH. }
      rewrite Nf. rewrite Ew. apply content_crash; try assumption; try (constructor; [assumption|constructor]). rewrite <- Ew. lia.
  Qed.
  Lemma valid_not_crashing l : valid_letter l -> ~ crashing l -> letter_ok l.
  Proof.
    intros (Hv&H1&H2&H3&H4&H5&H6&H7&H8) Hc. repeat (split; [assumption|]). split; [|exact H8]. rewrite Forall_forall in *.
    intros p Hp. destruct (H7 p Hp) as [Hh Hi]. split; [exact Hh|]. destruct (pc_info p) eqn:E; try exact Hi. split; [exact Hi|].
    destruct (crashes k) eqn:Ek; [|reflexivity]. destruct Hc. now exists p, k.
  Qed.
End Reader.
