From Verif Require Import Base BaseFacts Lexer_Model Lexer_Spec Lexer_Proofs Lexer_Facts
  Codec_Model Codec_Spec Codec_Proofs Codec_Props Wire_Model Wire_Spec Wire_Proofs Wire_Facts Wire_Facts2 Wire_Facts3
  Message_Model Message_Spec Message_Proofs Message_Facts Message_Facts2 Message_Facts3
  Dialog_Model Dialog_Spec Seg_Model Seg_Spec Seg_Facts Seg_Facts2 Seg_Facts3 Seg_Facts4 Seg_Facts5 Seg_Props Seg_Props2
  Answer_Spec.
From Coq Require Import Lia ZifyBool ZifyNat ZifyN.
Open Scope Z_scope.
Ltac Zify.zify_post_hook ::= Z.div_mod_to_equations.

(** ** Segments in general *)
Lemma wire_segform id pos v ref gs : forallb alnum id = true -> Forall (Forall item_ok) gs ->
  segform (segment_wire id pos v ref gs).
Proof.
  intros Hid Hg. unfold segment_wire. fold (wire_elements id pos v ref gs). apply segform_fields.
  - unfold wire_elements. apply strip_Forall. constructor; [now apply header_chunked|].
    apply Forall_forall. intros w Hw. apply in_map_iff in Hw. destruct Hw as (g&<-&Hg'). rewrite Forall_forall in Hg. apply group_chunked, Hg, Hg'.
  - rewrite wire_elements_eq. discriminate.
Qed.
Lemma wire_header id pos v ref gs : forallb alnum id = true -> header_ok pos ref -> 0 <= v <= 99 -> Forall (Forall item_ok) gs ->
  len (segment_wire id pos v ref gs) < 2 ^ 61 -> extract_header (segment_wire id pos v ref gs) = Ok (mkSH id pos v ref).
Proof.
  intros Hid Hh Hv Hg Hl. unfold extract_header. rewrite segment_wire_elements by assumption. cbn [obind].
  rewrite wire_elements_eq. apply header_read; try assumption.
  pose proof (in_wire_len (header_bytes id pos v ref) id pos v ref gs ltac:(now left)). lia.
Qed.
Lemma wire_starts id pos v ref gs : starts_with (id ++ [b_colon]) (segment_wire id pos v ref gs).
Proof.
  unfold segment_wire. fold (wire_elements id pos v ref gs). rewrite wire_elements_eq.
  assert (K : exists r, header_bytes id pos v ref = (id ++ [b_colon]) ++ r).
  { unfold header_bytes. cbn [app]. rewrite join_cons. eexists. rewrite <- app_assoc. cbn [app]. reflexivity. }
  destruct K as [r ->]. destruct (strip (map group_wire gs)) as [|x s].
  - exists (r ++ ["'"%byte]). cbn [join]. rewrite <- !app_assoc. reflexivity.
  - rewrite join_cons. eexists. rewrite <- !app_assoc. reflexivity.
Qed.
Lemma no_prefix p id w : starts_with (id ++ [b_colon]) w -> ~ In b_colon p -> ~ starts_with p id -> has_prefix p w = false.
Proof.
  intros [r ->] Hp Hn. apply not_true_is_false. intros H. apply has_prefix_spec in H. destruct H as [r' H].
  rewrite <- app_assoc in H. cbn [app] in H. revert p Hp Hn H. induction id as [|c id IH]; intros p Hp Hn H.
  - destruct p as [|x p]; [apply Hn; exists []; reflexivity|]. cbn in H. injection H as <- _. apply Hp. now left.
  - destruct p as [|x p]; [apply Hn; exists (c :: id); reflexivity|]. cbn in H. injection H as <- H. apply (IH p).
    + intros K. apply Hp. now right.
    + intros [q ->]. apply Hn. exists q. reflexivity.
    + exact H.
Qed.

(** ** Acknowledgements *)
Lemma notice_strip n : notice_ok n -> strip (map item_wire (notice_items n)) = map item_wire (notice_items n).
Proof.
  intros (_&_&Hl). apply strip_id. unfold notice_items. destruct (exists_last (l := nt_text n :: nt_params n) ltac:(discriminate)) as (q&x&E).
  change ([TDigits 4 (nt_code n); TText (nt_element n); TText (nt_text n)] ++ map TText (nt_params n))
    with ([TDigits 4 (nt_code n); TText (nt_element n)] ++ map TText (nt_text n :: nt_params n)).
  rewrite E in *. rewrite last_last in Hl. rewrite !map_app. rewrite app_assoc. cbn [map]. rewrite last_last. cbn [item_wire].
  intros K. exact (Hl (proj1 (escaped_nil x) K)).
Qed.
Lemma notice_group n : notice_ok n -> len (group_wire (notice_items n)) < 2 ^ 61 -> forall formsg seg,
  group_wire (notice_items n) <> [] /\
  unmarshal_ack formsg seg (group_wire (notice_items n)) = Ok (notice_value formsg ([], 0) seg n).
Proof.
  intros H Hl formsg seg. pose proof (notice_strip n H) as E. destruct H as (Hc&Hg&_).
  assert (Ne : strip (map item_wire (notice_items n)) <> []) by (rewrite E; discriminate). split.
  { apply (group_wire_ne _ (TDigits 4 (nt_code n))); [now left|exact I]. }
  unfold unmarshal_ack. rewrite (group_read _ Hg Ne Hl). rewrite E. cbn [obind]. unfold notice_items. cbn [map app].
  rewrite digits_read by lia. cbn [obind item_wire]. unfold notice_value. f_equal. f_equal; try (rewrite utf8_eq; reflexivity).
  rewrite !map_map. apply map_ext. intros p. cbn [item_wire]. now rewrite utf8_eq.
Qed.
Lemma notices_items l : Forall notice_ok l -> Forall (Forall item_ok) (map notice_items l).
Proof. intros H. apply Forall_map. eapply Forall_impl; [|exact H]. intros n (_&[K _]&_). exact K. Qed.
Lemma notices_read l : Forall notice_ok l -> (forall n, In n l -> len (group_wire (notice_items n)) < 2 ^ 61) -> forall formsg seg,
  Forall (fun w => w <> []) (map group_wire (map notice_items l)) /\
  all_ok (unmarshal_ack formsg seg) (map group_wire (map notice_items l)) = Ok (map (notice_value formsg ([], 0) seg) l).
Proof.
  intros H Hl formsg seg. induction H as [|n l Hn H IH]; [split; [constructor|reflexivity]|].
  destruct IH as [I1 I2]; [intros x Hx; apply Hl; now right|].
  destruct (notice_group n Hn (Hl n ltac:(now left)) formsg seg) as [G1 G2]. cbn [map]. split; [constructor; assumption|].
  cbn [all_ok]. rewrite G2. cbn [obind]. rewrite I2. reflexivity.
Qed.
Lemma notices_segment id pos ref l : forallb alnum id = true -> header_ok pos ref -> Forall notice_ok l ->
  len (segment_wire id pos 2 ref (map notice_items l)) < 2 ^ 61 -> forall formsg,
  unmarshal_acks formsg (segment_wire id pos 2 ref (map notice_items l)) =
    Ok (map (notice_value formsg ([], 0) (match ref with Some r => r | None => if formsg then 0 else -1 end)) l).
Proof.
  intros Hid Hh H Hl formsg. unfold unmarshal_acks. rewrite segment_wire_elements by (auto using notices_items). cbn [obind].
  rewrite wire_elements_eq. rewrite header_read; try assumption; [|lia|].
  2:{ pose proof (in_wire_len (header_bytes id pos 2 ref) id pos 2 ref (map notice_items l) ltac:(now left)). lia. }
  cbn [obind]. destruct (notices_read l H) with (formsg := formsg)
    (seg := if formsg && (referencing_segment (mkSH id pos 2 ref) =? -1) then 0 else referencing_segment (mkSH id pos 2 ref)) as [N1 N2].
  { intros n Hn. apply (element_small (notice_items n) _ _ _ _ _ (in_map _ _ _ Hn)) in Hl. exact Hl. }
  rewrite (strip_full _ N1), N2. do 2 f_equal. f_equal. unfold referencing_segment. cbn [sh_ref].
  destruct ref as [r|]; [|destruct formsg; reflexivity]. destruct Hh as [_ Hr]. replace (r =? -1) with false by lia. now rewrite andb_false_r.
Qed.

Lemma number_item n : number_ok n -> Forall item_ok [TNumber n].
Proof. intros H. constructor; [exact H|constructor]. Qed.
Lemma reads_reply : reads unmarshal_ref reply_items (fun r => group_ok (reply_items r)) (fun r => (utf8 (escaped (fst r)), snd r)).
Proof.
  intros [d n] H Hl. unfold reply_items in *. cbn [fst snd] in *. split.
  { apply (group_wire_ne _ (TNumber n)); [right; now left|exact I]. }
  unfold unmarshal_ref. change [TText d; TNumber n] with ([TText d] ++ [TNumber n]) in *.
  rewrite group_read_present; [|exact H|exact I|exact Hl]. cbn [map app].
  destruct H as [H _]. apply Forall_app in H. destruct H as [_ H]. inversion H as [|? ? Hn _]; subst.
  rewrite number_read by exact Hn. cbn [obind item_wire]. now rewrite utf8_eq.
Qed.

(** ** Segments kept as they are *)
Lemma shown_ne g : shown g -> group_wire g <> [].
Proof. intros (i&Hi&Hp). now apply (group_wire_ne g i). Qed.
Lemma nth_pre {A} (h : A) pre tail k : List.length pre = k -> nth_error (h :: pre ++ tail) (S k) = nth_error tail 0.
Proof. intros H. cbn [nth_error]. rewrite nth_error_app2 by lia. now replace (k - List.length pre)%nat with 0%nat by lia. Qed.
(** A field whose reader panics: only if it is there. *)
Lemma panic_tail {A} h pre tail k : List.length pre = k -> Forall shown tail ->
  last_field (S k) (fun _ => Panic (A := A)) (strip (h :: map group_wire (pre ++ tail))) = if is_nil tail then Ok None else Panic.
Proof.
  intros H Hs. unfold last_field. rewrite strip_nonempty_nth. unfold nonempty_nth. rewrite map_app, nth_pre by now rewrite map_length.
  destruct Hs as [|g tail Hg _]; [reflexivity|]. cbn [map nth_error is_nil].
  pose proof (shown_ne g Hg). destruct (group_wire g); [congruence|reflexivity].
Qed.
Lemma panic_one {A} h pre g k : List.length pre = k -> (g = [] \/ shown g) ->
  last_field (S k) (fun _ => Panic (A := A)) (strip (h :: map group_wire (pre ++ [g]))) = if is_nil g then Ok None else Panic.
Proof.
  intros H Hs. unfold last_field. rewrite strip_nonempty_nth. unfold nonempty_nth. rewrite map_app, nth_pre by now rewrite map_length.
  cbn [map nth_error]. destruct Hs as [-> |Hg]; [reflexivity|].
  pose proof (shown_ne g Hg) as N. destruct g as [|i g]; [destruct Hg as (i&[]&_)|]. cbn [is_nil]. destruct (group_wire (i :: g)); [congruence|reflexivity].
Qed.
Lemma opt_first {A} (g : A -> list item) (o : option A) (P : A -> Prop) : (forall a, Forall item_ok (g a) -> P a) -> Forall item_ok (opt_group g o) -> opt_ok P o.
Proof. intros H. destruct o; cbn [opt_group opt_ok]; [apply H|intros _; exact I]. Qed.
Lemma opt_number o : Forall item_ok (opt_group number_group o) -> opt_ok number_ok o.
Proof. apply opt_first. intros a H. inversion H; subst. assumption. Qed.
Lemma opt_date o : Forall item_ok (opt_group date_group o) -> opt_ok real_date o.
Proof. apply opt_first. intros a H. inversion H; subst. assumption. Qed.
Lemma opt_money o : Forall item_ok (opt_group money_group o) -> opt_ok (fun x => item_ok (TMoney (fst x) (snd x))) o.
Proof. apply opt_first. intros a H. inversion H; subst. assumption. Qed.
Lemma opt_binary o : Forall item_ok (opt_group binary_group o) -> opt_ok (fun d => Z.of_nat (List.length d) <= 2 ^ 48) o.
Proof. apply opt_first. intros a H. inversion H; subst. assumption. Qed.

Definition status_element (s : status_info) : hipro :=
  mkHipro (option_map (fun r => (utf8 (escaped (fst r)), snd r)) (st_message s)) (st_segment s) (Some (st_day s)) (Some (st_time s))
    (Some (notice_value true ([], 0) 0 (st_notice s))).
Lemma hipro_read pos v ref s : header_ok pos ref -> kept_ok (KStatus v s) ->
  len (segment_wire (B "HIPRO") pos v ref (kept_fields (KStatus v s))) < 2 ^ 61 ->
  unmarshal_hipro (segment_wire (B "HIPRO") pos v ref (kept_fields (KStatus v s))) = Ok (status_element s).
Proof.
  intros Hh [Hi (Hv&Hm&Hn)] Hl. unfold unmarshal_hipro. rewrite segment_wire_read; [|reflexivity|exact Hh|lia|exact Hi|exact Hl].
  assert (S : forall g, In g (kept_fields (KStatus v s)) -> len (group_wire g) < 2 ^ 61) by (intros g Hg; now apply (element_small g _ _ _ _ _ Hg) in Hl).
  cbn [kept_fields] in *. rewrite !Forall_cons_iff in Hi. destruct Hi as (_&Hs&Hd&Ht&_). apply opt_number in Hs.
  destruct Hd as [Hd _]. destruct Ht as [Ht _]. unfold wire_elements. rewrite !field_strip, last_field_strip by reflexivity.
  rewrite (field_opt _ _ _ _ 1 _ (st_message s) reads_reply); [|reflexivity|exact Hm|apply S; cbn; tauto]. cbn [obind].
  rewrite (field_opt _ _ _ _ 2 _ (st_segment s) reads_number); [|reflexivity|exact Hs|apply S; cbn; tauto]. cbn [obind].
  rewrite (field_some _ _ _ _ 3 _ (st_day s) reads_date); [|reflexivity|exact Hd|apply S; cbn; tauto]. cbn [obind].
  rewrite (field_some _ _ _ _ 4 _ (st_time s) reads_time); [|reflexivity|exact Ht|apply S; cbn; tauto]. cbn [obind].
  rewrite (field_some (unmarshal_ack true 0) notice_items notice_ok (notice_value true ([], 0) 0) 5 _ (st_notice s)); [| |reflexivity|exact Hn|apply S; cbn; tauto].
  - cbn [obind]. unfold status_element. destruct (st_segment s); reflexivity.
  - intros n H1 H2. now apply notice_group.
Qed.
Lemma hitan_read pos ref process hash reference further : header_ok pos ref -> kept_ok (KTan process hash reference further) ->
  len (segment_wire (B "HITAN") pos 6 ref (kept_fields (KTan process hash reference further))) < 2 ^ 61 ->
  exists r, unmarshal_hitan (segment_wire (B "HITAN") pos 6 ref (kept_fields (KTan process hash reference further))) =
    Ok (mkHitan (option_map utf8 (nonempty process)) hash r) /\
    (reference <> [] -> r = Some (unmarshal_text (join [b_plus] (strip (map group_wire ([TText reference] :: further)))))).
Proof.
  intros Hh [Hi _] Hl. unfold unmarshal_hitan. rewrite segment_wire_read; [|reflexivity|exact Hh|lia|exact Hi|exact Hl].
  assert (S : forall g, In g (kept_fields (KTan process hash reference further)) -> len (group_wire g) < 2 ^ 61) by (intros g Hg; now apply (element_small g _ _ _ _ _ Hg) in Hl).
  cbn [kept_fields] in *. cbn [app] in *. rewrite !Forall_cons_iff in Hi. destruct Hi as (_&Hb&_). apply opt_binary in Hb.
  unfold wire_elements. rewrite !field_strip. rewrite (field_text 1 _ process) by reflexivity. cbn [obind].
  rewrite (field_opt _ _ _ _ 2 _ hash reads_binary); [|reflexivity|exact Hb|apply S; cbn; tauto]. cbn [obind].
  replace (option_map (fun d : bytes => d) hash) with hash by (destruct hash; reflexivity).
  unfold last_field. rewrite strip_nonempty_nth. unfold nonempty_nth. cbn [map nth_error]. rewrite !single_wire.
  pose proof (escaped_nil reference) as Hn. cbn [item_wire].
  destruct (escaped reference) as [|x w] eqn:E.
  - cbn [opt_parse obind]. eexists. split; [reflexivity|]. intros K. destruct (K (proj1 Hn eq_refl)).
  - cbn [opt_parse text obind]. eexists. split; [reflexivity|]. intros _. do 3 f_equal.
    rewrite strip_cons_ne by apply header_ne.
    assert (L : strip ((x :: w) :: map group_wire further) = (x :: w) :: strip (map group_wire further)) by (apply strip_cons_ne; discriminate).
    assert (K : forall y z l, strip (y :: z :: (x :: w) :: l) = y :: z :: strip ((x :: w) :: l)).
    { intros y z l. pose proof (strip_cons_ne (x :: w) l ltac:(discriminate)) as Q. cbn [strip] in *. destruct (strip l), y, z; reflexivity. }
    rewrite K. cbn [skipn]. reflexivity.
Qed.
Lemma hikim_read pos ref subject body : header_ok pos ref -> kept_ok (KNews subject body) ->
  len (segment_wire (B "HIKIM") pos 2 ref (kept_fields (KNews subject body))) < 2 ^ 61 ->
  unmarshal_hikim (segment_wire (B "HIKIM") pos 2 ref (kept_fields (KNews subject body))) =
    Ok (mkHikim (option_map utf8 (nonempty subject)) (option_map utf8 (nonempty body))).
Proof.
  intros Hh [Hi _] Hl. unfold unmarshal_hikim. rewrite segment_wire_read; [|reflexivity|exact Hh|lia|exact Hi|exact Hl].
  unfold wire_elements. rewrite field_strip, last_field_strip by reflexivity.
  rewrite (field_text 1 _ subject) by reflexivity. cbn [obind]. now rewrite (field_text 2 _ body) by reflexivity.
Qed.

Lemma three_read x : three_ok x -> len (group_wire (three_items x)) < 2 ^ 61 ->
  group_wire (three_items x) <> [] /\ group_extract (group_wire (three_items x)) = Ok (map item_wire (three_items x)).
Proof.
  destruct x as [[a b] c]. intros [H1 H2] Hl. cbn [three_items snd] in *. split; [apply (group_wire_ne _ (TText c)); [cbn; tauto|exact H2]|].
  change [TText a; TText b; TText c] with ([TText a; TText b] ++ [TText c]) in *. now apply group_read_present.
Qed.
Lemma field_here {A} k (f : bytes -> outcome A) (es : list bytes) (w : bytes) x : nth_error es k = Some w -> w <> [] -> f w = Ok x -> field k f es = Ok (Some x).
Proof. intros H1 H2 H3. unfold field, nonempty_nth. rewrite H1. destruct w; [congruence|]. cbn [opt_parse]. now rewrite H3. Qed.
Lemma field_conj {A} k (f : bytes -> outcome A) (es : list bytes) (w : bytes) x :
  nth_error es k = Some w -> w <> [] /\ f w = Ok x -> field k f es = Ok (Some x).
Proof. intros H1 [H2 H3]. now apply (field_here k f es w). Qed.
Lemma number_conj n : number_ok n -> group_wire [TNumber n] <> [] /\ unmarshal_int (group_wire [TNumber n]) = Ok n.
Proof. intros H. rewrite single_wire. split; [now apply item_present|now apply number_read]. Qed.
Lemma bank_ok_reads x : bank_items_ok x -> len (group_wire (bank_items x)) < 2 ^ 61 -> group_wire (bank_items x) <> [] /\
  unmarshal_bank (group_wire (bank_items x)) = Ok (Some (fst x), utf8 (snd x)).
Proof.
  intros ((Hi&_)&H2&H3) Hl. apply (reads_bank x); [|exact Hl]. unfold bank_items in Hi. rewrite !Forall_cons_iff in Hi.
  destruct Hi as (Hc&Hb&_). split; [exact Hc|]. split; [exact Hb|]. split; assumption.
Qed.
Lemma len_join_firstn c n (l : list bytes) : len (join [c] (firstn n l)) <= len (join [c] l).
Proof.
  revert l. induction n as [|n IH]; intros l; [cbn [firstn join]; apply len_nonneg|]. destruct l as [|x l]; [reflexivity|]. cbn [firstn].
  specialize (IH l). destruct l as [|y l]; [rewrite firstn_nil; reflexivity|]. destruct n as [|n].
  - cbn [firstn]. change (join [c] [x]) with x. rewrite join_cons, !len_app. pose proof (len_nonneg (join [c] (y :: l))). pose proof (len_nonneg [c]). lia.
  - cbn [firstn] in *. rewrite !join_cons, !len_app. lia.
Qed.
Lemma key_name_read s : bank_items_ok (sg_bank s) -> groupable (TText (sg_user s)) -> groupable (TText (sg_key s)) ->
  let g := bank_items (sg_bank s) ++ [TText (sg_user s); TText (sg_key s); TNumber (sg_key_number s); TNumber (sg_key_version s)] in
  Forall item_ok g -> len (group_wire g) < 2 ^ 61 -> group_wire g <> [] /\ unmarshal_key_name (group_wire g) = Ok tt.
Proof.
  intros Hb Hu Hk g Hi Hl. split; [apply (group_wire_ne _ (TNumber (sg_key_version s))); [unfold g; apply in_or_app; right; cbn; tauto|exact I]|].
  unfold unmarshal_key_name.
  assert (Eg : g = (bank_items (sg_bank s) ++ [TText (sg_user s); TText (sg_key s); TNumber (sg_key_number s)]) ++ [TNumber (sg_key_version s)])
    by (unfold g; now rewrite <- app_assoc).
  rewrite Eg in *. rewrite group_read_present; [|split; [exact Hi|]|exact I|exact Hl].
  2:{ apply Forall_app. split; [|constructor; [exact I|constructor]]. apply Forall_app. split; [apply (proj1 Hb)|].
      constructor; [exact Hu|]. constructor; [exact Hk|]. constructor; [exact I|constructor]. }
  rewrite <- app_assoc in *. cbn [app bank_items map] in *. cbn [obind List.length Nat.ltb Nat.leb]. rewrite !Forall_cons_iff in Hi.
  destruct Hi as (Hc&Hn&_&_&Hn1&Hn2&_).
  assert (Eb : group_wire (bank_items (sg_bank s)) = join [b_colon] [item_wire (TDigits 3 (fst (sg_bank s))); item_wire (TText (snd (sg_bank s)))]).
  { unfold group_wire, bank_items. change [TDigits 3 (fst (sg_bank s)); TText (snd (sg_bank s))] with ([TDigits 3 (fst (sg_bank s))] ++ [TText (snd (sg_bank s))]).
    rewrite strip_present; [reflexivity|exact (proj1 (proj2 Hb))]. }
  assert (Hlb : len (group_wire (bank_items (sg_bank s))) < 2 ^ 61).
  { eapply Z.le_lt_trans; [|exact Hl]. rewrite Eb. unfold group_wire.
    match goal with |- _ <= len (join _ (strip (map item_wire ?l))) => change l with (firstn 5 l ++ [TNumber (sg_key_version s)]) end.
    rewrite strip_present by exact I. cbn [firstn app map]. change [":"%byte] with [b_colon].
    match goal with |- _ <= len (join _ ?l) => exact (len_join_firstn b_colon 2 l) end. }
  destruct (bank_ok_reads _ Hb Hlb) as [N R]. rewrite Eb in N, R.
  unfold nonempty_nth at 1. cbn [nth_error firstn]. pose proof (item_present (TDigits 3 (fst (sg_bank s))) I) as P1.
  destruct (item_wire (TDigits 3 (fst (sg_bank s)))) as [|x w]; [congruence|]. cbn [opt_parse]. rewrite R. cbn [obind].
  rewrite (field_here 4 unmarshal_int _ (item_wire (TNumber (sg_key_number s))) (sg_key_number s)); [|reflexivity|now apply item_present|now apply number_read]. cbn [obind].
  rewrite (field_here 5 unmarshal_int _ (item_wire (TNumber (sg_key_version s))) (sg_key_version s)); [|reflexivity|now apply item_present|now apply number_read]. reflexivity.
Qed.
Lemma security_id_read party system : group_ok [TText party; TText []; TText system] -> system <> [] ->
  len (group_wire [TText party; TText []; TText system]) < 2 ^ 61 ->
  group_wire [TText party; TText []; TText system] <> [] /\ unmarshal_security_id (group_wire [TText party; TText []; TText system]) = Ok tt.
Proof.
  intros H1 H2 Hl. split; [apply (group_wire_ne _ (TText system)); [cbn; tauto|exact H2]|]. unfold unmarshal_security_id.
  change [TText party; TText []; TText system] with ([TText party; TText []] ++ [TText system]) in *.
  rewrite group_read_present by assumption. cbn [app map obind List.length Nat.ltb Nat.leb].
  assert (T : forall k es, exists r, field k text es = Ok r).
  { intros k es. unfold field. destruct (nonempty_nth k es); cbn [opt_parse text obind]; eexists; reflexivity. }
  match goal with |- context [field 0 text ?es] => destruct (T 0%nat es) as [r0 ->] end. cbn [obind].
  unfold field at 1, nonempty_nth at 1. cbn [nth_error item_wire]. change (escaped []) with (@nil byte). cbn [opt_parse obind].
  match goal with |- context [field 2 text ?es] => destruct (T 2%nat es) as [r2 ->] end. reflexivity.
Qed.
Lemma security_date_read d t : real_date d -> real_time t -> let g := [TText (B "1"); TDate d; TTime t] in
  len (group_wire g) < 2 ^ 61 -> group_wire g <> [] /\ unmarshal_security_date (group_wire g) = Ok tt.
Proof.
  intros Hd Ht g Hl. split; [apply (group_wire_ne _ (TTime t)); [cbn; tauto|exact I]|]. unfold unmarshal_security_date, g in *.
  change [TText (B "1"); TDate d; TTime t] with ([TText (B "1"); TDate d] ++ [TTime t]) in *.
  rewrite group_read_present; [|split|exact I|exact Hl].
  - cbn [app map obind List.length Nat.ltb Nat.leb].
    rewrite (field_here 0 text _ (item_wire (TText (B "1"))) (utf8 (B "1"))); [|reflexivity|discriminate|apply text_read]. cbn [obind].
    rewrite (field_here 1 unmarshal_date _ (item_wire (TDate d)) d); [|reflexivity|now apply item_present|now apply date_read]. cbn [obind].
    rewrite (field_here 2 unmarshal_time _ (item_wire (TTime t)) t); [|reflexivity|now apply item_present|now apply time_read]. reflexivity.
  - cbn [app]. constructor; [split; [intros [K|[]]; discriminate|reflexivity]|]. constructor; [exact Hd|]. constructor; [exact Ht|constructor].
  - cbn [app]. constructor; [split; intros [K|[]]; discriminate|]. constructor; [exact I|]. constructor; [exact I|constructor].
Qed.
Lemma profile_read m n : group_ok [TText m; TNumber n] -> len (group_wire [TText m; TNumber n]) < 2 ^ 61 ->
  group_wire [TText m; TNumber n] <> [] /\ unmarshal_profile (group_wire [TText m; TNumber n]) = Ok tt.
Proof.
  intros H Hl. split; [apply (group_wire_ne _ (TNumber n)); [cbn; tauto|exact I]|]. unfold unmarshal_profile.
  change [TText m; TNumber n] with ([TText m] ++ [TNumber n]) in *. rewrite group_read_present; [|exact H|exact I|exact Hl].
  cbn [app map obind]. destruct H as [H _]. apply Forall_app in H. destruct H as [_ H]. apply Forall_inv in H. rewrite number_read by exact H. reflexivity.
Qed.
Lemma hash_read x : three_ok x -> len (group_wire (three_items x)) < 2 ^ 61 ->
  group_wire (three_items x) <> [] /\ unmarshal_hash_algorithm (group_wire (three_items x)) = Ok tt.
Proof.
  intros H Hl. destruct (three_read x H Hl) as [N R]. split; [exact N|]. unfold unmarshal_hash_algorithm. rewrite R. destruct x as [[a b] c]. reflexivity.
Qed.
Lemma algorithm_read x : three_ok x -> len (group_wire (three_items x)) < 2 ^ 61 ->
  group_wire (three_items x) <> [] /\ unmarshal_signature_algorithm (group_wire (three_items x)) = Ok tt.
Proof.
  intros H Hl. destruct (three_read x H Hl) as [N R]. split; [exact N|]. unfold unmarshal_signature_algorithm. rewrite R. destruct x as [[a b] c]. reflexivity.
Qed.

Lemma sighead_fields v s certificate t1 t2 t3 t4 : sg_texts s = (t1, t2, t3, t4) ->
  kept_fields (KSigHead v s certificate) =
  ((if v =? 3 then [] else [[TText (sg_method s); TNumber (sg_method_version s)]]) ++
   [[TText t1]; [TText t2]; [TText t3]; [TText t4]; [TText (sg_party s); TText []; TText (sg_system s)];
    [TNumber (sg_number s)]; [TText (B "1"); TDate (sg_day s); TTime (sg_time s)]; three_items (sg_hash s);
    three_items (sg_algorithm s);
    bank_items (sg_bank s) ++
      [TText (sg_user s); TText (sg_key s); TNumber (sg_key_number s); TNumber (sg_key_version s)]]) ++ [certificate].
Proof. intros E. cbn [kept_fields]. rewrite E, <- app_assoc. reflexivity. Qed.
Lemma hnshk_read pos v ref s certificate : header_ok pos ref -> kept_ok (KSigHead v s certificate) ->
  len (segment_wire (B "HNSHK") pos v ref (kept_fields (KSigHead v s certificate))) < 2 ^ 61 ->
  unmarshal_hnshk v (segment_wire (B "HNSHK") pos v ref (kept_fields (KSigHead v s certificate))) = if is_nil certificate then Ok tt else Panic.
Proof.
  intros Hh [Hi (Hv&Hg&Hs&H1&H2&H3&H4&H5&H6)] Hl. destruct (sg_texts s) as [[[t1 t2] t3] t4] eqn:Et.
  rewrite (sighead_fields v s certificate _ _ _ _ Et) in *.
  unfold unmarshal_hnshk. rewrite segment_wire_read; [|reflexivity|exact Hh|lia|exact Hi|exact Hl].
  match type of Hi with Forall _ (?p ++ _) => set (pre := p) in * end.
  assert (Sm : forall g, In g (pre ++ [certificate]) -> len (group_wire g) < 2 ^ 61) by (intros g Hg'; now apply (element_small g _ _ _ _ _ Hg') in Hl).
  rewrite !Forall_cons_iff in Hg. destruct Hg as (G1&G2&G3&_).
  apply Forall_app in Hi. destruct Hi as [Hi _]. apply Forall_app in Hi. destruct Hi as [Hp Hi].
  rewrite !Forall_cons_iff in Hi. destruct Hi as (_&_&_&_&Hsid&(Hnum&_)&(_&Hd&Ht&_)&_&_&Hkey&_).
  assert (Gsid : group_ok [TText (sg_party s); TText []; TText (sg_system s)]).
  { split; [rewrite !Forall_cons_iff; exact Hsid|]. constructor; [exact G2|]. constructor; [split; intros []|]. constructor; [exact G3|constructor]. }
  unfold wire_elements.
  assert (Q : last_field (S (List.length pre)) unmarshal_certificate (strip (header_bytes (B "HNSHK") pos v ref :: map group_wire (pre ++ [certificate]))) =
    if is_nil certificate then Ok None else Panic) by (now apply panic_one).
  assert (Ev : v = 3 \/ v = 4) by lia. destruct Ev as [-> | ->]; cbn [Z.eqb Pos.eqb] in *; cbv zeta; unfold pre in *; cbn [app List.length Nat.add] in *.
  - rewrite !field_strip. cbn [obind].
    erewrite field_conj; [|reflexivity|apply security_id_read; [exact Gsid|exact Hs|apply Sm; cbn; tauto]]. cbn [obind].
    erewrite field_conj; [|reflexivity|apply number_conj; assumption]. cbn [obind].
    erewrite field_conj; [|reflexivity|apply security_date_read; [exact Hd|exact Ht|apply Sm; cbn; tauto]]. cbn [obind].
    erewrite field_conj; [|reflexivity|apply hash_read; [exact H1|apply Sm; cbn; tauto]]. cbn [obind].
    erewrite field_conj; [|reflexivity|apply algorithm_read; [exact H2|apply Sm; cbn; tauto]]. cbn [obind].
    erewrite field_conj; [|reflexivity|apply key_name_read; try assumption; apply Sm; cbn; tauto]. cbn [obind].
    rewrite Q. destruct (is_nil certificate); reflexivity.
  - rewrite !field_strip. apply Forall_inv in Hp.
    erewrite field_conj; [|reflexivity|apply profile_read; [split; [exact Hp|constructor; [exact G1|constructor; [exact I|constructor]]]|apply Sm; cbn; tauto]]. cbn [obind].
    erewrite field_conj; [|reflexivity|apply security_id_read; [exact Gsid|exact Hs|apply Sm; cbn; tauto]]. cbn [obind].
    erewrite field_conj; [|reflexivity|apply number_conj; assumption]. cbn [obind].
    erewrite field_conj; [|reflexivity|apply security_date_read; [exact Hd|exact Ht|apply Sm; cbn; tauto]]. cbn [obind].
    erewrite field_conj; [|reflexivity|apply hash_read; [exact H1|apply Sm; cbn; tauto]]. cbn [obind].
    erewrite field_conj; [|reflexivity|apply algorithm_read; [exact H2|apply Sm; cbn; tauto]]. cbn [obind].
    erewrite field_conj; [|reflexivity|apply key_name_read; try assumption; apply Sm; cbn; tauto]. cbn [obind].
    rewrite Q. destruct (is_nil certificate); reflexivity.
Qed.
Lemma pin_group_read x : group_ok (pin_items x) -> snd x <> [] -> len (group_wire (pin_items x)) < 2 ^ 61 ->
  group_wire (pin_items x) <> [] /\ group_extract (group_wire (pin_items x)) = Ok (map item_wire (pin_items x)).
Proof.
  destruct x as [p t]. unfold pin_items. cbn [fst snd]. intros H1 H2 Hl. split; [apply (group_wire_ne _ (TText t)); [cbn; tauto|exact H2]|].
  change [TText p; TText t] with ([TText p] ++ [TText t]) in *. now apply group_read_present.
Qed.
Lemma hnsha_read pos v ref control signature pin : header_ok pos ref -> kept_ok (KSigEnd v control signature pin) ->
  len (segment_wire (B "HNSHA") pos v ref (kept_fields (KSigEnd v control signature pin))) < 2 ^ 61 ->
  unmarshal_hnsha v (segment_wire (B "HNSHA") pos v ref (kept_fields (KSigEnd v control signature pin))) =
    if crashes (KSigEnd v control signature pin) then Panic else Ok tt.
Proof.
  intros Hh [Hi (Hv&Hp)] Hl. unfold unmarshal_hnsha. rewrite segment_wire_read; [|reflexivity|exact Hh|lia|exact Hi|exact Hl].
  assert (S : forall g, In g (kept_fields (KSigEnd v control signature pin)) -> len (group_wire g) < 2 ^ 61) by (intros g Hg; now apply (element_small g _ _ _ _ _ Hg) in Hl).
  cbn [kept_fields] in *. rewrite !Forall_cons_iff in Hi. destruct Hi as (_&Hb&_). apply opt_binary in Hb.
  unfold wire_elements. rewrite field_strip, last_field_strip by reflexivity.
  rewrite (field_opt _ _ _ _ 2 _ signature reads_binary); [|reflexivity|exact Hb|apply S; cbn; tauto]. cbn [obind crashes].
  assert (Sp : len (group_wire (opt_group pin_items pin)) < 2 ^ 61) by (apply S; cbn; tauto).
  unfold field, nonempty_nth. cbn [map nth_error]. destruct pin as [x|]; cbn [opt_group opt_ok] in *.
  - destruct Hp as [P1 P2]. destruct (pin_group_read x P1 P2 Sp) as [N R]. destruct (group_wire (pin_items x)) as [|b w]; [congruence|]. cbn [opt_parse].
    assert (Ev : v = 1 \/ v = 2) by lia. destruct Ev as [-> | ->]; cbn [Z.eqb Pos.eqb andb].
    + unfold unmarshal_pin_tan. rewrite R. destruct x. reflexivity.
    + unfold unmarshal_custom_signature. rewrite R. destruct x. reflexivity.
  - rewrite andb_false_r. reflexivity.
Qed.
Lemma hikom_read pos ref bank language ways : header_ok pos ref -> kept_ok (KWays bank language ways) ->
  len (segment_wire (B "HIKOM") pos 3 ref (kept_fields (KWays bank language ways))) < 2 ^ 61 ->
  unmarshal_hikom (segment_wire (B "HIKOM") pos 3 ref (kept_fields (KWays bank language ways))) = if is_nil ways then Ok tt else Panic.
Proof.
  intros Hh [Hi (Hb&Hw)] Hl. unfold unmarshal_hikom. rewrite segment_wire_read; [|reflexivity|exact Hh|lia|exact Hi|exact Hl].
  assert (S : forall g, In g (kept_fields (KWays bank language ways)) -> len (group_wire g) < 2 ^ 61) by (intros g Hg; now apply (element_small g _ _ _ _ _ Hg) in Hl).
  cbn [kept_fields] in *. apply Forall_app in Hi. destruct Hi as [Hi _]. rewrite !Forall_cons_iff in Hi. destruct Hi as (_&(Hn&_)&_).
  unfold wire_elements. rewrite !field_strip, (panic_tail _ [bank_items bank; [TNumber language]] ways 2 eq_refl Hw).
  erewrite field_conj; [|reflexivity|apply bank_ok_reads; [exact Hb|apply S; cbn; tauto]]. cbn [obind].
  erewrite field_conj; [|reflexivity|apply number_conj; assumption]. cbn [obind].
  destruct (is_nil ways); reflexivity.
Qed.
Lemma hikpv_read pos ref methods : header_ok pos ref -> kept_ok (KPacking methods) ->
  len (segment_wire (B "HIKPV") pos 1 ref (kept_fields (KPacking methods))) < 2 ^ 61 ->
  unmarshal_hikpv (segment_wire (B "HIKPV") pos 1 ref (kept_fields (KPacking methods))) = if is_nil methods then Ok tt else Panic.
Proof.
  intros Hh [Hi Hw] Hl. unfold unmarshal_hikpv. rewrite segment_wire_read; [|reflexivity|exact Hh|lia|exact Hi|exact Hl].
  unfold wire_elements. rewrite (panic_tail _ [] methods 0 eq_refl Hw). destruct (is_nil methods); reflexivity.
Qed.

(** ** Security methods *)
Lemma last_cons_ne {A} (x : A) l d : l <> [] -> last (x :: l) d = last l d.
Proof. destruct l; [congruence|reflexivity]. Qed.
Lemma alnum_no x l : forallb alnum l = true -> alnum x = false -> ~ In x l.
Proof. intros H1 H2 H3. apply (proj1 (forallb_forall _ _) H1) in H3. congruence. Qed.
Lemma split_none c l : ~ In c l -> split_on c l = [l].
Proof.
  induction l as [|x l IH]; intros H; [reflexivity|]. cbn [split_on]. destruct (beq_spec x c) as [->|_]; [exfalso; apply H; now left|].
  rewrite IH; [reflexivity|]. intros K. apply H. now right.
Qed.
(** Something follows a ':'. *)
Lemma split_some c a b r : exists x rest, split_on c (a ++ c :: b :: r) = x :: rest /\
  (b <> c -> existsb (fun p : bytes => match p with [] => false | _ => true end) rest = true).
Proof.
  induction a as [|y a IH].
  - cbn [app split_on]. rewrite beq_refl. eexists _, _. split; [reflexivity|]. intros Hb.
    destruct (beq_spec b c) as [->|_]; [congruence|]. destruct (split_on c r); reflexivity.
  - destruct IH as (x&rest&E&H). cbn [app]. cbn [split_on] in *. destruct (beq y c).
    + rewrite E. eexists _, _. split; [reflexivity|]. intros Hb. cbn [existsb]. rewrite (H Hb). apply orb_true_r.
    + rewrite E. eexists _, _. split; [reflexivity|exact H].
Qed.
Lemma alnum_escaped l : forallb alnum l = true -> escaped l = l.
Proof.
  intros H. apply no_syntax_escaped. intros c Hc. apply alnum_no; [exact H|]. cbn in Hc.
  repeat (destruct Hc as [<-|Hc]; [reflexivity|]). destruct Hc.
Qed.
Lemma method_wire m : group_wire (method_items m) = join [b_colon] (escaped (fst m) :: map itoa (snd m)).
Proof.
  unfold group_wire, method_items. cbn [map]. rewrite map_map. cbn [item_wire]. destruct (snd m) as [|n l] eqn:E.
  - cbn [map]. destruct (escaped (fst m)) eqn:K; cbn [strip]; reflexivity.
  - rewrite strip_id; [reflexivity|]. rewrite last_cons_ne by discriminate. 
    clear. revert n. induction l as [|x l IH]; intros n; [apply itoa_ne|]. cbn [map]. rewrite last_cons_ne by discriminate. apply IH.
Qed.
Lemma join_in c (l : list bytes) w : In w l -> exists p q, join [c] l = p ++ w ++ q.
Proof.
  induction l as [|x l IH]; [intros []|]. intros [-> | H].
  - destruct l as [|y l]; [exists [], []; cbn; now rewrite app_nil_r|]. exists [], ([c] ++ join [c] (y :: l)). rewrite join_cons. reflexivity.
  - destruct (IH H) as (p&q&E). destruct l as [|y l]; [destruct H|]. exists (x ++ [c] ++ p), q. rewrite join_cons, E. now rewrite <- !app_assoc.
Qed.
Lemma join_none c x (l : list bytes) : x <> c -> Forall (fun w => ~ In x w) l -> ~ In x (join [c] l).
Proof.
  intros Hc. induction l as [|w l IH]; [intros _ []|]. intros H. inversion H as [|? ? H1 H2]; subst. destruct l as [|y l]; [exact H1|].
  rewrite join_cons. intros K. apply in_app_or in K. destruct K as [K|[K|K]]; [contradiction|congruence|now apply IH].
Qed.
Lemma digit_head n : 0 <= n -> exists d r, itoa n = d :: r /\ is_digit d = true.
Proof.
  intros H. pose proof (itoa_ne n) as N. unfold itoa in *. destruct (n <? 0) eqn:E; [lia|]. pose proof (itoa_N_digits (Z.to_N n)) as D.
  destruct (itoa_N (Z.to_N n)) as [|d r]; [congruence|]. cbn [forallb] in D. apply andb_prop in D. exists d, r. split; [reflexivity|apply D].
Qed.
Lemma methods_read methods : Forall (fun m : bytes * list Z => forallb alnum (fst m) = true /\ fst m <> []) methods ->
  Forall (Forall item_ok) (map method_items methods) ->
  unmarshal_methods (join [b_plus] (map group_wire (map method_items methods))) = if existsb (fun m => negb (is_nil (snd m))) methods then Panic else Ok tt.
Proof.
  intros H Hi. unfold unmarshal_methods. destruct (existsb _ methods) eqn:E.
  - apply existsb_exists in E. destruct E as (m&Hm&E). destruct (snd m) as [|n l] eqn:Es; [discriminate|].
    destruct (join_in b_plus (map group_wire (map method_items methods)) (group_wire (method_items m))) as (p&q&Ej); [now apply in_map, in_map|].
    assert (Hn : 0 <= n).
    { rewrite Forall_forall in Hi. specialize (Hi (method_items m) (in_map _ _ _ Hm)). unfold method_items in Hi. rewrite Es in Hi. cbn [map] in Hi.
      rewrite !Forall_cons_iff in Hi. destruct Hi as (_&Hn&_). cbn in Hn. lia. }
    destruct (digit_head n Hn) as (d&r&Ed&Hd).
    assert (Ew : exists q', p ++ group_wire (method_items m) ++ q = (p ++ escaped (fst m)) ++ b_colon :: d :: q').
    { rewrite method_wire, Es. cbn [map]. rewrite join_cons. destruct (map itoa l) as [|y l'].
      - change (join [b_colon] [itoa n]) with (itoa n). rewrite Ed. exists (r ++ q). rewrite <- !app_assoc. reflexivity.
      - rewrite join_cons, Ed. eexists. rewrite <- !app_assoc. cbn [app]. reflexivity. }
    destruct Ew as [q' Ew]. rewrite Ej, Ew. destruct (split_some b_colon (p ++ escaped (fst m)) d q') as (x&rest&Ex&Hx).
    assert (Dc : d <> b_colon) by (intros ->; discriminate). specialize (Hx Dc). rewrite Ex.
    match goal with |- context [existsb ?f rest] => replace (existsb f rest) with true by (symmetry; exact Hx) end. reflexivity.
  - rewrite split_none; [reflexivity|]. apply join_none; [discriminate|]. rewrite map_map. apply Forall_map, Forall_forall. intros m Hm.
    rewrite Forall_forall in H. destruct (H m Hm) as [Ha _]. rewrite method_wire.
    assert (Es : snd m = []). { destruct (snd m) eqn:K; [reflexivity|]. exfalso. assert (existsb (fun m : bytes * list Z => negb (is_nil (snd m))) methods = true) by (apply existsb_exists; exists m; split; [exact Hm|now rewrite K]). congruence. }
    rewrite Es. cbn [map join]. rewrite alnum_escaped by exact Ha. apply alnum_no; [exact Ha|reflexivity].
Qed.
Lemma hishv_read pos ref mixed methods : header_ok pos ref -> kept_ok (KMethods mixed methods) ->
  len (segment_wire (B "HISHV") pos 2 ref (kept_fields (KMethods mixed methods))) < 2 ^ 61 ->
  unmarshal_hishv (segment_wire (B "HISHV") pos 2 ref (kept_fields (KMethods mixed methods))) =
    if crashes (KMethods mixed methods) then Panic else Ok tt.
Proof.
  intros Hh [Hi Hm] Hl. unfold unmarshal_hishv. rewrite segment_wire_read; [|reflexivity|exact Hh|lia|exact Hi|exact Hl].
  cbn [kept_fields crashes] in *. inversion Hi as [|? ? _ Hi']; subst. unfold wire_elements.
  assert (N : Forall (fun w => w <> []) (map group_wire (map method_items methods))).
  { rewrite map_map. apply Forall_map. eapply Forall_impl; [|exact Hm]. intros m [_ K]. apply (group_wire_ne _ (TText (fst m))); [now left|exact K]. }
  rewrite strip_full.
  2:{ constructor; [apply header_ne|]. cbn [map]. constructor; [rewrite single_wire; destruct mixed; discriminate|exact N]. }
  cbn [map]. erewrite field_conj; [|reflexivity|rewrite single_wire; split; [destruct mixed; discriminate|apply flag_read]].
  cbn [obind]. unfold last_field. cbn [skipn]. rewrite methods_read by assumption. unfold nonempty_nth. cbn [nth_error].
  destruct methods as [|m methods]; [reflexivity|]. cbn [map] in *. inversion N as [|? ? N1 _]; subst.
  cbn [nth_error]. destruct (group_wire (method_items m)); [congruence|]. cbn [opt_parse]. destruct (existsb _ _); reflexivity.
Qed.

(** ** Facts about an account *)
Section Facts.
  Context {F : Type} (parse_float : bytes -> option F) (neg : F -> F) (value : N -> bytes -> F).
  Hypothesis Hfloat : reads_decimals parse_float value.

  Lemma reads_money : reads (unmarshal_value parse_float) money_group (fun x => item_ok (TMoney (fst x) (snd x))) (fun x => value (fst x) (snd x)).
  Proof.
    intros x H _. unfold money_group. rewrite single_wire. split; [now apply item_present|]. now apply (value_read parse_float value).
  Qed.
  Lemma hikif_read pos ref a persons : header_ok pos ref -> kept_ok (KFacts a persons) ->
    len (segment_wire (B "HIKIF") pos 1 ref (kept_fields (KFacts a persons))) < 2 ^ 61 ->
    unmarshal_hikif parse_float (segment_wire (B "HIKIF") pos 1 ref (kept_fields (KFacts a persons))) = if is_nil persons then Ok tt else Panic.
  Proof.
    intros Hh [Hi (H1&H2&H3&Hp)] Hl. unfold unmarshal_hikif. rewrite segment_wire_read; [|reflexivity|exact Hh|lia|exact Hi|exact Hl].
    assert (Sm : forall g, In g (kept_fields (KFacts a persons)) -> len (group_wire g) < 2 ^ 61) by (intros g Hg; now apply (element_small g _ _ _ _ _ Hg) in Hl).
    clear Hl. cbn [kept_fields] in *. destruct (af_texts a) as [[[t1 t2] t3] t4]. destruct (af_rates a) as [[r1 r2] r3].
    match type of Hi with Forall _ (?p ++ _) => set (pre := p) in * end.
    unfold wire_elements. rewrite (panic_tail _ pre persons 15 eq_refl Hp), !field_strip.
    apply Forall_app in Hi. destruct Hi as [Hi _]. unfold pre in Hi. rewrite !Forall_cons_iff in Hi.
    destruct Hi as (_&I2&_&_&_&_&I7&I8&I9&I10&_&_&I13&I14&_).
    apply opt_number in I2, I13, I14. apply opt_date in I7. apply opt_money in I8, I9, I10.
    rewrite (field_some _ _ _ _ 1 _ (af_account a) reads_national); [|reflexivity|exact H1|apply Sm; cbn; tauto]. cbn [obind].
    rewrite (field_opt _ _ _ _ 2 _ (af_type a) reads_number); [|reflexivity|exact I2|apply Sm; cbn; tauto]. cbn [obind].
    rewrite (field_text 3 _ t1), (field_text 4 _ t2), (field_text 5 _ t3), (field_text 6 _ t4) by reflexivity. cbn [obind].
    rewrite (field_opt _ _ _ _ 7 _ (af_opened a) reads_date); [|reflexivity|exact I7|apply Sm; cbn; tauto]. cbn [obind].
    rewrite (field_opt _ _ _ _ 8 _ r1 reads_money); [|reflexivity|exact I8|apply Sm; cbn; tauto]. cbn [obind].
    rewrite (field_opt _ _ _ _ 9 _ r2 reads_money); [|reflexivity|exact I9|apply Sm; cbn; tauto]. cbn [obind].
    rewrite (field_opt _ _ _ _ 10 _ r3 reads_money); [|reflexivity|exact I10|apply Sm; cbn; tauto]. cbn [obind].
    rewrite (field_opt _ _ _ _ 11 _ (af_line a) (reads_amount parse_float value Hfloat)); [|reflexivity|exact H2|apply Sm; cbn; tauto]. cbn [obind].
    rewrite (field_opt _ _ _ _ 12 _ (af_reference a) reads_national); [|reflexivity|exact H3|apply Sm; cbn; tauto]. cbn [obind].
    rewrite (field_opt _ _ _ _ 13 _ (af_dispatch a) reads_number); [|reflexivity|exact I13|apply Sm; cbn; tauto]. cbn [obind].
    rewrite (field_opt _ _ _ _ 14 _ (af_cycle a) reads_number); [|reflexivity|exact I14|apply Sm; cbn; tauto]. cbn [obind].
    rewrite (field_text 15 _ (af_note a)) by reflexivity. cbn [obind]. destruct (is_nil persons); reflexivity.
  Qed.

  (** Every one of these segments is read and kept, unless it makes the reader panic. *)
  Lemma kept_read pos ref k : header_ok pos ref -> kept_ok k ->
    len (segment_wire (kept_id k) pos (kept_version k) ref (kept_fields k)) < 2 ^ 61 ->
    read_as parse_float neg (kept_id k) (kept_version k) (segment_wire (kept_id k) pos (kept_version k) ref (kept_fields k)) =
      if crashes k then Panic else Ok (kept_value (segment_wire (kept_id k) pos (kept_version k) ref (kept_fields k)) k).
  Proof.
    intros Hh Hk Hl. unfold read_as.
    destruct k; cbn [kept_id kept_version] in *; unfold others; cbv zeta; 
      repeat (match goal with |- context [bytes_eqb ?a ?b] => let v := eval vm_compute in (bytes_eqb a b) in change (bytes_eqb a b) with v end; cbv iota).
    - replace ((version =? 3) || (version =? 4)) with true by (destruct Hk as [_ (Hv&_)]; lia). rewrite hipro_read by assumption. reflexivity.
    - cbn [Z.eqb Pos.eqb]. destruct (hitan_read _ _ _ _ _ _ Hh Hk Hl) as (r&->&_). reflexivity.
    - cbn [Z.eqb Pos.eqb]. rewrite hikim_read by assumption. destruct subject, body; reflexivity.
    - cbn [Z.eqb Pos.eqb]. rewrite hikif_read by assumption. cbn [crashes]. destruct (is_nil persons); reflexivity.
    - cbn [Z.eqb Pos.eqb]. destruct Hk as [Hi (K1&K2&K3)]. cbn [kept_fields] in *. rewrite !Forall_cons_iff in Hi. destruct Hi as ((J1&_)&(J2&_)&_).
      fold (pin2_segment pos ref jobs signatures l). rewrite dipins_read by assumption. reflexivity.
    - replace ((version =? 3) || (version =? 4)) with true by (destruct Hk as [_ (Hv&_)]; lia). rewrite hnshk_read by assumption. cbn [crashes]. destruct (is_nil certificate); reflexivity.
    - replace ((version =? 1) || (version =? 2)) with true by (destruct Hk as [_ (Hv&_)]; lia). rewrite hnsha_read by assumption. destruct (crashes _); reflexivity.
    - cbn [Z.eqb Pos.eqb]. rewrite hikom_read by assumption. cbn [crashes]. destruct (is_nil ways); reflexivity.
    - cbn [Z.eqb Pos.eqb]. rewrite hishv_read by assumption. destruct (crashes _); reflexivity.
    - cbn [Z.eqb Pos.eqb]. rewrite hikpv_read by assumption. cbn [crashes]. destruct (is_nil methods); reflexivity.
  Qed.
End Facts.
