From Verif Require Import Base BaseFacts Lexer_Model Lexer_Spec Codec_Model Codec_Spec Codec_Proofs Wire_Model Wire_Spec
  Lexer_Proofs Lexer_Facts Wire_Proofs Wire_Facts Wire_Facts2 Wire_Facts3 Message_Model Message_Spec Message_Facts Dialog_Model Client_Model Time_Model Seg_Model Seg_Spec Seg_Facts Seg_Facts2
  Request_Model Request_Spec Read_Spec.
From Coq Require Import Lia ZifyBool ZifyNat ZifyN.
Open Scope Z_scope.

(** ** Scanning *)
Definition after (ts : list token) (o : option (list token)) : option (list token) := option_map (app ts) o.
Lemma after_app a b o : after (a ++ b) o = after a (after b o).
Proof. destruct o; cbn; [now rewrite app_assoc|reflexivity]. Qed.
Lemma after_cons t o : option_map (cons t) o = after [t] o.
Proof. destruct o; reflexivity. Qed.
Definition ordinary (c : byte) : bool := negb (mem_byte c (B "?@':+")).
Lemma scan_ordinary c r : ordinary c = true -> scan Between (c :: r) = after [Char c] (scan Between r).
Proof. revert r. destruct c; intros r H; first [discriminate|cbn [scan]; apply after_cons]. Qed.
Lemma scan_plain l r : forallb ordinary l = true -> scan Between (l ++ r) = after (chars l) (scan Between r).
Proof.
  induction l as [|c l IH]; intros H; [cbn; now destruct (scan Between r)|]. cbn [forallb] in H. apply andb_true_iff in H. destruct H as [Hc H].
  cbn [app]. rewrite scan_ordinary by exact Hc. rewrite IH by exact H. now rewrite <- after_app.
Qed.
Lemma scan_escaped l r : scan Between (escaped l ++ r) = after (chars l) (scan Between r).
Proof.
  induction l as [|c l IH]; [cbn; now destruct (scan Between r)|]. unfold escaped. cbn [flat_map]. fold (escaped l). rewrite <- app_assoc.
  destruct (mem_byte c (B "?@':+")) eqn:E.
  - cbn [app]. change (scan Between ("?"%byte :: c :: escaped l ++ r)) with (option_map (cons (Char c)) (scan Between (escaped l ++ r))).
    rewrite IH, after_cons. now rewrite <- after_app.
  - cbn [app]. rewrite scan_ordinary by (unfold ordinary; now rewrite E). rewrite IH. now rewrite <- after_app.
Qed.
Lemma scan_length ds r : forallb is_digit ds = true -> forall n,
  scan (Length n) (ds ++ r) = scan (Length (fold_left (fun a b => (10 * a + digit_val b)%N) ds n)) r.
Proof.
  induction ds as [|d ds IH]; intros H n; [reflexivity|]. cbn [forallb] in H. apply andb_true_iff in H. destruct H as [Hd H].
  cbn [app scan]. rewrite Hd. now rewrite IH.
Qed.
Lemma scan_inside d r : forall before, d <> [] -> scan (Inside (N.of_nat (List.length d)) before) (d ++ r) = after [Block (before ++ d)] (scan Between r).
Proof.
  induction d as [|c d IH]; intros before H; [congruence|]. cbn [app scan List.length]. destruct d as [|c' d].
  - cbn [List.length]. change (N.of_nat 1 =? 1)%N with true. cbv iota. apply after_cons.
  - destruct (N.eqb_spec (N.of_nat (S (List.length (c' :: d)))) 1) as [E|_]; [cbn [List.length] in E; lia|].
    replace (N.of_nat (S (List.length (c' :: d))) - 1)%N with (N.of_nat (List.length (c' :: d))) by lia.
    rewrite IH by discriminate. now rewrite <- app_assoc.
Qed.
Lemma scan_block d r : scan Between (("@"%byte :: itoa_N (N.of_nat (List.length d)) ++ "@"%byte :: d) ++ r) = after [Block d] (scan Between r).
Proof.
  destruct (itoa_N_spec (N.of_nat (List.length d))) as (_ & Hd & Hv & _).
  cbn [app]. rewrite <- app_assoc. cbn [app]. set (w := itoa_N (N.of_nat (List.length d)) ++ "@"%byte :: d ++ r).
  change (scan Between ("@"%byte :: w)) with (scan (Length 0) w). unfold w. rewrite scan_length by exact Hd.
  change (fold_left (fun a b => (10 * a + digit_val b)%N) (itoa_N (N.of_nat (List.length d))) 0%N) with (dec_val (itoa_N (N.of_nat (List.length d)))). rewrite Hv.
  cbn [scan]. change (is_digit "@") with false. change (beq "@" "@") with true. cbv iota. destruct d as [|c d].
  - cbn [List.length N.of_nat app]. change (0 =? 0)%N with true. cbv iota. apply after_cons.
  - destruct (N.eqb_spec (N.of_nat (List.length (c :: d))) 0) as [E|_]; [cbn [List.length] in E; lia|]. now apply scan_inside.
Qed.
Lemma digits_ordinary l : forallb is_digit l = true -> forallb ordinary l = true.
Proof.
  induction l as [|c l IH]; [reflexivity|]. cbn [forallb]. intros H. apply andb_true_iff in H. destruct H as [Hc H]. rewrite IH by exact H.
  rewrite andb_true_r. revert Hc. clear. destruct c; vm_compute; congruence.
Qed.
Lemma itoa_ordinary z : forallb ordinary (itoa z) = true.
Proof. unfold itoa. destruct (z <? 0); [cbn [forallb]; change (ordinary b_minus) with true; cbn [andb]|]; apply digits_ordinary, itoa_N_digits. Qed.
Lemma itoa_pad_ordinary w z : forallb ordinary (itoa_pad w z) = true.
Proof. unfold itoa_pad. destruct (z <? 0); [cbn [forallb]; change (ordinary b_minus) with true; cbn [andb]|]; apply digits_ordinary, pad_left_digits. Qed.
Lemma scan_item i r : sendable i -> scan Between (item_wire i ++ r) = after (item_value i) (scan Between r).
Proof.
  intros H. destruct i as [l|n|w n|u f|d|b|d|t]; cbn [item_wire item_value].
  - apply scan_escaped.
  - apply scan_plain, itoa_ordinary.
  - apply scan_plain, itoa_pad_ordinary.
  - destruct H.
  - apply scan_block.
  - apply scan_plain. now destruct b.
  - apply scan_plain, digits_ordinary, yyyymmdd_digits, H.
  - apply scan_plain, digits_ordinary, hhmmss_digits, H.
Qed.
Lemma item_empty i : sendable i -> (item_wire i = [] <-> item_value i = []).
Proof.
  intros H. destruct i as [l|n|w n|u f|d|b|d|t]; cbn [item_wire item_value]; unfold chars.
  - destruct l as [|c l]; [cbn; tauto|]. unfold escaped. cbn [flat_map map]. destruct (mem_byte _ _); split; discriminate.
  - destruct (itoa n); cbn; split; congruence.
  - destruct (itoa_pad w n); cbn; split; congruence.
  - destruct H.
  - split; discriminate.
  - destruct b; split; discriminate.
  - destruct (yyyymmdd d); cbn; split; congruence.
  - destruct (hhmmss t); cbn; split; congruence.
Qed.
(** A value has no separator. *)
Definition solid (c : byte) (ts : list token) : Prop := ~ In (Separator c) ts.
Lemma chars_solid c l : solid c (chars l).
Proof. unfold solid, chars. rewrite in_map_iff. intros (x&E&_). discriminate. Qed.
Lemma item_solid c i : solid c (item_value i).
Proof. destruct i; cbn [item_value]; try apply chars_solid. intros [E|[]]. discriminate. Qed.

(** ** Lists of tokens with separators *)
Fixpoint tjoin (c : byte) (ls : list (list token)) : list token :=
  match ls with [] => [] | [x] => x | x :: r => x ++ Separator c :: tjoin c r end.
Fixpoint tstrip (ls : list (list token)) : list (list token) :=
  match ls with
  | [] => []
  | x :: r => match x, tstrip r with [], [] => [] | _, r' => x :: r' end
  end.
Lemma nth_tstrip ls k : nth k (tstrip ls) [] = nth k ls [].
Proof.
  revert k. induction ls as [|x r IH]; intros k; [reflexivity|]. cbn [tstrip]. destruct x as [|t x].
  - destruct (tstrip r) as [|y s] eqn:E.
    + destruct k as [|k]; [reflexivity|]. cbn [nth]. rewrite <- IH. now destruct k.
    + destruct k as [|k]; [reflexivity|]. cbn [nth]. apply IH.
  - destruct k as [|k]; [reflexivity|]. cbn [nth]. apply IH.
Qed.
Lemma cut_nonempty c ts : cut c ts <> [].
Proof.
  induction ts as [|t ts IH]; [discriminate|]. cbn [cut]. destruct t; try (destruct (cut c ts); [congruence|discriminate]).
  destruct (beq c c0); [discriminate|]. destruct (cut c ts); [congruence|discriminate].
Qed.
Lemma cut_solid c x r : solid c x -> cut c (x ++ r) = match cut c r with s :: ss => (x ++ s) :: ss | [] => [] end.
Proof.
  intros H. induction x as [|t x IH]; cbn [app]; [now destruct (cut c r)|]. assert (Hx : solid c x) by (intros K; apply H; now right). specialize (IH Hx).
  cbn [cut]. rewrite IH. pose proof (cut_nonempty c r) as N. destruct (cut c r) as [|s ss]; [congruence|].
  destruct t; try reflexivity. destruct (beq c c0) eqn:E; [|reflexivity]. apply beq_true in E. subst. destruct H. now left.
Qed.
Lemma cut_alone c x : solid c x -> cut c x = [x].
Proof. intros H. rewrite <- (app_nil_r x) at 1. rewrite cut_solid by exact H. cbn. now rewrite app_nil_r. Qed.
Lemma cut_sep c x r : solid c x -> cut c (x ++ Separator c :: r) = x :: cut c r.
Proof. intros H. rewrite cut_solid by exact H. cbn [cut]. rewrite beq_refl, app_nil_r. reflexivity. Qed.
Lemma cut_tjoin c ls : Forall (solid c) ls -> cut c (tjoin c ls) = match ls with [] => [[]] | _ => ls end.
Proof.
  intros H. induction H as [|x r Hx Hr IH]; [reflexivity|]. destruct r as [|y r]; [cbn [tjoin]; now apply cut_alone|].
  change (tjoin c (x :: y :: r)) with (x ++ Separator c :: tjoin c (y :: r)). rewrite cut_sep by exact Hx. now rewrite IH.
Qed.
Lemma cut_tjoin_nth c ls k : Forall (solid c) ls -> nth k (cut c (tjoin c ls)) [] = nth k ls [].
Proof. intros H. rewrite cut_tjoin by exact H. destruct ls as [|x r]; [|reflexivity]. destruct k as [|[|k]]; reflexivity. Qed.
Lemma solid_tjoin c d ls : c <> d -> Forall (solid c) ls -> solid c (tjoin d ls).
Proof.
  intros Hc H. induction H as [|x r Hx Hr IH]; [intros []|]. destruct r as [|y r]; [exact Hx|].
  change (tjoin d (x :: y :: r)) with (x ++ Separator d :: tjoin d (y :: r)). intros K. apply in_app_or in K.
  destruct K as [K|[K|K]]; [now apply Hx|congruence|now apply IH].
Qed.
Lemma tstrip_all (P : list token -> Prop) ls : Forall P ls -> Forall P (tstrip ls).
Proof.
  intros H. induction H as [|x r Hx Hr IH]; [constructor|]. cbn [tstrip]. destruct x as [|t x]; [|now constructor].
  destruct (tstrip r) as [|y s]; [constructor|]. now constructor.
Qed.

(** ** From bytes to tokens *)
(** [w] is read as [ts]. *)
Definition tokens_of (w : bytes) (ts : list token) : Prop := forall r, scan Between (w ++ r) = after ts (scan Between r).
Lemma tokens_app a b s t : tokens_of a s -> tokens_of b t -> tokens_of (a ++ b) (s ++ t).
Proof. intros H1 H2 r. rewrite <- app_assoc, H1, H2. now rewrite after_app. Qed.
Lemma tokens_sep c : mem_byte c (B "'+:") = true -> tokens_of [c] [Separator c].
Proof. intros H r. revert H. destruct c; intros H; try discriminate H; cbn [app scan]; apply after_cons. Qed.
Lemma tokens_nil : tokens_of [] [].
Proof. intros r. cbn [app]. now destruct (scan Between r). Qed.
Lemma tokens_join c ws : mem_byte c (B "'+:") = true -> forall tss, Forall2 tokens_of ws tss -> tokens_of (join [c] ws) (tjoin c tss).
Proof.
  intros Hc tss H. induction H as [|w ts ws tss Hw Hs IH]; [apply tokens_nil|]. destruct Hs as [|w' ts' ws tss Hw' Hs]; [exact Hw|].
  change (join [c] (w :: w' :: ws)) with (w ++ [c] ++ join [c] (w' :: ws)).
  change (tjoin c (ts :: ts' :: tss)) with (ts ++ [Separator c] ++ tjoin c (ts' :: tss)).
  apply tokens_app; [exact Hw|]. apply tokens_app; [now apply tokens_sep|exact IH].
Qed.
Definition reads_to (w : bytes) (ts : list token) : Prop := tokens_of w ts /\ (w = [] <-> ts = []).
Lemma reads_strip ws tss : Forall2 reads_to ws tss -> Forall2 reads_to (strip ws) (tstrip tss).
Proof.
  intros H. induction H as [|w ts ws tss Hw Hs IH]; [constructor|]. cbn [strip tstrip]. destruct Hw as [Hw He].
  destruct w as [|c w].
  - rewrite (proj1 He eq_refl) in *. destruct IH as [|w' ts' ws' tss' Hw' Hs']; [constructor|]. constructor; [now split|]. now constructor.
  - destruct ts as [|t ts]; [now discriminate (proj2 He eq_refl)|]. constructor; [now split|exact IH].
Qed.
Lemma strip_reads_empty c ws tss : Forall2 reads_to ws tss -> (join [c] (strip ws) = [] <-> tjoin c (tstrip tss) = []).
Proof.
  intros H. apply reads_strip in H. assert (Hl : forall l, match strip l with [] => True | x :: r => strip l = x :: r /\ (x = [] -> r <> []) end).
  { intros l. induction l as [|x l IH]; [exact I|]. cbn [strip]. destruct x as [|b x]; [|split; [reflexivity|discriminate]].
    destruct (strip l); [exact I|]. split; [reflexivity|]. intros _. discriminate. }
  specialize (Hl ws). destruct H as [|w ts ws' tss' Hw Hs]; [split; reflexivity|]. destruct Hl as [_ Hl].
  destruct Hs as [|w2 ts2 ws2 tss2 Hw2 Hs].
  - cbn [join tjoin]. exact (proj2 Hw).
  - change (join [c] (w :: w2 :: ws2)) with (w ++ c :: join [c] (w2 :: ws2)). change (tjoin c (ts :: ts2 :: tss2)) with (ts ++ Separator c :: tjoin c (ts2 :: tss2)).
    split; intros K; apply app_eq_nil in K; destruct K; discriminate.
Qed.
Definition group_tokens (g : list item) : list token := tjoin ":"%byte (tstrip (map item_value g)).
Lemma reads_items g : Forall sendable g -> Forall2 reads_to (map item_wire g) (map item_value g).
Proof. intros H. induction H as [|i g Hi Hg IH]; [constructor|]. cbn [map]. constructor; [|exact IH]. split; [intros r; now apply scan_item|now apply item_empty]. Qed.
Lemma reads_forget ws tss : Forall2 reads_to ws tss -> Forall2 tokens_of ws tss.
Proof. intros H. induction H as [|? ? ? ? [H _] _ IH]; constructor; assumption. Qed.
Lemma reads_group g : Forall sendable g -> reads_to (group_wire g) (group_tokens g).
Proof.
  intros H. apply reads_items in H. split; [|now apply strip_reads_empty]. apply tokens_join; [reflexivity|]. apply reads_forget. now apply reads_strip.
Qed.
Lemma group_solid g : solid "+"%byte (group_tokens g) /\ solid "'"%byte (group_tokens g).
Proof.
  split; (apply solid_tjoin; [discriminate|]; apply tstrip_all; apply Forall_map; apply Forall_forall; intros; apply item_solid).
Qed.
Definition elements_tokens (gs : list (list item)) : list token := tjoin "+"%byte (tstrip (map group_tokens gs)).
Lemma reads_groups gs : Forall (Forall sendable) gs -> Forall2 reads_to (map group_wire gs) (map group_tokens gs).
Proof. intros H. induction H as [|g gs Hg Hs IH]; [constructor|]. cbn [map]. constructor; [now apply reads_group|exact IH]. Qed.
Lemma alnum_escaped id : forallb alnum id = true -> escaped id = id.
Proof.
  induction id as [|c id IH]; [reflexivity|]. cbn [forallb]. intros H. apply andb_true_iff in H. destruct H as [Hc H].
  unfold escaped. cbn [flat_map]. fold (escaped id). rewrite IH by exact H. revert Hc. clear. destruct c; vm_compute; congruence.
Qed.
Lemma part_as_elements n p : forallb alnum (pt_id p) = true ->
  part_wire n p = join ["+"%byte] (strip (map group_wire (elements_of n p))) ++ ["'"%byte].
Proof.
  intros H. unfold part_wire, segment_wire, elements_of. cbn [map]. do 4 f_equal. unfold header_bytes, group_wire. cbn [map item_wire app].
  rewrite alnum_escaped by exact H. pose proof (itoa_ne (pt_version p)) as N. cbn [strip]. destruct (itoa (pt_version p)); [congruence|].
  destruct (itoa n), (pt_id p); reflexivity.
Qed.
Definition part_tokens (q : Z * part) : list token := elements_tokens (elements_of (fst q) (snd q)).
Definition fit (p : part) : Prop := forallb alnum (pt_id p) = true /\ Forall (Forall sendable) (pt_fields p).
Lemma reads_part n p : fit p -> tokens_of (part_wire n p) (part_tokens (n, p) ++ [Separator "'"%byte]).
Proof.
  intros [Ha Hf]. rewrite part_as_elements by exact Ha. apply tokens_app; [|now apply tokens_sep]. apply tokens_join; [reflexivity|].
  apply reads_forget, reads_strip, reads_groups. constructor; [|exact Hf]. repeat constructor.
Qed.
Definition parts_wire (l : list (Z * part)) : bytes := List.concat (map (fun q => part_wire (fst q) (snd q)) l).
Lemma reads_parts l : Forall (fun q => fit (snd q)) l ->
  tokens_of (parts_wire l) (List.concat (map (fun q => part_tokens q ++ [Separator "'"%byte]) l)).
Proof.
  intros H. induction H as [|[n p] l Hq Hl IH]; [apply tokens_nil|]. unfold parts_wire. cbn [map List.concat fst snd]. apply tokens_app; [now apply reads_part|exact IH].
Qed.
Lemma part_solid q : solid "'"%byte (part_tokens q).
Proof.
  apply solid_tjoin; [discriminate|]. apply tstrip_all, Forall_map, Forall_forall. intros g _. apply group_solid.
Qed.
Lemma cut_parts l : cut "'"%byte (List.concat (map (fun q => part_tokens q ++ [Separator "'"%byte]) l)) = map part_tokens l ++ [[]].
Proof.
  induction l as [|q l IH]; [reflexivity|]. cbn [map List.concat app]. rewrite <- app_assoc. cbn [app]. rewrite cut_sep by apply part_solid. now rewrite IH.
Qed.
Lemma finds_parts l : Forall (fun q => fit (snd q)) l -> finds (parts_wire l) l.
Proof.
  intros H. apply reads_parts in H. specialize (H []). rewrite app_nil_r in H. cbn [scan] in H. unfold after in H. cbn [option_map] in H. rewrite app_nil_r in H.
  unfold finds, bank_reads. rewrite H. cbn [option_map]. eexists. split; [reflexivity|]. rewrite cut_parts, removelast_last. split; [now rewrite !map_length|].
  intros i j k. unfold value_at, given_value. rewrite map_map. destruct (nth_error l i) as [[n p]|] eqn:E.
  - rewrite (nth_indep _ [] (map (cut ":"%byte) (cut "+"%byte (part_tokens (n, p))))) by (rewrite map_length; apply nth_error_Some; congruence).
    rewrite (map_nth (fun q => map (cut ":"%byte) (cut "+"%byte (part_tokens q)))). rewrite (nth_error_nth _ _ _ E).
    unfold part_tokens, elements_tokens. cbn [fst snd].
    set (gs := elements_of n p). assert (Hs : Forall (solid "+"%byte) (tstrip (map group_tokens gs))) by (apply tstrip_all, Forall_map, Forall_forall; intros g _; apply group_solid).
    assert (E1 : forall m, nth k (nth j (map (cut ":"%byte) m) []) [] = nth k (cut ":"%byte (nth j m [])) []).
    { intros m. destruct (Nat.ltb_spec j (List.length m)) as [L|L].
      - rewrite (nth_indep _ [] (cut ":"%byte [])) by (now rewrite map_length). now rewrite map_nth.
      - rewrite !nth_overflow with (n := j) by (rewrite ?map_length; exact L). destruct k as [|[|k]]; reflexivity. }
    rewrite E1, cut_tjoin_nth by exact Hs. rewrite nth_tstrip. change [] with (group_tokens []) at 1. rewrite map_nth.
    unfold group_tokens. rewrite cut_tjoin_nth by (apply tstrip_all, Forall_map, Forall_forall; intros x _; apply item_solid). rewrite nth_tstrip.
    set (g := nth j gs []). destruct (nth_error g k) as [x|] eqn:Ex.
    + rewrite (nth_indep _ [] (item_value x)) by (rewrite map_length; apply nth_error_Some; congruence). rewrite map_nth. now rewrite (nth_error_nth _ _ _ Ex).
    + apply nth_error_None in Ex. apply nth_overflow. now rewrite map_length.
  - apply nth_error_None in E. rewrite (nth_overflow (map _ l)) by (now rewrite map_length). destruct j, k; reflexivity.
Qed.
Lemma numbered_parts l : forall n, numbered n l = parts_wire (counted n l).
Proof. induction l as [|p l IH]; intros n; [reflexivity|]. cbn [numbered counted]. rewrite IH. reflexivity. Qed.
Lemma counted_fit l : Forall fit l -> forall n, Forall (fun q => fit (snd q)) (counted n l).
Proof. intros H. induction H as [|p l Hp Hl IH]; intros n; cbn [counted]; constructor; auto. Qed.
Lemma finds_unique w l l' : finds w l -> finds w l' -> List.length l = List.length l' /\ forall i j k, given_value l i j k = given_value l' i j k.
Proof.
  intros (m&E&L&H) (m'&E'&L'&H'). rewrite E in E'. injection E' as <-. split; [congruence|]. intros i j k. now rewrite <- H, H'.
Qed.
Lemma framed_parts x dialog number size last l :
  framed x dialog number size last (parts_wire l) = parts_wire ((1, message_header x dialog number size) :: l ++ [(last, message_end number)]).
Proof.
  unfold framed, parts_wire. cbn [map List.concat fst snd]. rewrite map_app, concat_app. cbn [map List.concat fst snd]. now rewrite app_nil_r.
Qed.
