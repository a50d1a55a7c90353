(** Lemmas about the pieces of MT940 statements: substrings, :86: fields. *)
From Verif Require Import Base BaseFacts Lexer_Model Codec_Model Codec_Spec Codec_Proofs Wire_Model Swift_Model Swift_Spec
  Mt940_Model Mt940_Spec.
From Coq Require Import Lia ZifyBool ZifyNat ZifyN.
Open Scope Z_scope.

(** ** Substrings *)
Lemma find_sub_cons sub c r : find_sub sub (c :: r) = if has_prefix sub (c :: r) then Some O else option_map S (find_sub sub r).
Proof. reflexivity. Qed.
Lemma find_sub_some sub : forall s i, find_sub sub s = Some i ->
  (i + List.length sub <= List.length s)%nat /\ has_prefix sub (skipn i s) = true /\
  forall j, (j < i)%nat -> has_prefix sub (skipn j s) = false.
Proof.
  induction s as [|c r IH]; intros i H.
  - cbn in H. destruct (has_prefix sub []) eqn:E; [|discriminate]. injection H as <-.
    apply has_prefix_spec in E. destruct E as [w E]. symmetry in E. apply app_eq_nil in E. destruct E as [-> ->].
    split; [cbn; lia|]. split; [reflexivity|]. intros; lia.
  - rewrite find_sub_cons in H. destruct (has_prefix sub (c :: r)) eqn:E.
    + injection H as <-. split; [|split; [exact E|intros; lia]].
      apply has_prefix_spec in E. destruct E as [w E]. rewrite E, app_length. lia.
    + destruct (find_sub sub r) as [i0|] eqn:F; [|discriminate]. injection H as <-.
      destruct (IH i0 eq_refl) as (A & B & C). split; [cbn [List.length]; lia|]. split; [exact B|].
      intros [|j] Hj; [exact E|]. apply C. lia.
Qed.
Lemma find_sub_none sub : forall s, find_sub sub s = None <-> ~ occurs sub s.
Proof.
  induction s as [|c r IH].
  - cbn. destruct (has_prefix sub []) eqn:E; split; intros H; try discriminate; try reflexivity.
    + exfalso. apply H. apply has_prefix_spec in E. destruct E as [w E]. exists [], w. exact E.
    + intros (u & w & K). symmetry in K. apply app_eq_nil in K. destruct K as [-> K]. apply app_eq_nil in K.
      destruct K as [-> ->]. discriminate.
  - rewrite find_sub_cons. destruct (has_prefix sub (c :: r)) eqn:E.
    + split; [discriminate|]. intros H. exfalso. apply H. apply has_prefix_spec in E. destruct E as [w E]. exists [], w. exact E.
    + destruct (find_sub sub r) as [i|] eqn:F; cbn [option_map].
      * split; [discriminate|]. intros H. exfalso. assert (K : ~ occurs sub r).
        { intros (u & w & K). apply H. exists (c :: u), w. cbn. now rewrite K. }
        apply IH in K. discriminate.
      * split; [|reflexivity]. intros _ (u & w & K). destruct u as [|x u].
        -- cbn in K. assert (has_prefix sub (c :: r) = true) by (apply has_prefix_spec; now exists w). congruence.
        -- cbn in K. injection K as -> K. apply (proj1 IH eq_refl). now exists u, w.
Qed.
(** A piece in which nothing starts. *)
Lemma find_sub_skip sub : forall a s, (forall u w, a = u ++ w -> w <> [] -> has_prefix sub (w ++ s) = false) ->
  find_sub sub (a ++ s) = option_map (fun i => (List.length a + i)%nat) (find_sub sub s).
Proof.
  induction a as [|c a IH]; intros s H; [cbn; now destruct (find_sub sub s)|].
  cbn [app]. rewrite find_sub_cons, (H [] (c :: a) eq_refl ltac:(discriminate) : has_prefix sub (c :: a ++ s) = false).
  rewrite IH.
  - destruct (find_sub sub s); reflexivity.
  - intros u w -> Hw. exact (H (c :: u) w eq_refl Hw).
Qed.
Lemma find_sub_here sub s : find_sub sub (sub ++ s) = Some O.
Proof.
  assert (H : has_prefix sub (sub ++ s) = true) by (apply has_prefix_spec; now exists s).
  destruct (sub ++ s); cbn; now rewrite H.
Qed.
Lemma occurs_app_l sub u s : occurs sub s -> occurs sub (u ++ s).
Proof. intros (a & b & ->). exists (u ++ a), b. now rewrite <- !app_assoc. Qed.
Lemma occurs_app_r sub u s : occurs sub s -> occurs sub (s ++ u).
Proof. intros (a & b & ->). exists a, (b ++ u). now rewrite <- !app_assoc. Qed.

(** ** Sub-fields *)
Definition key_numbers : list Z := [0; 10; 20; 21; 22; 23; 24; 25; 26; 27; 28; 29; 30; 31; 32; 33; 34; 60; 61; 62; 63].
Lemma custom_keys_eq : custom_keys = map key_text key_numbers.
Proof. reflexivity. Qed.
Lemma key_numbers_ok n : In n key_numbers <-> key_ok n.
Proof.
  split; intros H.
  - unfold key_ok. cbn in H. lia.
  - unfold key_ok in H. cbn. lia.
Qed.
Lemma key_three n : key_text n = ["?"%byte; digit_char (Z.to_N (n / 10)); digit_char (Z.to_N (n mod 10))].
Proof. reflexivity. Qed.
Lemma digits2_digits n : 0 <= n < 100 ->
  is_digit (digit_char (Z.to_N (n / 10))) = true /\ is_digit (digit_char (Z.to_N (n mod 10))) = true.
Proof.
  intros H. pose proof (Z.div_mod n 10 ltac:(lia)). pose proof (Z.mod_pos_bound n 10 ltac:(lia)).
  split; apply digit_char_spec; lia.
Qed.
Lemma key_range n : key_ok n -> 0 <= n < 100.
Proof. unfold key_ok. lia. Qed.
Lemma digit_char_inj a b : (a < 10)%N -> (b < 10)%N -> digit_char a = digit_char b -> a = b.
Proof.
  intros Ha Hb E. destruct (digit_char_spec a Ha) as [_ A]. destruct (digit_char_spec b Hb) as [_ B].
  rewrite E in A. congruence.
Qed.
Lemma key_inj a b : key_ok a -> key_ok b -> key_text a = key_text b -> a = b.
Proof.
  intros Ha Hb E. apply key_range in Ha, Hb. rewrite !key_three in E. injection E as E1 E2.
  pose proof (Z.div_mod a 10 ltac:(lia)). pose proof (Z.mod_pos_bound a 10 ltac:(lia)).
  pose proof (Z.div_mod b 10 ltac:(lia)). pose proof (Z.mod_pos_bound b 10 ltac:(lia)).
  apply digit_char_inj in E1; [|lia|lia]. apply digit_char_inj in E2; lia.
Qed.
Lemma qmark_not_digit : is_digit "?"%byte = false. Proof. reflexivity. Qed.

(** The rest of a text after a value is empty or begins with '?'. *)
Definition q_rest (s : bytes) : Prop := s = [] \/ exists r, s = "?"%byte :: r.
Lemma info_text_q l : q_rest (List.concat (map sub_text l)).
Proof. destruct l as [|p l]; [now left|]. right. eexists. reflexivity. Qed.
Lemma key_not_across k v s : key_ok k -> ~ occurs (key_text k) v -> q_rest s ->
  forall u w, v = u ++ w -> w <> [] -> has_prefix (key_text k) (w ++ s) = false.
Proof.
  intros Hk Hv Hs u w -> Hw. destruct (has_prefix (key_text k) (w ++ s)) eqn:E; [exfalso|reflexivity].
  apply has_prefix_spec in E. destruct E as [x E]. rewrite key_three in E.
  destruct (digits2_digits k (key_range k Hk)) as [D1 D2].
  set (d1 := digit_char (Z.to_N (k / 10))) in *. set (d2 := digit_char (Z.to_N (k mod 10))) in *.
  destruct w as [|a w]; [congruence|]. cbn [app] in E. injection E as -> E.
  destruct w as [|b w].
  { cbn [app] in E. destruct Hs as [->|[r ->]]; [discriminate|]. injection E as E _. rewrite <- E in D1. discriminate. }
  cbn [app] in E. injection E as -> E.
  destruct w as [|c w].
  { cbn [app] in E. destruct Hs as [->|[r ->]]; [discriminate|]. injection E as E _. rewrite <- E in D2. discriminate. }
  cbn [app] in E. injection E as -> E. apply Hv. rewrite key_three. exists u, w. reflexivity.
Qed.

Fixpoint pos_in (subs : list (Z * bytes)) (off : nat) (k : Z) : option nat :=
  match subs with
  | [] => None
  | (n, v) :: r => if n =? k then Some off else pos_in r (off + (3 + List.length v))%nat k
  end.
Lemma pos_in_shift subs : forall off k, pos_in subs off k = option_map (fun i => (off + i)%nat) (pos_in subs O k).
Proof.
  induction subs as [|[n v] r IH]; intros off k; [reflexivity|]. cbn [pos_in].
  destruct (n =? k); [cbn; f_equal; lia|]. rewrite IH, (IH (0 + _)%nat).
  destruct (pos_in r 0 k); cbn; [f_equal; lia|reflexivity].
Qed.
Lemma key_occ_key n k : key_ok n -> key_ok k -> n <> k -> forall v s,
  find_sub (key_text k) (key_text n ++ v ++ s) = option_map (fun i => (3 + i)%nat) (find_sub (key_text k) (v ++ s)).
Proof.
  intros Hn Hk Hne v s. rewrite find_sub_skip; [reflexivity|].
  intros u w E Hw. destruct (digits2_digits n (key_range n Hn)) as [D1 D2].
  rewrite key_three in E. destruct u as [|a u].
  - cbn [app] in E. rewrite <- E. destruct (has_prefix _ _) eqn:P; [exfalso|reflexivity].
    apply has_prefix_spec in P. destruct P as [x P]. apply Hne. apply key_inj; [assumption..|].
    rewrite (key_three k) in *. rewrite key_three. cbn [app] in P. injection P as P1 P2 _. now rewrite P1, P2.
  - cbn [app] in E. injection E as _ E. destruct u as [|b u].
    + cbn [app] in E. rewrite <- E. rewrite key_three. cbn [app has_prefix].
      destruct (beq "?" _) eqn:P; [|reflexivity]. apply beq_true in P. rewrite <- P in D1. discriminate.
    + cbn [app] in E. injection E as _ E. destruct u as [|c u]; [|destruct u; cbn in E; [|discriminate]; injection E as _ E; congruence].
      cbn [app] in E. rewrite <- E. rewrite key_three. cbn [app has_prefix].
      destruct (beq "?" _) eqn:P; [|reflexivity]. apply beq_true in P. rewrite <- P in D2. discriminate.
Qed.
Lemma find_key k subs : key_ok k -> Forall sub_ok subs ->
  find_sub (key_text k) (List.concat (map sub_text subs)) = pos_in subs O k.
Proof.
  intros Hk. induction subs as [|[n v] r IH]; intros H; [reflexivity|].
  inversion H as [|? ? (Hn & _ & Hv & _) Hr]; subst. cbn [fst snd] in *.
  cbn [map List.concat pos_in]. unfold sub_text at 1. cbn [fst snd]. rewrite <- app_assoc.
  destruct (Z.eqb_spec n k) as [->|Hne]; [apply find_sub_here|].
  rewrite key_occ_key by assumption.
  rewrite find_sub_skip by (apply key_not_across; [exact Hk|now apply Hv|apply info_text_q]).
  rewrite IH by exact Hr. rewrite (pos_in_shift r (0 + _)%nat). destruct (pos_in r 0 k); cbn [option_map]; [f_equal; lia|reflexivity].
Qed.

Fixpoint places (subs : list (Z * bytes)) (off : nat) : list (bytes * nat) :=
  match subs with
  | [] => []
  | (n, v) :: r => (key_text n, off) :: places r (off + (3 + List.length v))%nat
  end.
Lemma ascending_tail n l : ascending (n :: l) -> ascending l /\ Forall (fun m => n < m) l.
Proof.
  revert n. induction l as [|m l IH]; intros n H; [split; constructor|].
  inversion H; subst. split; [assumption|]. constructor; [assumption|].
  destruct (IH m) as [_ K]; [assumption|]. rewrite Forall_forall in *. intros x Hx. specialize (K x Hx). cbn in K. lia.
Qed.
Lemma pos_in_absent subs off k : ~ In k (map fst subs) -> pos_in subs off k = None.
Proof.
  revert off. induction subs as [|[n v] r IH]; intros off H; [reflexivity|]. cbn in H. cbn [pos_in].
  destruct (Z.eqb_spec n k); [exfalso; apply H; now left|]. apply IH. intros K. apply H. now right.
Qed.
Lemma places_by_keys : forall ks subs off, ascending ks -> ascending (map fst subs) -> (forall n, In n (map fst subs) -> In n ks) ->
  flat_map (fun k => match pos_in subs off k with Some i => [(key_text k, i)] | None => [] end) ks = places subs off.
Proof.
  induction ks as [|k ks IH]; intros subs off Hks Hs Hin.
  - destruct subs as [|[n v] r]; [reflexivity|]. destruct (Hin n); now left.
  - apply ascending_tail in Hks. destruct Hks as [Hks Hk]. rewrite Forall_forall in Hk.
    destruct subs as [|[n v] r].
    + cbn [flat_map pos_in app places]. exact (IH [] off Hks Hs ltac:(intros ? [])).
    + pose proof Hs as Hs'. cbn [map fst] in Hs'. apply ascending_tail in Hs'. destruct Hs' as [Hr Hn]. rewrite Forall_forall in Hn.
      cbn [flat_map]. destruct (Z.eqb_spec n k) as [->|Hne].
      * cbn [pos_in]. rewrite Z.eqb_refl. cbn [app places]. f_equal.
        rewrite <- (IH r (off + (3 + List.length v))%nat Hks Hr).
        -- assert (G : forall l, (forall x, In x l -> k < x) ->
             flat_map (fun k0 => match (if k =? k0 then Some off else pos_in r (off + (3 + List.length v)) k0) with Some i => [(key_text k0, i)] | None => [] end) l =
             flat_map (fun k0 => match pos_in r (off + (3 + List.length v)) k0 with Some i => [(key_text k0, i)] | None => [] end) l).
           { induction l as [|x l IHl]; intros Hl; [reflexivity|]. cbn [flat_map].
             destruct (Z.eqb_spec k x); [specialize (Hl x (or_introl eq_refl)); lia|]. f_equal. apply IHl. intros y Hy. apply Hl. now right. }
           apply G. exact Hk.
        -- intros x Hx. destruct (Hin x) as [<-|K]; [now right| |exact K]. specialize (Hn k Hx). lia.
      * assert (Hkn : k < n). { destruct (Hin n) as [K|K]; [now left|congruence|]. now apply Hk. }
        rewrite (pos_in_absent _ off k).
        -- cbn [app]. apply IH; [exact Hks|exact Hs|]. intros x Hx. destruct (Hin x Hx) as [<-|K]; [|exact K].
           cbn [map fst] in Hx. destruct Hx as [K|K]; [lia|]. specialize (Hn k K). lia.
        -- cbn [map fst]. intros [K|K]; [lia|]. specialize (Hn k K). lia.
Qed.
Lemma key_numbers_ascending : ascending key_numbers.
Proof. unfold key_numbers. repeat constructor. Qed.
Lemma key_positions_eq subs : ascending (map fst subs) -> Forall sub_ok subs ->
  key_positions (List.concat (map sub_text subs)) = places subs O.
Proof.
  intros Ha Hs. unfold key_positions. rewrite custom_keys_eq.
  rewrite <- (places_by_keys key_numbers subs O key_numbers_ascending Ha).
  - assert (G : forall l, Forall key_ok l ->
      flat_map (fun k => match find_sub k (List.concat (map sub_text subs)) with Some i => [(k, i)] | None => [] end) (map key_text l) =
      flat_map (fun k => match pos_in subs 0 k with Some i => [(key_text k, i)] | None => [] end) l).
    { induction l as [|k l IH]; intros Hl; [reflexivity|]. inversion Hl; subst. cbn [map flat_map].
      rewrite find_key by assumption. now rewrite IH by assumption. }
    apply G. apply Forall_forall. intros n Hn. now apply key_numbers_ok.
  - intros n Hn. apply key_numbers_ok. apply in_map_iff in Hn. destruct Hn as (p & <- & Hp).
    rewrite Forall_forall in Hs. now apply Hs.
Qed.

(** *** The loop over the sub-fields *)
Fixpoint set_all (subs : list (Z * bytes)) (c : custom) : outcome custom :=
  match subs with [] => Ok c | (n, v) :: r => do c' <- set_field (key_text n) (to_utf8 v) c; set_all r c' end.
Lemma firstn_app_len {A} (a b : list A) n : n = List.length a -> firstn n (a ++ b) = a.
Proof. intros ->. induction a; cbn; [reflexivity|]. now f_equal. Qed.
Lemma skipn_app_len {A} (a b : list A) n : n = List.length a -> skipn n (a ++ b) = b.
Proof. intros ->. induction a; cbn; [reflexivity|assumption]. Qed.
Lemma key_length n : List.length (key_text n) = 3%nat.
Proof. reflexivity. Qed.
Lemma custom_loop_eq : forall subs pre c,
  custom_loop (pre ++ List.concat (map sub_text subs)) (places subs (List.length pre)) c = set_all subs c.
Proof.
  induction subs as [|[n v] r IH]; intros pre c; [reflexivity|].
  cbn [places custom_loop set_all map List.concat]. change (sub_text (n, v)) with (key_text n ++ v). cbv zeta.
  set (rest := List.concat (map sub_text r)).
  assert (Hnext : match places r (List.length pre + (3 + List.length v)) with
                  | [] => List.length (pre ++ (key_text n ++ v) ++ rest) | (_, j) :: _ => j end = (List.length pre + 3 + List.length v)%nat).
  { destruct r as [|[m w] r']; cbn [places]; [|lia]. unfold rest. cbn [map List.concat]. rewrite app_nil_r, !app_length, key_length. lia. }
  rewrite Hnext.
  destruct (Nat.ltb_spec (List.length pre + 3 + List.length v) (List.length pre + 3)); [lia|].
  replace (List.length pre + 3 + List.length v - (List.length pre + 3))%nat with (List.length v) by lia.
  replace (pre ++ (key_text n ++ v) ++ rest) with ((pre ++ key_text n) ++ v ++ rest) by now rewrite <- !app_assoc.
  rewrite (skipn_app_len (pre ++ key_text n) (v ++ rest)) by (rewrite app_length, key_length; reflexivity). rewrite (firstn_app_len v rest) by reflexivity.
  destruct (set_field (key_text n) (to_utf8 v) c) as [c'| |]; [|reflexivity..]. cbn [obind].
  specialize (IH (pre ++ key_text n ++ v) c'). unfold rest.
  replace (List.length (pre ++ key_text n ++ v)) with (List.length pre + (3 + List.length v))%nat in IH
    by (rewrite !app_length, key_length; lia).
  rewrite <- IH. f_equal. now rewrite <- !app_assoc.
Qed.

(** What the sub-fields [l] say. *)
Definition said (id : Z) (l : list (Z * bytes)) : custom :=
  let i := mkInfo [] l in
  mkCustom id (sub_or_nothing i 0) (sub_or_nothing i 10) (subs_between i 20 29) (sub_or_nothing i 30) (sub_or_nothing i 31)
    (party_name i) (addition i) (subs_between i 60 63).
Lemma find_snoc {A} (f : A -> bool) l x : find f (l ++ [x]) = match find f l with Some y => Some y | None => if f x then Some x else None end.
Proof. induction l as [|a l IH]; cbn; [destruct (f x); reflexivity|]. now destruct (f a). Qed.
Lemma find_absent l n m : Forall (fun p : Z * bytes => fst p < n) l -> n <= m -> find (fun p : Z * bytes => fst p =? m) l = None.
Proof.
  induction l as [|p l IH]; intros H Hm; [reflexivity|]. inversion H; subst. cbn [find].
  destruct (Z.eqb_spec (fst p) m); [lia|]. now apply IH.
Qed.
Lemma digits_utf8 v : forallb is_digit v = true -> to_utf8 v = v.
Proof. intros H. apply to_utf8_ascii. now apply digits_ascii. Qed.
Lemma atoi_plain v : v <> [] -> forallb is_digit v = true -> Z.of_N (dec_val v) <= int64_max -> atoi v = Ok (Z.of_N (dec_val v)).
Proof.
  intros H1 H2 H3. apply atoi_nonneg_digits; [|exact H3]. unfold atoi_digits. destruct v; [congruence|]. now rewrite H2.
Qed.
Lemma said_step id l n v : Forall (fun p => fst p < n) l -> sub_ok (n, v) ->
  set_field (key_text n) (to_utf8 v) (said id l) = Ok (said id (l ++ [(n, v)])).
Proof.
  intros Hl (Hk & _ & _ & Hnum). cbn [fst snd] in *.
  pose proof (find_absent l n n Hl ltac:(lia)) as Hn. pose proof (find_absent l n 33 Hl) as H33.
  apply key_numbers_ok in Hk. unfold key_numbers in Hk. cbn [In] in Hk.
  unfold said, party_name, sub_or_nothing, sub, subs_between, addition. cbn [i_subs].
  repeat match goal with |- context [filter ?f (l ++ [(n, v)])] => rewrite (filter_app f l [(n, v)]) end.
  rewrite !map_app, !find_snoc. cbn [fst].
  destruct (Z.eq_dec n 34) as [->|N34].
  { destruct (Hnum eq_refl) as (V1 & V2 & V3). rewrite digits_utf8 by exact V2.
    rewrite Hn. cbn. rewrite atoi_plain by assumption. cbn. rewrite ?app_nil_r.
    repeat match goal with |- context [find ?f l] => let F := fresh in destruct (find f l) end; reflexivity. }
  clear Hnum.
  repeat (destruct Hk as [<-|Hk]; [try rewrite Hn; try (rewrite H33 by lia); cbn; rewrite ?app_nil_r;
    repeat match goal with |- context [find ?f l] => let F := fresh in destruct (find f l) eqn:F end; cbn; rewrite ?app_nil_r; try reflexivity; exfalso; lia|]).
  contradiction.
Qed.
Lemma set_all_said id : forall subs done, ascending (map fst (done ++ subs)) -> Forall sub_ok subs ->
  set_all subs (said id done) = Ok (said id (done ++ subs)).
Proof.
  induction subs as [|[n v] r IH]; intros done Ha Hs; [now rewrite app_nil_r|].
  inversion Hs; subst. cbn [set_all]. rewrite said_step; [|clear - Ha|assumption].
  - cbn [obind]. rewrite IH; [now rewrite <- app_assoc|now rewrite <- app_assoc|assumption].
  - induction done as [|[m w] d IHd]; [constructor|]. cbn [app map fst] in Ha. apply ascending_tail in Ha. destruct Ha as [Ha Hm].
    constructor; [|now apply IHd]. cbn [fst]. rewrite Forall_forall in Hm. apply Hm. rewrite map_app. apply in_or_app. right. now left.
Qed.

(** *** Line breaks *)
Lemma remove_crlf_plain s : ~ In b_cr s -> remove_crlf s = s.
Proof.
  induction s as [|a t IH]; intros H; [reflexivity|]. cbn [remove_crlf].
  destruct t as [|b r]; [reflexivity|]. destruct (beq_spec a b_cr) as [->|]; [exfalso; apply H; now left|].
  cbn [andb]. f_equal. apply IH. intros K. apply H. now right.
Qed.
Lemma remove_crlf_app : forall a s, ~ In b_cr a -> remove_crlf (a ++ crlf ++ s) = a ++ remove_crlf s.
Proof.
  induction a as [|x a IH]; intros s H; [reflexivity|].
  cbn [app]. assert (Hx : beq x b_cr = false) by (apply beq_false; intros ->; apply H; now left).
  specialize (IH s ltac:(intros K; apply H; now right)).
  cbn [remove_crlf]. destruct (a ++ crlf ++ s) eqn:E; [destruct a; discriminate|]. rewrite Hx. cbn [andb]. now rewrite IH.
Qed.
Lemma remove_crlf_join : forall lines, ~ In b_cr (List.concat lines) -> remove_crlf (join crlf lines) = List.concat lines.
Proof.
  induction lines as [|a l IH]; intros H; [reflexivity|]. cbn [List.concat] in *.
  assert (Ha : ~ In b_cr a) by (intros K; apply H; apply in_or_app; now left).
  assert (Hl : ~ In b_cr (List.concat l)) by (intros K; apply H; apply in_or_app; now right).
  destruct l as [|b l]; [cbn [join List.concat]; rewrite app_nil_r; now apply remove_crlf_plain|].
  rewrite join_cons, remove_crlf_app by exact Ha. f_equal. exact (IH Hl).
Qed.
Lemma info_text_no_cr subs : Forall sub_ok subs -> ~ In b_cr (List.concat (map sub_text subs)).
Proof.
  induction subs as [|[n v] r IH]; intros H; [intros []|]. inversion H as [|? ? (Hk & Hcr & _) Hr]; subst. cbn [fst snd] in *.
  cbn [map List.concat]. change (sub_text (n, v)) with (key_text n ++ v). intros K.
  apply in_app_or in K. destruct K as [K|K]; [|now apply IH].
  apply in_app_or in K. destruct K as [K|K]; [|contradiction].
  destruct (digits2_digits n (key_range n Hk)) as [D1 D2]. rewrite key_three in K.
  destruct K as [K|[K|[K|[]]]]; [discriminate|rewrite K in D1; discriminate|rewrite K in D2; discriminate].
Qed.

(** ** Tags *)
Lemma read_bytes_eq c : forall a s, ~ In c a -> read_bytes c (a ++ c :: s) = Some (a, s).
Proof.
  induction a as [|x a IH]; intros s H; cbn [app read_bytes]; [now rewrite beq_refl|].
  assert (beq x c = false) as -> by (apply beq_false; intros ->; apply H; now left).
  now rewrite IH by (intros K; apply H; now right).
Qed.
Lemma read_bytes_none c : forall s, ~ In c s -> read_bytes c s = None.
Proof.
  induction s as [|x a IH]; intros H; cbn [read_bytes]; [reflexivity|].
  assert (beq x c = false) as -> by (apply beq_false; intros ->; apply H; now left).
  now rewrite IH by (intros K; apply H; now right).
Qed.
Lemma tag_elements_eq id v : ~ In b_colon id -> tag_elements (b_colon :: id ++ b_colon :: v) = Ok (b_colon :: id ++ [b_colon], v).
Proof. intros H. unfold tag_elements. rewrite beq_refl, read_bytes_eq by exact H. reflexivity. Qed.

Lemma read_custom_eq id i v : ~ In b_colon id -> info_ok i -> info_value i v ->
  read_custom (b_colon :: id ++ b_colon :: v) = Ok (said (Z.of_N (dec_val (i_code i))) (i_subs i)).
Proof.
  intros Hid (Hl & Hd & Ha & Hs) (lines & Hc & ->). unfold read_custom. rewrite tag_elements_eq by exact Hid. cbn [obind snd]. cbv zeta.
  unfold len. rewrite app_length, Hl. destruct (Z.ltb_spec (Z.of_nat (3 + List.length (join crlf lines))) 3); [lia|].
  rewrite firstn_app_len, skipn_app_len by (symmetry; exact Hl). rewrite digits_utf8 by exact Hd.
  rewrite atoi_plain; [|destruct (i_code i); [discriminate|congruence]|exact Hd|].
  - cbn [obind]. rewrite remove_crlf_join by (rewrite Hc; now apply info_text_no_cr). rewrite Hc. unfold info_text.
    rewrite key_positions_eq by assumption.
    rewrite (custom_loop_eq (i_subs i) []). apply (set_all_said _ (i_subs i) []); assumption.
  - pose proof (dec_val_bound _ Hd) as K. rewrite Hl in K. unfold int64_max. change (10 ^ N.of_nat 3)%N with 1000%N in K. lia.
Qed.
