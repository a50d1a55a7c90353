(** * Facts about IsValid: lengths of texts, ordered sets and the rules *)
From Coq Require Import Lia ZifyBool ZifyNat ZifyN Permutation Sorted.
From Verif Require Import Base BaseFacts Lexer_Model Codec_Model Codec_Proofs Wire_Model Time_Model Valid_Model Valid_Spec.
Open Scope Z_scope.

(** ** Lengths *)
Lemma itoa_N_digits_exact n k : (0 < k)%nat -> (List.length (itoa_N n) <= k)%nat <-> (n < 10 ^ N.of_nat k)%N.
Proof.
  intros K. split; [|intros; now apply itoa_N_length].
  intros L. destruct (itoa_N_spec n) as (_ & D & V & _).
  pose proof (dec_val_bound (itoa_N n) D) as U. rewrite V in U.
  eapply N.lt_le_trans; [exact U|]. apply N.pow_le_mono_r; lia.
Qed.
Lemma pow_ZN k : Z.of_N (10 ^ N.of_nat k) = 10 ^ Z.of_nat k.
Proof. rewrite N2Z.inj_pow. f_equal. lia. Qed.

Lemma itoa_fits max z : valid_length (itoa z) max = true <-> int_fits max z.
Proof.
  unfold valid_length, int_fits, itoa. rewrite Z.leb_le. destruct (Z.ltb_spec z 0) as [N|N].
  - simpl List.length. assert (Ne := proj1 (itoa_N_spec (Z.to_N (- z)))). destruct (Z.ltb_spec max 2) as [M|M].
    + split; intros H.
      * destruct (itoa_N (Z.to_N (- z))); [easy|]. simpl in H. lia.
      * exfalso. destruct (Z.eq_dec max 1) as [->|]; [simpl in H; lia|lia].
    + pose proof (itoa_N_digits_exact (Z.to_N (- z)) (Z.to_nat (max - 1)) ltac:(lia)) as E.
      assert (P : Z.of_N (10 ^ N.of_nat (Z.to_nat (max - 1))) = 10 ^ (max - 1)) by (rewrite pow_ZN; f_equal; lia).
      assert (Pm : 0 < 10 ^ max) by (apply Z.pow_pos_nonneg; lia).
      split; intros H.
      * split; [lia|]. assert (List.length (itoa_N (Z.to_N (- z))) <= Z.to_nat (max - 1))%nat as L by lia. apply E in L. lia.
      * destruct H as [_ [H _]]. assert (Z.to_N (- z) < 10 ^ N.of_nat (Z.to_nat (max - 1)))%N as L by lia. apply E in L. lia.
  - assert (Ne := proj1 (itoa_N_spec (Z.to_N z))). destruct (Z.ltb_spec max 1) as [M|M].
    + split; [|lia]. intros H. destruct (itoa_N (Z.to_N z)); [easy|]. simpl in H. lia.
    + pose proof (itoa_N_digits_exact (Z.to_N z) (Z.to_nat max) ltac:(lia)) as E.
      assert (P : Z.of_N (10 ^ N.of_nat (Z.to_nat max)) = 10 ^ max) by (rewrite pow_ZN; f_equal; lia).
      assert (Pm : 0 < 10 ^ (max - 1)) by (apply Z.pow_pos_nonneg; lia).
      split; intros H.
      * split; [lia|]. assert (List.length (itoa_N (Z.to_N z)) <= Z.to_nat max)%nat as L by lia. apply E in L. lia.
      * destruct H as [_ H]. assert (Z.to_N z < 10 ^ N.of_nat (Z.to_nat max))%N as L by lia. apply E in L. lia.
Qed.

Lemma digits_of_spec : forall b, Z.of_nat (List.length (itoa_N (Byte.to_N b))) = digits_of b.
Proof.
  assert (G : forall b, (Z.of_nat (List.length (itoa_N (Byte.to_N b))) =? digits_of b) = true) by (apply byte_sweep; vm_compute; reflexivity).
  intros b. now apply Z.eqb_eq.
Qed.
Lemma join_listing d : d <> [] -> Z.of_nat (List.length (join [" "%byte] (map (fun b => itoa_N (Byte.to_N b)) d))) = listing d - 1.
Proof.
  induction d as [|b d IH]; [easy|]. intros _. destruct d as [|c d].
  - assert (E := digits_of_spec b). unfold listing. cbn [map join]. rewrite E. lia.
  - change (join [" "%byte] (map (fun b => itoa_N (Byte.to_N b)) (b :: c :: d)))
      with (itoa_N (Byte.to_N b) ++ [" "%byte] ++ join [" "%byte] (map (fun b => itoa_N (Byte.to_N b)) (c :: d))).
    rewrite !app_length. assert (H := IH ltac:(easy)). remember (join [" "%byte] (map (fun b => itoa_N (Byte.to_N b)) (c :: d))) as j. clear Heqj IH. cbn [List.length]. change (listing (b :: c :: d)) with (digits_of b + 1 + listing (c :: d)).
    rewrite <- digits_of_spec. lia.
Qed.
Lemma bytes_v_length d : Z.of_nat (List.length (bytes_v d)) = listing_length d.
Proof.
  destruct d as [|b d]; [reflexivity|]. assert (H := join_listing (b :: d) ltac:(easy)). unfold bytes_v, listing_length.
  remember (join [" "%byte] (map (fun b => itoa_N (Byte.to_N b)) (b :: d))) as j. clear Heqj.
  cbn [List.length]. rewrite app_length. cbn [List.length]. lia.
Qed.

(** ** Floats *)
Lemma zeros_split s : exists a, s = repeat b_zero a ++ zeros s /\ match zeros s with [] => True | d :: _ => d <> b_zero end.
Proof.
  induction s as [|c s (a & E & F)]; [now exists 0%nat|]. simpl. destruct (beq c b_zero) eqn:H.
  - apply beq_true in H. subst c. exists (S a). simpl. split; [now f_equal|exact F].
  - exists 0%nat. split; [reflexivity|]. intros ->. now rewrite beq_refl in H.
Qed.
Lemma zeros_repeat a s : zeros (repeat b_zero a ++ s) = zeros s.
Proof. induction a; [reflexivity|]. simpl. now rewrite IHa. Qed.
Lemma rev_repeat (x : byte) a : rev (repeat x a) = repeat x a.
Proof.
  induction a; [reflexivity|]. simpl. rewrite IHa. clear. induction a; [reflexivity|]. simpl. now rewrite IHa.
Qed.
Lemma zeros_stop d s : d <> b_zero -> zeros (d :: s) = d :: s.
Proof. intros H. simpl. destruct (beq d b_zero) eqn:E; [apply beq_true in E; easy|reflexivity]. Qed.
Lemma trim_digits a ds b d : hd_error ds = Some d -> d <> b_zero -> last ds d <> b_zero ->
  zeros (repeat b_zero a ++ ds ++ repeat b_zero b) = ds ++ repeat b_zero b /\ rev (zeros (rev (ds ++ repeat b_zero b))) = ds.
Proof.
  intros H D L. rewrite zeros_repeat. destruct ds as [|d' ds]; [easy|]. injection H as ->.
  split; [now apply zeros_stop|].
  rewrite rev_app_distr, rev_repeat, zeros_repeat.
  destruct (exists_last (l := d :: ds) ltac:(easy)) as (p & l & E). rewrite E in L |- *. rewrite last_last in L.
  rewrite rev_app_distr. cbn [rev app]. rewrite zeros_stop by exact L.
  simpl. now rewrite rev_involutive.
Qed.

Lemma pad2_length n : Z.of_nat (List.length (pad_left 2 n)) = Z.max 2 (Z.of_nat (List.length n)).
Proof. unfold pad_left. rewrite app_length, repeat_length. lia. Qed.

Lemma float_length_spec f n : float_length f n -> n = Z.of_nat (List.length (float_v f)).
Proof.
  intros H. destruct H as [|neg|neg frac Z0|neg i frac a b ds d e E Hd D L He].
  - reflexivity.
  - now destruct neg.
  - unfold float_v. change (itoa_N 0) with [b_zero]. cbv zeta.
    assert (A : zeros ([b_zero] ++ frac) = []).
    { simpl. induction frac as [|c r IH]; [reflexivity|]. simpl in Z0 |- *. apply andb_true_iff in Z0. destruct Z0 as [C Z0].
      apply beq_true in C. subst c. rewrite beq_refl. now apply IH. }
    rewrite A. cbn. now destruct neg.
  - unfold float_v. cbv zeta. destruct (trim_digits a ds b d Hd D L) as [T1 T2]. rewrite E, T1, T2.
    destruct ds as [|d' ds]; [easy|]. injection Hd as ->.
    replace (Z.of_nat (List.length (itoa_N i)) - (Z.of_nat (List.length (repeat b_zero a ++ (d :: ds) ++ repeat b_zero b)) -
      Z.of_nat (List.length ((d :: ds) ++ repeat b_zero b))) - 1) with e.
    2:{ rewrite !app_length, !repeat_length. lia. }
    destruct ((e <? -4) || (6 <=? e)).
    + rewrite app_length. simpl List.length. rewrite app_length. unfold exponent_v. simpl List.length.
      assert (P := pad2_length (itoa (Z.abs e))).
      destruct neg, ds; simpl List.length; simpl Nat.leb; lia.
    + simpl. rewrite !app_length. destruct neg, frac; simpl List.length; lia.
Qed.
Lemma float_length_exists f : float_length f (Z.of_nat (List.length (float_v f))).
Proof.
  assert (G : exists n, float_length f n).
  { destruct f as [neg i frac|neg|].
    - destruct (zeros_split (itoa_N i ++ frac)) as (a & E & F). set (s := zeros (itoa_N i ++ frac)) in *.
      destruct (zeros_split (rev s)) as (b & E2 & F2). set (t := zeros (rev s)) in *.
      assert (S1 : s = rev t ++ repeat b_zero b).
      { rewrite <- (rev_involutive s), E2, rev_app_distr, rev_repeat. reflexivity. }
      destruct t as [|l p] eqn:Et.
      + (* only zeros *)
        simpl in S1. assert (A : forallb (beq b_zero) (itoa_N i ++ frac) = true).
        { rewrite E, S1. apply forallb_forall. intros x Hx. apply in_app_or in Hx. destruct Hx as [Hx|Hx]; apply repeat_spec in Hx; subst x; apply beq_refl. }
        rewrite forallb_app in A. apply andb_true_iff in A. destruct A as [A1 A2].
        destruct (itoa_N_spec i) as (N1 & N2 & N3 & N4 & N5).
        destruct (N.eq_dec i 0) as [->|Ni]; [eexists; now constructor|].
        exfalso. destruct (itoa_N i) as [|c r] eqn:Ei; [easy|]. apply (N5 Ni c r eq_refl).
        simpl in A1. apply andb_true_iff in A1. destruct A1 as [A1 _]. now apply beq_true in A1.
      + assert (Hs : exists d r, s = d :: r).
        { rewrite S1. simpl. destruct (rev p); simpl; eauto. }
        destruct Hs as (d & r & Hs). 
        assert (Hh : hd_error (rev (l :: p)) = Some d).
        { assert (R : rev (l :: p) <> []) by (simpl; destruct (rev p); easy). rewrite S1 in Hs.
          destruct (rev (l :: p)); [easy|]. simpl in Hs. now injection Hs as -> _. }
        eexists. eapply (L_num neg i frac a b (rev (l :: p)) d); [|exact Hh| | |reflexivity].
        * rewrite E at 1. now rewrite S1.
        * rewrite Hs in F. exact F.
        * simpl. rewrite last_last. exact F2.
    - eexists. constructor.
    - eexists. constructor. }
  destruct G as (n & G). assert (E := float_length_spec f n G). now rewrite E in G.
Qed.
Lemma float_fits max f : valid_length (float_v f) max = true <-> exists n, float_length f n /\ n <= max.
Proof.
  unfold valid_length. rewrite Z.leb_le. split.
  - intros H. eexists. split; [apply float_length_exists|exact H].
  - intros (n & L & H). now rewrite (float_length_spec f n L) in H.
Qed.

(** ** Characters *)
Lemma alnum_valid_spec v max : alnum_valid v max = true <-> fits max v /\ unbroken v.
Proof.
  unfold alnum_valid, valid_length, fits. rewrite andb_true_iff, Z.leb_le, negb_true_iff.
  assert (G : existsb alnum_invalid_char v = false <-> unbroken v).
  { unfold unbroken, one_line. split.
    - intros H. assert (N : forall c, alnum_invalid_char c = true -> ~ In c v).
      { intros c C I. assert (existsb alnum_invalid_char v = true) by (apply existsb_exists; eauto). congruence. }
      repeat split; apply N; reflexivity.
    - intros ((A & B) & C & D). destruct (existsb alnum_invalid_char v) eqn:E; [|reflexivity]. exfalso.
      apply existsb_exists in E. destruct E as (c & I & E). unfold alnum_invalid_char in E. rewrite !orb_true_iff in E.
      destruct E as [[[E|E]|E]|E]; apply beq_true in E; subst c; auto. }
  rewrite G. tauto.
Qed.

(** ** The order and the sets *)
Lemma str_leb_before s t : str_leb s t = true <-> before s t.
Proof.
  split.
  - revert t. induction s as [|x s IH]; intros t H; [constructor|]. destruct t as [|y t]; [easy|]. simpl in H.
    destruct (N.ltb_spec (Byte.to_N x) (Byte.to_N y)); [now constructor|]. apply andb_true_iff in H. destruct H as [E H].
    apply beq_true in E. subst y. apply B_same. now apply IH.
  - induction 1 as [t|x y s t L|x s t B IH]; simpl; [reflexivity| |].
    + now replace (Byte.to_N x <? Byte.to_N y)%N with true by lia.
    + rewrite N.ltb_irrefl, beq_refl. exact IH.
Qed.
Lemma byte_order x y : (Byte.to_N x < Byte.to_N y)%N \/ x = y \/ (Byte.to_N y < Byte.to_N x)%N.
Proof.
  destruct (N.lt_trichotomy (Byte.to_N x) (Byte.to_N y)) as [H|[H|H]]; auto. right. left.
  assert (E : Some x = Some y) by now rewrite <- (Byte.of_to_N x), <- (Byte.of_to_N y), H. now injection E.
Qed.
Lemma before_refl s : before s s.
Proof. induction s; [apply B_nil|now apply B_same]. Qed.
Lemma before_trans a b c : before a b -> before b c -> before a c.
Proof.
  intros H. revert c. induction H as [t|x y s t L|x s t B IH]; intros c H2; [constructor| |].
  - inversion H2; subst; apply B_less; lia.
  - inversion H2; subst; [now apply B_less|apply B_same; auto].
Qed.
Lemma before_total a b : before a b \/ before b a.
Proof.
  revert b. induction a as [|x a IH]; intros b; [left; constructor|]. destruct b as [|y b]; [right; constructor|].
  destruct (byte_order x y) as [H|[->|H]]; [left; now constructor| |right; now constructor].
  destruct (IH b) as [H|H]; [left|right]; now apply B_same.
Qed.
Lemma before_antisym a b : before a b -> before b a -> a = b.
Proof.
  induction 1 as [t|x y s t L|x s t B IH]; intros H; inversion H; subst; try lia; auto. f_equal. auto.
Qed.

Lemma insert_perm s l : Permutation (s :: l) (insert_str s l).
Proof.
  induction l as [|t l IH]; [reflexivity|]. simpl. destruct (str_leb s t); [reflexivity|].
  rewrite perm_swap. now constructor.
Qed.
Lemma insert_sorted s l : StronglySorted before l -> StronglySorted before (insert_str s l).
Proof.
  induction 1 as [|t l S IH F]; [repeat constructor|]. simpl. destruct (str_leb s t) eqn:E.
  - apply str_leb_before in E. constructor; [now constructor|]. constructor; [exact E|].
    eapply Forall_impl; [|exact F]. intros c. now apply before_trans.
  - assert (before t s) by (destruct (before_total s t) as [H|H]; [apply str_leb_before in H; congruence|exact H]).
    constructor; [exact IH|]. eapply Permutation_Forall; [apply insert_perm|]. now constructor.
Qed.
Lemma sort_spec l : Permutation l (sort_strings l) /\ StronglySorted before (sort_strings l).
Proof.
  induction l as [|s l [P S]]; [split; [reflexivity|constructor]|]. simpl. split.
  - etransitivity; [|apply insert_perm]. now constructor.
  - now apply insert_sorted.
Qed.

Lemma search_spec f : forall fuel i j, (j - i <= fuel)%nat -> (i <= j)%nat ->
  (forall h k, (h <= k < j)%nat -> f h = true -> f k = true) ->
  (i <= search fuel f i j <= j)%nat /\ ((search fuel f i j < j)%nat <-> exists h, (i <= h < j)%nat /\ f h = true).
Proof.
  induction fuel as [|fuel IH]; intros i j L Le M; simpl.
  - split; [lia|]. split; [lia|]. intros (h & ? & _). lia.
  - destruct (Nat.ltb_spec i j) as [H|H].
    2:{ split; [lia|]. split; [lia|]. intros (h & ? & _). lia. }
    assert (D : (i <= Nat.div2 (i + j) < j)%nat) by (rewrite Nat.div2_div; split; [apply Nat.div_le_lower_bound|apply Nat.div_lt_upper_bound]; lia).
    change (match (i + j)%nat with 0%nat => 0%nat | 1%nat => 0%nat | S (S n') => S (Nat.div2 n') end) with (Nat.div2 (i + j)).
    set (m := Nat.div2 (i + j)) in *. destruct (f m) eqn:F.
    + destruct (IH i m ltac:(lia) ltac:(lia)) as [A B]; [intros h k Hk Hh; apply (M h k); [lia|exact Hh]|].
      split; [lia|]. split; [intros _; exists m; split; [lia|exact F]|]. intros _. lia.
    + destruct (IH (S m) j ltac:(lia) ltac:(lia)) as [A B]; [exact M|]. split; [lia|]. rewrite B. split.
      * intros (h & Hh & E). exists h. split; [lia|exact E].
      * intros (h & Hh & E). exists h. split; [|exact E]. destruct (Nat.le_gt_cases h m) as [Q|Q]; [|lia].
        rewrite (M h m ltac:(lia) E) in F. easy.
Qed.
Lemma sorted_nth l : StronglySorted before l -> forall i j, (i <= j < List.length l)%nat -> before (nth i l []) (nth j l []).
Proof.
  induction 1 as [|t l S IH F]; intros i j H; [simpl in H; lia|]. destruct i as [|i], j as [|j]; simpl in *.
  - apply before_refl.
  - rewrite Forall_forall in F. apply F, nth_In. lia.
  - lia.
  - apply IH. lia.
Qed.
Lemma search_member set v : Nat.leb (List.length set) (search_strings (sort_strings set) v) = false <-> exists c, In c set /\ before v c.
Proof.
  destruct (sort_spec set) as [P S]. rewrite Nat.leb_gt. rewrite (Permutation_length P). unfold search_strings.
  set (l := sort_strings set) in *.
  destruct (search_spec (fun h => str_leb v (nth h l [])) (List.length l) 0 (List.length l) ltac:(lia) ltac:(lia)) as [_ E].
  - intros h k H Hh. apply str_leb_before in Hh. apply str_leb_before. eapply before_trans; [exact Hh|]. now apply sorted_nth.
  - rewrite E. split.
    + intros (h & Hh & B). exists (nth h l []). apply str_leb_before in B. split; [|exact B].
      eapply Permutation_in; [symmetry; exact P|]. apply nth_In. lia.
    + intros (c & I & B). apply (Permutation_in c P) in I. destruct (In_nth l c [] I) as (h & Hh & N).
      exists h. split; [lia|]. rewrite N. now apply str_leb_before.
Qed.

(** ** Elements: induction, and the loops over the parts *)
Section Ind.
  Variable P : velem -> Prop.
  Hypothesis basic : forall e, match e with VGroup _ _ _ | VArray _ _ _ => False | _ => True end -> P e.
  Hypothesis group : forall count needed es, (forall x, In (Some x) es -> P x) -> P (VGroup count needed es).
  Hypothesis array : forall min max es, (forall x, In x es -> P x) -> P (VArray min max es).
  Fixpoint velem_induct (e : velem) : P e.
  Proof.
    destruct e; try (apply basic; exact I).
    - apply group. induction es as [|o es IH]; [intros x []|]. destruct o as [y|].
      + pose proof (velem_induct y) as Hy. intros x [E|Hx]; [injection E as <-; exact Hy|apply IH, Hx].
      + intros x [E|Hx]; [discriminate E|apply IH, Hx].
    - apply array. induction es as [|o es IH]; [intros x []|]. intros x [E|Hx]; [|now apply IH].
      rewrite <- E. apply velem_induct.
  Qed.
End Ind.

Fixpoint every (l : list (option velem)) : outcome bool :=
  match l with
  | [] => Ok true
  | None :: r => every r
  | Some x :: r => do b <- valid x; if b then every r else Ok false
  end.
Fixpoint each (l : list velem) : outcome bool :=
  match l with [] => Ok true | x :: r => do b <- valid x; if b then each r else Ok false end.
Lemma valid_group count needed es : valid (VGroup count needed es) =
  if forallb (present es) needed then if count =? Z.of_nat (List.length es) then every es else Ok false else Ok false.
Proof. reflexivity. Qed.
Lemma valid_array min max es : valid (VArray min max es) =
  if (Z.of_nat (List.length es) <? min) || (max <? Z.of_nat (List.length es)) then Ok false else each es.
Proof. reflexivity. Qed.
Lemma every_true es : every es = Ok true <-> forall x, In (Some x) es -> valid x = Ok true.
Proof.
  induction es as [|[y|] es IH]; simpl; [easy| |].
  - destruct (valid y) as [[]| |] eqn:V; simpl.
    + rewrite IH. split; [intros H x [E|E]; [now injection E as <-|auto]|intros H x Hx; apply H; auto].
    + split; [easy|]. intros H. specialize (H y (or_introl eq_refl)). congruence.
    + split; [easy|]. intros H. specialize (H y (or_introl eq_refl)). congruence.
    + split; [easy|]. intros H. specialize (H y (or_introl eq_refl)). congruence.
  - rewrite IH. split; [intros H x [E|E]; [easy|auto]|intros H x Hx; apply H; auto].
Qed.
Lemma each_true es : each es = Ok true <-> forall x, In x es -> valid x = Ok true.
Proof.
  induction es as [|y es IH]; simpl; [easy|].
  destruct (valid y) as [[]| |] eqn:V; simpl; try (split; [easy|]; intros H; specialize (H y (or_introl eq_refl)); congruence).
  rewrite IH. split; [intros H x [<-|E]; auto|intros H x Hx; apply H; auto].
Qed.
Lemma every_total es : (forall x, In (Some x) es -> exists b, valid x = Ok b) -> exists b, every es = Ok b.
Proof.
  induction es as [|[y|] es IH]; simpl; intros H; [eauto| |].
  - destruct (H y (or_introl eq_refl)) as (b & ->). simpl. destruct b; eauto.
  - apply IH. auto.
Qed.
Lemma each_total es : (forall x, In x es -> exists b, valid x = Ok b) -> exists b, each es = Ok b.
Proof.
  induction es as [|y es IH]; simpl; intros H; [eauto|]. destruct (H y (or_introl eq_refl)) as (b & ->). simpl. destruct b; eauto.
Qed.
Lemma present_nth es i : present es i = true <-> exists x, nth_error es i = Some (Some x).
Proof.
  unfold present. destruct (nth i es None) as [x|] eqn:E.
  - split; [intros _|easy]. exists x. destruct (nth_error es i) eqn:N; [apply nth_error_nth with (d := None) in N; congruence|].
    apply nth_error_None in N. rewrite nth_overflow in E by lia. easy.
  - split; [easy|]. intros (x & N). apply nth_error_nth with (d := None) in N. congruence.
Qed.

Lemma valid_acceptable e : valid e = Ok true <-> acceptable e.
Proof.
  induction e as [e B|count needed es IH|min max es IH] using velem_induct.
  - destruct e; try easy; simpl valid.
    + transitivity (fits max v /\ unbroken v); [rewrite <- alnum_valid_spec; split; congruence|].
      split; [intros []; now constructor|intros H; inversion H; auto].
    + unfold valid_length. split; [intros H; constructor; unfold fits; apply Z.leb_le; congruence|intros H; inversion H; subst; f_equal; now apply Z.leb_le].
    + transitivity (int_fits max z); [rewrite <- itoa_fits; split; congruence|]. split; [now constructor|now inversion 1].
    + transitivity (exists n, float_length f n /\ n <= max); [rewrite <- float_fits; split; congruence|].
      split; [intros (n & A & C); econstructor; eauto|intros H; inversion H; eauto].
    + unfold valid_length. rewrite bytes_v_length. split; [intros H; constructor; apply Z.leb_le; congruence|intros H; inversion H; subst; f_equal; now apply Z.leb_le].
    + split; [destruct b; vm_compute; discriminate|intros H; inversion H].
    + destruct (Nat.leb (List.length set) (search_strings (sort_strings set) v)) eqn:S.
      * split; [easy|]. intros H. inversion H; subst. exfalso.
        assert (F : Nat.leb (List.length set) (search_strings (sort_strings set) v) = false) by (apply search_member; eauto). congruence.
      * apply search_member in S. destruct S as (c & I & Bc). split.
        -- intros H. assert (A : alnum_valid v max = true) by congruence. apply alnum_valid_spec in A. destruct A. econstructor; eauto.
        -- intros H. inversion H; subst. f_equal. now apply alnum_valid_spec.
    + unfold len. split; [intros H; constructor; injection H as H; lia|intros H; inversion H; subst; f_equal; lia].
    + unfold is_zero_moment, is_zero. destruct d as [y m dd], t as [h mi s]. simpl. split.
      * intros H. constructor. intros [E1 E2]. injection E1 as -> -> ->. injection E2 as -> -> ->. easy.
      * intros H. inversion H as [| | | | | | |? ? ? N| |]; subst. f_equal. apply negb_true_iff.
        destruct ((y =? 1) && (m =? 1) && (dd =? 1) && (h =? 0) && (mi =? 0) && (s =? 0)) eqn:E; [|reflexivity].
        exfalso. apply N. split; f_equal; lia.
  - rewrite valid_group. split.
    + intros H. destruct (forallb (present es) needed) eqn:F; [|easy]. destruct (Z.eqb_spec count (Z.of_nat (List.length es))) as [E|]; [|easy].
      constructor; [exact E| |].
      * intros i I. rewrite forallb_forall in F. apply present_nth, F, I.
      * intros x I. apply IH; [exact I|]. now apply (proj1 (every_true es) H).
    + intros H. inversion H as [| | | | | | | |? ? ? E N A|]; subst.
      replace (forallb (present es) needed) with true.
      * rewrite Z.eqb_refl. apply every_true. intros x I. apply IH; auto.
      * symmetry. apply forallb_forall. intros i I. apply present_nth. auto.
  - rewrite valid_array. split.
    + intros H. destruct ((Z.of_nat (List.length es) <? min) || (max <? Z.of_nat (List.length es))) eqn:F; [easy|].
      constructor; [lia|]. intros x I. apply IH; [exact I|]. now apply (proj1 (each_true es) H).
    + intros H. inversion H as [| | | | | | | | |? ? ? E A]; subst.
      replace ((Z.of_nat (List.length es) <? min) || (max <? Z.of_nat (List.length es))) with false by lia.
      apply each_true. intros x I. apply IH; auto.
Qed.
Lemma valid_total e : whole e -> exists b, valid e = Ok b.
Proof.
  induction e as [e B|count needed es IH|min max es IH] using velem_induct; intros W.
  - destruct e; try easy; simpl; eauto.
    + destruct (Nat.leb _ _); eauto.
    + inversion W; contradiction.
  - rewrite valid_group. assert (W' : forall x, In (Some x) es -> whole x) by (inversion W; subst; auto; contradiction).
    destruct (forallb (present es) needed), (count =? Z.of_nat (List.length es)); eauto. apply every_total. auto.
  - rewrite valid_array. assert (W' : forall x, In x es -> whole x) by (inversion W; subst; auto; contradiction).
    destruct ((Z.of_nat (List.length es) <? min) || (max <? Z.of_nat (List.length es))); eauto. apply each_total. auto.
Qed.
