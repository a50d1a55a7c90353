(** * More lemmas about IBANs: New, From and Valid *)
From Coq Require Import Lia ZifyBool ZifyNat ZifyN.
From Verif Require Import Base BaseFacts Lexer_Model Iban_Model Iban_Spec Iban_Proofs.
Open Scope Z_scope.
Ltac Zify.zify_post_hook ::= Z.div_mod_to_equations.

Lemma len_list (l : bytes) : len l = Z.of_nat (List.length l). Proof. reflexivity. Qed.
Lemma slice_parts a b c d r :
  slice 0 2 (a :: b :: c :: d :: r) = Ok [a; b] /\ slice 2 4 (a :: b :: c :: d :: r) = Ok [c; d] /\ slice_from 4 (a :: b :: c :: d :: r) = Ok r.
Proof.
  unfold slice, slice_from. rewrite !len_list. cbn [List.length].
  destruct (Z.ltb_spec (Z.of_nat (S (S (S (S (List.length r)))))) 2); [lia|].
  destruct (Z.ltb_spec (Z.of_nat (S (S (S (S (List.length r)))))) 4); [lia|].
  split; [reflexivity|]. split; reflexivity.
Qed.
Lemma new_iff cc bban i : new_iban cc bban = Ok i <->
  List.length cc = 2%nat /\ bban <> [] /\ len bban <= max_length (upper cc) - 4 /\
  exists n, set_string (transform (upper bban ++ upper cc) ++ B "00") = Some n /\ i = upper cc ++ itoa_pad 2 (98 - n mod 97) ++ upper bban.
Proof.
  unfold new_iban. rewrite transform_app, <- app_assoc. split.
  - intros H. destruct (len cc =? 2) eqn:E1; [|discriminate]. cbn [negb] in H. destruct (len bban =? 0) eqn:E2; [discriminate|].
    destruct (_ <? len bban) eqn:E3; [discriminate|]. destruct (set_string _) as [n|] eqn:E4; [|discriminate]. injection H as <-.
    rewrite len_list in E1. split; [lia|]. split; [intros ->; discriminate|]. split; [lia|]. exists n. auto.
  - intros [H1 [H2 [H3 [n [H4 ->]]]]]. rewrite !len_list in *. rewrite H1. cbn [Z.of_nat Pos.of_succ_nat Pos.succ Z.eqb Pos.eqb negb].
    destruct (Z.eqb_spec (Z.of_nat (List.length bban)) 0); [destruct bban; [congruence|cbn [List.length] in *; lia]|].
    destruct (Z.ltb_spec (max_length (upper cc) - 4) (Z.of_nat (List.length bban))); [lia|]. rewrite H4. reflexivity.
Qed.
Lemma upper_head_sign c l : beq c b_minus = true \/ beq c b_plus = true -> forall v, upper l = c :: v -> exists r, l = c :: r.
Proof.
  intros Hc v. destruct l as [|x [|d r]]; [discriminate|..].
  - cbn. intros E. injection E as Ex _. exists []. f_equal.
    set (P := fun x => negb (beq (upper_byte x) b_minus || beq (upper_byte x) b_plus) || beq (upper_byte x) x). sweep P x.
    rewrite Ex in SW. assert (Q : (beq c b_minus || beq c b_plus) = true) by (destruct Hc as [->| ->]; [reflexivity|apply orb_true_r]).
    rewrite Q in SW. cbn [negb orb] in SW. apply beq_true in SW. auto.
  - rewrite upper_two. destruct (is_two x d "196" "177"); [intros E; injection E as <- _; destruct Hc; discriminate|].
    destruct (is_two x d "197" "191"); [intros E; injection E as <- _; destruct Hc; discriminate|].
    intros E. injection E as Ex _. exists (d :: r). f_equal.
    set (P := fun x => negb (beq (upper_byte x) b_minus || beq (upper_byte x) b_plus) || beq (upper_byte x) x). sweep P x.
    rewrite Ex in SW. assert (Q : (beq c b_minus || beq c b_plus) = true) by (destruct Hc as [->| ->]; [reflexivity|apply orb_true_r]).
    rewrite Q in SW. cbn [negb orb] in SW. apply beq_true in SW. auto.
Qed.
Lemma plain_app a b : plain (a ++ b) <-> plain a /\ plain b.
Proof. unfold plain. rewrite forallb_app. apply andb_true_iff. Qed.
Lemma digits_plain a b : is_digit a = true -> is_digit b = true -> plain [a; b].
Proof. intros H1 H2. unfold plain. cbn [forallb]. rewrite H1, H2. reflexivity. Qed.

(** The signs aside: what New makes passes Valid and From. *)
Lemma new_valid cc bban i : new_iban cc bban = Ok i ->
  cc <> ["196"; "177"]%byte -> cc <> ["197"; "191"]%byte -> (forall r, bban <> b_minus :: r) ->
  valid i = Ok true /\ from i = Ok i /\ len i <= 34.
Proof.
  intros H N1 N2 NM. pose proof H as Hnew. apply new_iff in H. destruct H as [Lc [Nb [Lb [n [Hn Hi]]]]].
  assert (EC : upper cc = map upper_byte cc) by (apply upper_country; assumption).
  set (C := upper cc) in *. set (u := upper bban) in *.
  assert (LC : List.length C = 2%nat) by (rewrite EC, map_length; exact Lc).
  assert (Nu : u <> []) by (apply upper_nonempty; exact Nb).
  assert (Lu : (List.length u <= List.length bban)%nat) by apply upper_length.
  pose proof (max_length_bound C) as MB.
  destruct C as [|c1 [|c2 [|? ?]]] eqn:ECC; try discriminate LC. clear LC.
  (* the common form of the number *)
  assert (G : exists s v, u ++ [c1; c2] = s ++ v /\ (s = [] \/ s = [b_plus]) /\ plain v /\ n = 100 * Z.of_N (dec_val (transform v)) /\ v <> [] /\
    upper u = u /\ plain [c1; c2]).
  { apply set_string_transform in Hn; [|reflexivity|discriminate]. destruct Hn as [[P Hn]|[c [v [E [P Hn]]]]].
    - exists [], (u ++ [c1; c2]). apply plain_app in P as P'. destruct P' as [P1 P2].
      split; [reflexivity|]. split; [left; reflexivity|]. split; [exact P|]. split; [change (B "00") with [b_zero; b_zero] in Hn; rewrite dec_val_two in Hn; rewrite Hn; vm_compute (dec_val [b_zero; b_zero]); lia|].
      split; [intros K; apply app_eq_nil in K; destruct K; discriminate|]. split; [apply upper_plain; exact P1|exact P2].
    - destruct u as [|x u'] eqn:Eu; [congruence|]. cbn [app] in E. injection E as -> Ev. subst v. destruct Hn as [[-> _]|[-> Hn]].
      + exfalso. destruct (upper_head_sign b_minus bban (or_introl eq_refl) _ Eu) as [r Hr]. exact (NM r Hr).
      + exists [b_plus], (u' ++ [c1; c2]). apply plain_app in P as P'. destruct P' as [P1 P2].
        split; [reflexivity|]. split; [right; reflexivity|]. split; [exact P|].
        split; [change (B "00") with [b_zero; b_zero] in Hn; rewrite dec_val_two in Hn; rewrite Hn; vm_compute (dec_val [b_zero; b_zero]); lia|].
        split; [intros K; apply app_eq_nil in K; destruct K; discriminate|].
        split; [rewrite upper_head_plain by reflexivity; rewrite upper_plain by exact P1; reflexivity|exact P2]. }
  destruct G as [s [v [Esv [Hs [Pv [Env [Nv [UU PC]]]]]]]].
  assert (UC : upper [c1; c2] = [c1; c2]) by (apply upper_plain; exact PC).
  set (p := 98 - n mod 97) in *. assert (Hp : 0 <= p <= 99) by (unfold p; lia).
  destruct (pp_spec p Hp) as [a [b [Epp [Da [Db Dp]]]]]. rewrite Epp in Hi. cbn [app] in Hi.
  assert (Hck : set_string (transform (u ++ [c1; c2]) ++ [a; b]) = Some (n + p)).
  { rewrite Esv. rewrite transform_app, <- app_assoc.
    assert (Dv : forallb is_digit (transform v ++ [a; b]) = true) by (rewrite forallb_app, transform_forallb; unfold plain in Pv; rewrite Pv; cbn [forallb]; rewrite Da, Db; reflexivity).
    assert (Nv' : transform v ++ [a; b] <> []) by (intros K; apply app_eq_nil in K; destruct K; discriminate).
    assert (Ev : Z.of_N (dec_val (transform v ++ [a; b])) = n + p) by (rewrite dec_val_two, Dp, <- Env; reflexivity).
    destruct Hs as [->| ->].
    - cbn [transform flat_map app]. rewrite set_string_digits by assumption. f_equal. exact Ev.
    - change (transform [b_plus]) with [b_plus]. cbn [app]. unfold set_string. change (beq b_plus b_minus) with false. change (beq b_plus b_plus) with true. cbv iota.
      rewrite atoi_digits_some by assumption. cbn [option_map]. f_equal. exact Ev. }
  assert (Hmod : ((n + p) mod 97 =? 1) = true) by (unfold p; rewrite Env; lia).
  assert (Li : len i <= 34).
  { rewrite Hi, len_list. rewrite len_list in Lb. cbn [List.length]. lia. }
  rewrite Hi. destruct (slice_parts c1 c2 a b u) as [S1 [S2 S3]]. split; [|split].
  - unfold valid. destruct (Z.ltb_spec 34 (len (c1 :: c2 :: a :: b :: u))); [rewrite Hi in Li; lia|].
    unfold country_code, bban_of, proof_number. rewrite S1, S2, S3. cbn [obind]. rewrite UU, UC.
    rewrite transform_app, <- app_assoc in Hck. rewrite Hck, Hmod. reflexivity.
  - unfold from. rewrite S1, S2, S3. cbn [obind].
    assert (Hnew' : new_iban [c1; c2] u = Ok (c1 :: c2 :: a :: b :: u)).
    { apply new_iff. split; [reflexivity|]. split; [exact Nu|]. rewrite UC, UU. split; [rewrite len_list in *; lia|].
      exists n. fold p. rewrite Epp. split; [exact Hn|reflexivity]. }
    rewrite Hnew'. cbn [obind]. unfold proof_number. rewrite S2. cbn [obind]. rewrite bytes_eqb_refl. reflexivity.
  - rewrite <- Hi. exact Li.
Qed.

(** For letters and digits: the number behind New and Valid. *)
Lemma set_string_number l : l <> [] -> forallb alnum l = true -> set_string (transform (map up l)) = Some (number l).
Proof.
  intros N H. pose proof (plain_up l H) as P. rewrite set_string_digits.
  - rewrite <- number_dec by exact P. rewrite number_up0 by exact H. reflexivity.
  - intros K. apply (proj1 (transform_nil_iff _)) in K. apply map_eq_nil in K. exact (N K).
  - rewrite transform_forallb. exact P.
Qed.
Lemma new_alnum cc bban i : forallb alnum cc = true -> forallb alnum bban = true ->
  (new_iban cc bban = Ok i <->
   List.length cc = 2%nat /\ 1 <= len bban <= max_length (map up cc) - 4 /\
   i = map up cc ++ itoa_pad 2 (check_number cc bban) ++ map up bban).
Proof.
  intros Hc Hb. rewrite new_iff, !upper_alnum by assumption.
  assert (E : set_string (transform (map up bban ++ map up cc) ++ B "00") = Some (number (bban ++ cc ++ B "00"))).
  { change (B "00") with (transform (map up (B "00"))). rewrite <- transform_app, <- !map_app, <- app_assoc. apply set_string_number.
    - intros K. apply app_eq_nil in K. destruct K as [_ K]. apply app_eq_nil in K. destruct K; discriminate.
    - rewrite !forallb_app, Hc, Hb. reflexivity. }
  assert (Nb : bban <> [] <-> 1 <= len bban) by (rewrite len_list; destruct bban; cbn [List.length]; [split; [congruence|lia]|split; [lia|discriminate]]).
  rewrite Nb, E. unfold check_number. split.
  - intros [H1 [H2 [H3 [n [H4 H5]]]]]. injection H4 as <-. auto.
  - intros [H1 [[H2 H3] H4]]. repeat (split; [assumption|]). eexists. split; [reflexivity|exact H4].
Qed.
Lemma valid_alnum i : forallb alnum i = true -> 4 <= len i ->
  exists r, valid i = Ok r /\ (r = true <-> len i <= 34 /\ forallb is_digit (firstn 2 (skipn 2 i)) = true /\ check97 i).
Proof.
  intros H L. destruct i as [|a [|b [|c [|d r]]]]; try (rewrite len_list in L; cbn [List.length] in L; lia).
  destruct (slice_parts a b c d r) as [S1 [S2 S3]]. unfold valid, country_code, bban_of, proof_number. rewrite S1, S2, S3. cbn [obind].
  destruct (Z.ltb_spec 34 (len (a :: b :: c :: d :: r))); [exists false; split; [reflexivity|split; [discriminate|lia]]|].
  assert (Ha : forallb alnum [a; b] = true /\ forallb alnum [c; d] = true /\ forallb alnum r = true).
  { cbn [forallb] in H |- *. repeat (apply andb_prop in H; destruct H as [? H]). repeat (rewrite ?andb_true_r; apply andb_true_intro || split || assumption).
    all: auto. }
  destruct Ha as [Ha [Hcd Hr]]. rewrite !upper_alnum by assumption. rewrite app_assoc, <- transform_app, <- map_app.
  unfold check97. cbn [skipn firstn].
  destruct (forallb is_digit [c; d]) eqn:Ed.
  - assert (E : set_string (transform (map up (r ++ [a; b])) ++ [c; d]) = Some (number (r ++ [a; b; c; d]))).
    { assert (T : transform (map up [c; d]) = [c; d]).
      { cbn [forallb] in Ed. apply andb_prop in Ed. destruct Ed as [Ec Ed]. rewrite andb_true_r in Ed.
        rewrite (proj2 (plain_alnum [c; d] (digits_plain c d Ec Ed))). cbn [transform flat_map]. rewrite (transform_digit c Ec), (transform_digit d Ed). reflexivity. }
      set (M := number (r ++ [a; b; c; d])). rewrite <- T, <- transform_app, <- map_app, <- app_assoc. unfold M. apply set_string_number.
      - intros K. apply app_eq_nil in K. destruct K; discriminate.
      - change [a; b; c; d] with ([a; b] ++ [c; d]). rewrite !forallb_app, Hr, Ha, Hcd. reflexivity. }
    rewrite E. eexists. split; [reflexivity|]. rewrite Z.eqb_eq. tauto.
  - assert (E : set_string (transform (map up (r ++ [a; b])) ++ [c; d]) = None).
    { destruct (set_string _) as [n|] eqn:E; [|reflexivity]. exfalso. apply set_string_inv in E.
      destruct E as [[_ [E _]]|[x [ds [E [_ [E2 E3]]]]]].
      - rewrite forallb_app in E. apply andb_prop in E. destruct E as [_ E]. congruence.
      - assert (P : plain (map up (r ++ [a; b]))) by (apply plain_up; rewrite forallb_app, Hr, Ha; reflexivity).
        unfold plain in P. rewrite <- transform_forallb in P.
        destruct (transform (map up (r ++ [a; b]))) as [|y t] eqn:Et.
        + apply (proj1 (transform_nil_iff _)) in Et. rewrite map_app in Et. apply app_eq_nil in Et. destruct Et; discriminate.
        + cbn [app] in E. injection E as -> _. cbn [forallb] in P. apply andb_prop in P. destruct P as [P _].
          apply is_digit_not_sign in P. destruct P as [P1 P2]. destruct E3 as [[-> _]|[-> _]]; [rewrite beq_refl in P1|rewrite beq_refl in P2]; discriminate. }
    rewrite E. exists false. split; [reflexivity|]. split; [discriminate|]. intros [_ [K _]]. discriminate.
Qed.

(** ** Arithmetic modulo 97 *)
Lemma ten_cancel k x : 0 <= k -> (x * 10 ^ k) mod 97 = 0 -> x mod 97 = 0.
Proof.
  intros Hk. revert x. pattern k. apply natlike_ind; [|clear k Hk; intros k Hk IH x H|exact Hk].
  - intros x H. rewrite Z.mul_1_r in H. exact H.
  - rewrite Z.pow_succ_r in H by exact Hk. apply IH. replace (x * (10 * 10 ^ k)) with (10 * (x * 10 ^ k)) in H by ring.
    set (y := x * 10 ^ k) in *. lia.
Qed.
Lemma number_one x : number [x] = value x.
Proof. unfold number. cbn [fold_left]. destruct (is_digit x); lia. Qed.
Lemma number_diff u x y v : is_digit x = is_digit y ->
  number (u ++ x :: v) - number (u ++ y :: v) = (value x - value y) * 10 ^ width v.
Proof.
  intros H. change (x :: v) with ([x] ++ v). change (y :: v) with ([y] ++ v). rewrite !number_app, !number_one.
  assert (W : width ([x] ++ v) = width ([y] ++ v)) by (cbn [app width]; rewrite H; reflexivity). rewrite W. ring.
Qed.
Lemma number_swap u x y v :
  number (u ++ x :: y :: v) - number (u ++ y :: x :: v) =
  (value x * ((if is_digit y then 10 else 100) - 1) - value y * ((if is_digit x then 10 else 100) - 1)) * 10 ^ width v.
Proof.
  change (x :: y :: v) with ([x; y] ++ v). change (y :: x :: v) with ([y; x] ++ v). rewrite !(number_app u), !number_app.
  assert (W : width ([x; y] ++ v) = width ([y; x] ++ v)) by (cbn [app width]; lia). rewrite W.
  unfold number at 2 5. cbn [fold_left]. destruct (is_digit x), (is_digit y); ring.
Qed.
Lemma swap_arith x y : alnum x = true -> alnum y = true ->
  let d := value x * ((if is_digit y then 10 else 100) - 1) - value y * ((if is_digit x then 10 else 100) - 1) in
  d mod 97 = 0 <-> value x = value y \/ blind_pair x y \/ blind_pair y x.
Proof.
  intros Hx Hy. cbv zeta. destruct (value_range x Hx) as [X [X1 X2]]. destruct (value_range y Hy) as [Y [Y1 Y2]]. unfold blind_pair.
  set (f := fun v : Z => (if v <=? 9 then 10 else 100) - 1).
  set (blind := fun a b : Z => ((a =? 1) && (b =? 11)) || ((a =? 2) && (b =? 22)) || ((a =? 3) && (b =? 33))).
  assert (G : forallb (fun n => forallb (fun m => let a := Z.of_nat n in let b := Z.of_nat m in
     Bool.eqb ((a * f b - b * f a) mod 97 =? 0) ((a =? b) || blind a b || blind b a)) (seq 0 36)) (seq 0 36) = true) by (vm_compute; reflexivity).
  rewrite forallb_forall in G. specialize (G (Z.to_nat (value x))).
  assert (I : In (Z.to_nat (value x)) (seq 0 36)) by (apply in_seq; lia). apply G in I. clear G.
  rewrite forallb_forall in I. specialize (I (Z.to_nat (value y))).
  assert (K : In (Z.to_nat (value y)) (seq 0 36)) by (apply in_seq; lia). apply I in K. clear I. cbv zeta in K. rewrite !Z2Nat.id in K by lia.
  apply Bool.eqb_prop in K.
  assert (Fx : f (value x) = (if is_digit x then 10 else 100) - 1).
  { unfold f. destruct (is_digit x); destruct (Z.leb_spec (value x) 9); try reflexivity; [specialize (X1 eq_refl)|specialize (X2 eq_refl)]; lia. }
  assert (Fy : f (value y) = (if is_digit y then 10 else 100) - 1).
  { unfold f. destruct (is_digit y); destruct (Z.leb_spec (value y) 9); try reflexivity; [specialize (Y1 eq_refl)|specialize (Y2 eq_refl)]; lia. }
  rewrite <- Fx, <- Fy. rewrite <- Z.eqb_eq, K, !orb_true_iff. unfold blind. rewrite !orb_true_iff, !andb_true_iff, !Z.eqb_eq. tauto.
Qed.
