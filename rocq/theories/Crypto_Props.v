(** * Properties of the RSA engine (C61) *)
From Coq Require Import Lia ZifyBool ZifyNat ZifyN Znumtheory Zpow_facts.
From Verif Require Import Base Crypto_Model Crypto_Spec Rsa_Facts Crypto_Facts Crypto_Facts2.
Open Scope Z_scope.
Ltac Zify.zify_post_hook ::= Z.div_mod_to_equations.

Lemma process_whole pr n e enc g L m : 0 < n -> byte_size n L ->
  engine_process (engine_init enc (Plain pr n e) g) m 0 (len m) =
    (if (len m <=? L) && (value m <? n)
     then convert_output (mkCore (Plain pr n e) enc) (value m ^ e mod n) else Panic).
Proof.
  intros N S. unfold engine_init. rewrite (engine_eq pr n e enc L) by assumption. rewrite part_all.
  replace ((0 <=? 0) && (0 <=? len m) && (0 + len m <=? len m)) with true by (unfold len; lia).
  now rewrite Bool.andb_true_r.
Qed.

(** Encrypting with any key of a modulus [n] that has [L] bytes: what comes out are [L] bytes
    with the value of the power; a message that does not fit, or whose power is 0, panics. *)
Theorem C61_encrypt : forall pr n e g L m, 0 < n -> byte_size n L ->
  let out := engine_process (engine_init true (Plain pr n e) g) m 0 (len m) in
  (len m <= L /\ value m < n /\ value m ^ e mod n <> 0 ->
     exists c, out = Ok c /\ len c = L /\ value c = value m ^ e mod n) /\
  (L < len m \/ n <= value m \/ value m ^ e mod n = 0 -> out = Panic).
Proof.
  intros pr n e g L m N S out. unfold out. rewrite (process_whole pr n e true g L m N S). split.
  - intros (A&B&C). replace ((len m <=? L) && (value m <? n)) with true by lia.
    apply convert_output_enc; [reflexivity|exact S|].
    cbn [c_key modulus_of]. pose proof (Z.mod_pos_bound (value m ^ e) n N). lia.
  - intros H. destruct ((len m <=? L) && (value m <? n)) eqn:E; [|reflexivity].
    assert (value m ^ e mod n = 0) as -> by lia. apply convert_output_zero.
Qed.
Print Assumptions C61_encrypt.

(** Decrypting gives the shortest bytes of the power. *)
Theorem C61_decrypt : forall pr n e g L m, 0 < n -> byte_size n L ->
  let out := engine_process (engine_init false (Plain pr n e) g) m 0 (len m) in
  (len m <= L /\ value m < n /\ value m ^ e mod n <> 0 ->
     exists c, out = Ok c /\ strip c = c /\ value c = value m ^ e mod n) /\
  (L < len m \/ n <= value m \/ value m ^ e mod n = 0 -> out = Panic).
Proof.
  intros pr n e g L m N S out. unfold out. rewrite (process_whole pr n e false g L m N S). split.
  - intros (A&B&C). replace ((len m <=? L) && (value m <? n)) with true by lia.
    pose proof (Z.mod_pos_bound (value m ^ e) n N).
    rewrite convert_output_dec by (auto; lia). eexists. split; [reflexivity|].
    destruct (big_bytes_spec (value m ^ e mod n)) as (V&T); [lia|]. split; [now apply strip_id|exact V].
  - intros H. destruct ((len m <=? L) && (value m <? n)) eqn:E; [|reflexivity].
    assert (value m ^ e mod n = 0) as -> by lia. apply convert_output_zero.
Qed.
Print Assumptions C61_decrypt.

(** What is encrypted with one exponent of a key pair comes back with the other one, without
    the zero bytes in front; a message of zero bytes only, or an empty one, panics. *)
Theorem C61_round_trip : forall pr pr' n e d g g' L m, rsa_pair n e d -> byte_size n L -> len m <= L -> value m < n ->
  (value m <> 0 -> exists c, engine_process (engine_init true (Plain pr n e) g) m 0 (len m) = Ok c /\ len c = L /\
     engine_process (engine_init false (Plain pr' n d) g') c 0 (len c) = Ok (strip m)) /\
  (value m = 0 -> engine_process (engine_init true (Plain pr n e) g) m 0 (len m) = Panic).
Proof.
  intros pr pr' n e d g g' L m (p&q&P&Q&Npq&->&He&Hd&Dp&Dq) S Hl Hv.
  assert (2 <= p) by (destruct P; lia). assert (2 <= q) by (destruct Q; lia).
  assert (N : 0 < p * q) by nia. pose proof (value_range m) as Rm.
  destruct (C61_encrypt pr (p * q) e g L m N S) as (Enc&Bad). split.
  - intros V0. assert (NZ : value m ^ e mod (p * q) <> 0).
    { intros Z0. apply (proj1 (rsa_zero p q e (value m) P Q Npq He)) in Z0. rewrite Z.mod_small in Z0; lia. }
    destruct (Enc (conj Hl (conj Hv NZ))) as (c&Ec&Lc&Vc). exists c. split; [exact Ec|]. split; [exact Lc|].
    pose proof (Z.mod_pos_bound (value m ^ e) (p * q) N).
    rewrite (process_whole pr' (p * q) d false g' L c N S). rewrite Vc.
    replace ((len c <=? L) && (value m ^ e mod (p * q) <? p * q)) with true by lia.
    rewrite (rsa_inverse p q e d) by assumption. rewrite Z.mod_small by lia.
    rewrite convert_output_dec by (auto; lia). now rewrite big_bytes_value.
  - intros V0. apply Bad. right. right. rewrite V0, Z.pow_0_l by lia. apply Z.mod_0_l. lia.
Qed.
Print Assumptions C61_round_trip.

(** So different messages of one length never have the same cipher text. *)
Theorem C61_injective : forall pr n e d g L m m' c, rsa_pair n e d -> byte_size n L ->
  engine_process (engine_init true (Plain pr n e) g) m 0 (len m) = Ok c ->
  engine_process (engine_init true (Plain pr n e) g) m' 0 (len m') = Ok c -> strip m = strip m'.
Proof.
  intros pr n e d g L m m' c R S E E'. assert (N : 0 < n).
  { destruct S as (L1&S1&_). pose proof (pow256 (L - 1)). lia. }
  assert (K : forall x, engine_process (engine_init true (Plain pr n e) g) x 0 (len x) = Ok c ->
            engine_process (engine_init false (Plain pr n d) g) c 0 (len c) = Ok (strip x)).
  { intros x Ex. pose proof Ex as Ex'. rewrite (process_whole pr n e true g L x N S) in Ex'.
    destruct ((len x <=? L) && (value x <? n)) eqn:C; [|discriminate].
    destruct (C61_round_trip pr pr n e d g g L x R S ltac:(lia) ltac:(lia)) as (A&B).
    destruct (Z.eq_dec (value x) 0) as [Z0|Z0]; [rewrite (B Z0) in Ex; discriminate|].
    destruct (A Z0) as (c'&Ec&_&D). rewrite Ex in Ec. injection Ec as <-. exact D. }
  apply K in E. apply K in E'. congruence.
Qed.
Print Assumptions C61_injective.

(** Working on a part of a slice is working on the bytes of that part; a part that is not
    inside of the slice panics. *)
Theorem C61_part : forall pr n e enc g L inp off k, 0 < n -> byte_size n L ->
  let h := engine_init enc (Plain pr n e) g in
  (forall a m b, inp = a ++ m ++ b -> off = len a -> k = len m ->
     engine_process h inp off k = engine_process h m 0 (len m)) /\
  (~ (0 <= off /\ 0 <= k /\ off + k <= len inp) -> engine_process h inp off k = Panic).
Proof.
  intros pr n e enc g L inp off k N S h. unfold h, engine_init. split.
  - intros a m b -> -> ->. rewrite !(engine_eq pr n e enc L) by assumption. rewrite part_all.
    assert (part (a ++ m ++ b) (len a) (len m) = m) as ->.
    { unfold part. rewrite !len_nat. rewrite skipn_app, skipn_all, Nat.sub_diag. cbn [app skipn].
      now rewrite firstn_app, firstn_all, Nat.sub_diag, app_nil_r. }
    replace ((0 <=? len a) && (0 <=? len m) && (len a + len m <=? len (a ++ m ++ b))) with true
      by (unfold len; rewrite !app_length; lia).
    replace ((0 <=? 0) && (0 <=? len m) && (0 + len m <=? len m)) with true by (unfold len; lia). reflexivity.
  - intros H. rewrite (engine_eq pr n e enc L) by assumption.
    replace ((0 <=? off) && (0 <=? k) && (off + k <=? len inp)) with false by lia.
    now rewrite Bool.andb_false_r.
Qed.
Print Assumptions C61_part.

(** With a private key that knows the factors nothing can be encrypted or decrypted, and
    nothing with an engine that has no key. *)
Theorem C61_crt : forall n e d p q dP dQ qInv enc g inp off k,
  engine_process (engine_init enc (Crt n e d p q dP dQ qInv) g) inp off k = Panic /\
  engine_process None inp off k = Panic.
Proof.
  intros. split; [|reflexivity]. unfold engine_init, engine_process.
  assert (C : forall c, convert_input c inp off k <> Err).
  { intros c. unfold convert_input, array_copy, slice. cbv zeta.
    repeat match goal with
           | |- context [if ?b then _ else _] => destruct b
           end; cbn [obind]; try discriminate;
    repeat match goal with
           | |- context [if ?b then _ else _] => destruct b
           end; discriminate. }
  destruct (convert_input _ _ _ _) eqn:E; cbn [obind]; [reflexivity| |reflexivity]. now apply C in E.
Qed.
Print Assumptions C61_crt.

(** ** Instances *)
Lemma prime_check p : 1 < p -> forallb (fun k => negb (p mod Z.of_nat k =? 0)) (seq 2 (Z.to_nat (p - 2))) = true -> prime p.
Proof.
  intros H F. apply prime_alt. split; [exact H|]. intros k K D.
  rewrite forallb_forall in F. specialize (F (Z.to_nat k)). rewrite Z2Nat.id in F by lia.
  assert (In (Z.to_nat k) (seq 2 (Z.to_nat (p - 2)))) as I by (apply in_seq; lia).
  apply F in I. apply Z.mod_divide in D; lia.
Qed.

(** The same with divisors up to the square root *)
Fixpoint no_divisor (fuel : nat) (p k : Z) : bool :=
  match fuel with
  | O => false
  | S f => if p <? k * k then true else negb (p mod k =? 0) && no_divisor f p (k + 1)
  end.
Lemma no_divisor_spec fuel : forall p k, 1 < k -> no_divisor fuel p k = true -> forall d, k <= d -> d * d <= p -> p mod d <> 0.
Proof.
  induction fuel as [|f IH]; intros p k K E d D Dp; [discriminate|]. cbn [no_divisor] in E.
  destruct (Z.ltb_spec p (k * k)); [nia|]. apply andb_prop in E as (E1&E2).
  destruct (Z.eq_dec d k) as [->|N]; [lia|]. apply (IH p (k + 1)); [lia|exact E2|lia|exact Dp].
Qed.
Lemma prime_check_sqrt fuel p : 1 < p -> no_divisor fuel p 2 = true -> prime p.
Proof.
  intros H E. apply prime_alt. split; [exact H|]. intros d D (c&C).
  pose proof (no_divisor_spec fuel p 2 ltac:(lia) E) as G.
  destruct (Z_le_gt_dec d c) as [L|L].
  - apply (G d); [lia|nia|]. apply Z.mod_divide; [lia|]. now exists c.
  - apply (G c); [nia|nia|]. apply Z.mod_divide; [nia|]. exists d. lia.
Qed.

(** The key pair 3233 = 61 * 53, with the exponents 17 and 2753 *)
Example C61_pair : rsa_pair 3233 17 2753.
Proof.
  exists 61, 53. split; [apply prime_check; [lia|reflexivity]|]. split; [apply prime_check; [lia|reflexivity]|].
  split; [lia|]. split; [reflexivity|]. split; [lia|]. split; [lia|]. split.
  - exists 780. reflexivity.
  - exists 900. reflexivity.
Qed.
Example C61_size : byte_size 3233 2.
Proof. split; [lia|]. change (256 ^ (2 - 1)) with 256. change (256 ^ 2) with 65536. lia. Qed.

Lemma witness_back m c : value m <> 0 -> len m <= 2 -> value m < 3233 ->
  engine_process (engine_init true (Plain false 3233 17) None) m 0 (len m) = Ok c ->
  engine_process (engine_init false (Plain true 3233 2753) None) c 0 (len c) = Ok (strip m).
Proof.
  intros V L N E.
  destruct (C61_round_trip false true 3233 17 2753 None None 2 m C61_pair C61_size L N) as (A&_).
  destruct (A V) as (c'&E'&_&D). rewrite E in E'. injection E' as <-. exact D.
Qed.

(** 1234 is encrypted as 2183, in two bytes, and comes back. *)
Example C61_witness :
  let pub := engine_init true (Plain false 3233 17) None in
  let priv := engine_init false (Plain true 3233 2753) None in
  engine_process pub ["004"; "210"]%byte 0 2 = Ok (["008"; "135"]%byte) /\
  engine_process priv ["008"; "135"]%byte 0 2 = Ok (["004"; "210"]%byte).
Proof.
  cbv zeta. assert (E : engine_process (engine_init true (Plain false 3233 17) None) ["004"; "210"]%byte 0 2 = Ok ["008"; "135"]%byte)
    by reflexivity.
  split; [exact E|]. exact (witness_back ["004"; "210"]%byte _ ltac:(discriminate) ltac:(discriminate) eq_refl E).
Qed.

(** A message does not always come back as it was: its zero bytes in front are lost. *)
Theorem C61_same_message_refuted : ~ (forall pr pr' n e d g g' m c, rsa_pair n e d ->
  engine_process (engine_init true (Plain pr n e) g) m 0 (len m) = Ok c ->
  engine_process (engine_init false (Plain pr' n d) g') c 0 (len c) = Ok m).
Proof.
  intros H. assert (E : engine_process (engine_init true (Plain false 3233 17) None) ["000"; "009"]%byte 0 2 = Ok ["007"; "180"]%byte)
    by reflexivity.
  pose proof (H false true 3233 17 2753 None None ["000"; "009"]%byte _ C61_pair E) as A.
  rewrite (witness_back ["000"; "009"]%byte _ ltac:(discriminate) ltac:(discriminate) eq_refl E) in A. discriminate.
Qed.
Print Assumptions C61_same_message_refuted.
