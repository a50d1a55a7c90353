(** * Lemmas about keys and PKCS #1 *)
From Coq Require Import Lia ZifyBool ZifyNat ZifyN Znumtheory Zpow_facts.
From Verif Require Import Base Lexer_Model Codec_Model Codec_Spec Wire_Model Wire_Spec Message_Model Seg_Model Seg_Spec
  Request_Model Request_Spec Crypto_Model Crypto_Spec Crypto_Facts Crypto_Facts2 Rsa_Facts Key_Model Key_Spec.
Open Scope Z_scope.
Ltac Zify.zify_post_hook ::= Z.div_mod_to_equations.

(** ** Numbers in a fixed number of bytes *)
Lemma trimmed_short l k : trimmed l -> 0 <= k -> value l < 256 ^ k -> len l <= k.
Proof.
  intros T K V. destruct l as [|b l]; [unfold len; cbn; lia|]. destruct (trimmed_size b l T) as (L&_).
  unfold len. cbn [List.length]. destruct (Z_le_gt_dec (Z.of_nat (S (List.length l))) k) as [H|H]; [lia|].
  assert (256 ^ k <= 256 ^ Z.of_nat (List.length l)) by (apply Z.pow_le_mono_r; lia). lia.
Qed.
Lemma fill_bytes_spec n x : 0 <= n -> 0 <= x < 256 ^ n -> size (fill_bytes n x) = n /\ value (fill_bytes n x) = x.
Proof.
  intros N X. destruct (big_bytes_spec x ltac:(lia)) as (V&T).
  pose proof (trimmed_short (big_bytes x) n T N ltac:(lia)) as L. unfold fill_bytes. cbn zeta. split.
  - unfold size, len in *. rewrite app_length, repeat_length. lia.
  - now rewrite value_zeros.
Qed.

Lemma type_1_size k m : size m + 3 <= k -> size (type_1 k m) = k.
Proof. intros H. unfold type_1, size in *. rewrite !app_length, repeat_length. cbn [List.length]. lia. Qed.
Lemma type_2_size k ps m : size ps + size m + 3 = k -> size (type_2 ps m) = k.
Proof. intros H. unfold type_2, size in *. rewrite !app_length. cbn [List.length]. lia. Qed.

(** A block that starts with a zero byte is less than the modulus. *)
Lemma zero_first k n b : byte_size n k -> size (x00 :: b) = k -> 0 <= value (x00 :: b) < n.
Proof.
  intros (K&N&_) S. cbn [value]. change (zb x00) with 0. pose proof (value_range b). unfold size in S. cbn [List.length] in S.
  replace (Z.of_nat (List.length b)) with (k - 1) in * by lia. lia.
Qed.
Lemma type_1_first k m : exists b, type_1 k m = x00 :: b.
Proof. unfold type_1. eexists. cbn [app]. reflexivity. Qed.
Lemma type_2_first ps m : exists b, type_2 ps m = x00 :: b.
Proof. unfold type_2. eexists. cbn [app]. reflexivity. Qed.

Lemma repeat_app_inj {A} (x y : A) i : x <> y -> forall j a b, repeat x i ++ y :: a = repeat x j ++ y :: b -> i = j /\ a = b.
Proof.
  intros N. induction i as [|i IH]; intros [|j] a b E; cbn [repeat app] in E.
  - injection E as <-. auto.
  - injection E as E _. now destruct N.
  - injection E as E _. now destruct N.
  - injection E as E. apply IH in E as (<-&<-). auto.
Qed.
Lemma type_1_inj k m m' : type_1 k m = type_1 k m' -> m = m'.
Proof.
  unfold type_1. cbn [app]. intros E. injection E as E. now apply repeat_app_inj in E.
Qed.
Lemma padding_inj a : ~ In x00 a -> forall b c d, ~ In x00 b -> a ++ x00 :: c = b ++ x00 :: d -> a = b /\ c = d.
Proof.
  induction a as [|x a IH]; intros Na [|y b] c d Nb E; cbn [app] in E.
  - injection E as <-. auto.
  - injection E as <- _. destruct Nb. now left.
  - injection E as -> _. destruct Na. now left.
  - injection E as <- E. apply IH in E as (<-&<-); [auto| |]; intros I; [apply Na|apply Nb]; now right.
Qed.
Lemma type_2_inj ps ps' m m' : ~ In x00 ps -> ~ In x00 ps' -> type_2 ps m = type_2 ps' m' -> ps = ps' /\ m = m'.
Proof. intros N N' E. unfold type_2 in E. cbn [app] in E. injection E as E. now apply padding_inj. Qed.

Lemma value_type_1 k m : size m + 3 <= k ->
  set_bytes ([b_nul; bz 1] ++ repeat (bz 255) (Z.to_nat (k - len m - 3)) ++ [b_nul] ++ m) = value (type_1 k m).
Proof.
  intros H. rewrite set_bytes_value. unfold type_1.
  replace (Z.to_nat (k - len m - 3)) with (Z.to_nat (k - 3 - size m)) by (unfold len, size; lia). reflexivity.
Qed.

Lemma sizes_agree n k : byte_size n k -> size_of n = k.
Proof. apply block_bytes. Qed.

(** ** Signing *)
Lemma pkcs1_sign_ok p k m : private_pair p k -> size m + 11 <= k ->
  exists s, pkcs1_sign p m = Ok s /\ accepts (pr_modulus p) (pr_public p) k m s.
Proof.
  intros (R&B) H. destruct R as (a&b&P&Q&N&En&He&Hd&Dp&Dq).
  pose proof (type_1_size k m ltac:(unfold size in *; lia)) as S1. destruct (type_1_first k m) as (t&Et).
  assert (V : 0 <= value (type_1 k m) < pr_modulus p) by (rewrite Et; apply (zero_first k); [exact B|now rewrite <- Et]).
  assert (N0 : 0 < pr_modulus p) by lia.
  unfold pkcs1_sign. rewrite (sizes_agree _ _ B). cbn zeta. rewrite value_type_1 by lia.
  replace (k <? len m + 11) with false by (unfold len, size in *; lia).
  replace (pr_modulus p <? value (type_1 k m)) with false by lia.
  remember (value (type_1 k m)) as em eqn:Em in *.
  assert (I : (em ^ pr_private p mod pr_modulus p) ^ pr_public p mod pr_modulus p = em).
  { rewrite En. rewrite (rsa_inverse a b (pr_private p) (pr_public p)); try assumption.
    - rewrite Z.mod_small; [reflexivity|]. rewrite <- En. exact V.
    - rewrite Z.mul_comm. exact Dp.
    - rewrite Z.mul_comm. exact Dq. }
  rewrite I, Z.eqb_refl. eexists. split; [reflexivity|].
  destruct B as (K&B1&B2). pose proof (Z.mod_pos_bound (em ^ pr_private p) (pr_modulus p) N0) as M.
  destruct (fill_bytes_spec k (em ^ pr_private p mod pr_modulus p) ltac:(lia) ltac:(lia)) as (F1&F2).
  unfold accepts. rewrite F1, F2. split; [reflexivity|]. rewrite <- Em. exact I.
Qed.
Lemma pkcs1_sign_long p k m : private_pair p k -> k < size m + 11 -> pkcs1_sign p m = Err.
Proof.
  intros (_&B) H. unfold pkcs1_sign. rewrite (sizes_agree _ _ B). cbn zeta.
  now replace (k <? len m + 11) with true by (unfold len, size in *; lia).
Qed.
(** A signature is accepted for one message only. *)
Lemma accepts_unique n e k m m' s : size m + 3 <= k -> size m' + 3 <= k ->
  accepts n e k m s -> accepts n e k m' s -> m = m'.
Proof.
  intros H H' (_&E) (_&E'). apply (type_1_inj k). apply value_inj; [|congruence].
  pose proof (type_1_size k m H). pose proof (type_1_size k m' H'). unfold size in *. lia.
Qed.
(** One signature fits a message, if the exponents are a pair. *)
Lemma accepted_once n e d k m s s' : rsa_pair n e d -> byte_size n k -> value s < n -> value s' < n ->
  accepts n e k m s -> accepts n e k m s' -> s = s'.
Proof.
  intros (p&q&P&Q&N&->&He&Hd&Dp&Dq) B L L' (S&E) (S'&E'). apply value_inj; [unfold size in *; lia|].
  assert (K : forall x, value x < p * q -> (value x ^ e mod (p * q)) ^ d mod (p * q) = value x).
  { intros x X. rewrite (rsa_inverse p q e d) by assumption. apply Z.mod_small. pose proof (value_range x). lia. }
  rewrite <- (K s), <- (K s') by assumption. now rewrite E, E'.
Qed.

(** ** Encrypting *)
Definition exponent_fits (e : Z) : Prop := 2 <= e <= 2 ^ 31 - 1.
Lemma to_int64_small e : 0 <= e < 2 ^ 63 -> to_int64 e = e.
Proof.
  intros H. unfold to_int64. cbn zeta. rewrite Z.mod_small by lia. now replace (e <? 2 ^ 63) with true by lia.
Qed.
Lemma to_int64_fits e : 0 <= e -> (exponent_fits (to_int64 e) <-> exponent_fits (e mod 2 ^ 64)).
Proof.
  intros H. unfold to_int64, exponent_fits. cbn zeta. pose proof (Z.mod_pos_bound e (2 ^ 64) ltac:(lia)).
  destruct (Z.ltb_spec (e mod 2 ^ 64) (2 ^ 63)); lia.
Qed.
Lemma pkcs1_encrypt_ok random n e d k m ps : rsa_pair n e d -> byte_size n k -> exponent_fits e -> size m + 11 <= k ->
  random (Z.to_nat (k - size m - 3)) = Ok ps -> size ps = k - size m - 3 -> ~ In x00 ps ->
  exists c, pkcs1_encrypt random (n, e) m = Ok c /\ deciphers n d k c m.
Proof.
  intros R B E H Rd Sp Np. unfold pkcs1_encrypt. unfold exponent_fits in E.
  replace ((e <? 2) || (2 ^ 31 - 1 <? e)) with false by lia. cbn zeta. rewrite (sizes_agree _ _ B).
  replace (k - 11 <? len m) with false by (unfold len, size in *; lia).
  replace (k - len m - 3) with (k - size m - 3) by (unfold len, size; lia). rewrite Rd. cbn [obind].
  eexists. split; [reflexivity|]. rewrite set_bytes_value.
  change ([b_nul; bz 2] ++ ps ++ [b_nul] ++ m) with (type_2 ps m).
  pose proof (type_2_size k ps m ltac:(lia)) as S2. destruct (type_2_first ps m) as (t&Et).
  assert (V : 0 <= value (type_2 ps m) < n) by (rewrite Et; apply (zero_first k); [exact B|now rewrite <- Et]).
  pose proof B as (K&B1&B2). pose proof (Z.mod_pos_bound (value (type_2 ps m) ^ e) n ltac:(lia)) as M.
  destruct (fill_bytes_spec k (value (type_2 ps m) ^ e mod n) ltac:(lia) ltac:(lia)) as (F1&F2).
  split; [exact F1|]. exists ps, (type_2 ps m). split; [exact Np|]. split; [lia|]. split; [exact S2|].
  split; [reflexivity|]. rewrite F2. destruct R as (p&q&P&Q&N&->&He&Hd&Dp&Dq).
  rewrite (rsa_inverse p q e d) by assumption. now apply Z.mod_small.
Qed.
Lemma deciphers_unique n d k c m m' : deciphers n d k c m -> deciphers n d k c m' -> m = m'.
Proof.
  intros (_&ps&b&N&_&S&->&E) (_&ps'&b'&N'&_&S'&->&E').
  assert (type_2 ps m = type_2 ps' m') as T by (apply value_inj; [unfold size in *; lia|congruence]).
  now apply type_2_inj in T as (_&->).
Qed.

(** ** Key names *)
Lemma name_run_spec l : forall s, Forall named l -> exists s', name_run l s = Ok s' /\
  forall a, s' a = mkKN (kn_bank (s a)) (kn_user (s a)) (kn_type (s a))
                     (last_number a (kn_number (s a)) (rev l)) (last_version a (kn_version (s a)) (rev l)).
Proof.
  induction l as [|c l IH] using rev_ind; intros s F.
  - exists s. split; [reflexivity|]. intros a. cbn. now destruct (s a).
  - apply Forall_app in F as (F&Fc). apply Forall_inv in Fc. destruct (IH s F) as (s1&R&H).
    assert (A : forall x y t, name_run (x ++ y) t = obind (name_run x t) (name_run y)).
    { induction x as [|z x IHx]; intros y t; cbn [app name_run]; [reflexivity|].
      destruct (name_step z t) as [t'| |]; cbn [obind]; auto. }
    rewrite A, R. cbn [obind name_run]. rewrite rev_app_distr. cbn [rev app].
    destruct c as [k n|k v|b]; cbn [name_step named last_number last_version] in *.
    + unfold set_key_number, touches. destruct (name_pointer k) as [b|]; [|now destruct Fc]. cbn [obind].
      eexists. split; [reflexivity|]. intros a. unfold store. destruct (Nat.eqb_spec a b) as [->|]; [|apply H].
      rewrite H. reflexivity.
    + unfold set_key_version, touches. destruct (name_pointer k) as [b|]; [|now destruct Fc]. cbn [obind].
      eexists. split; [reflexivity|]. intros a. unfold store. destruct (Nat.eqb_spec a b) as [->|]; [|apply H].
      rewrite H. reflexivity.
    + cbn [obind]. eexists. split; [reflexivity|]. intros a. unfold store. destruct (Nat.eqb_spec a b) as [->|]; [|apply H].
      rewrite H. reflexivity.
Qed.
Lemma name_run_panics l : forall s, Exists (fun c => ~ named c) l -> name_run l s = Panic.
Proof.
  induction l as [|c l IH]; intros s E; [inversion E|]. cbn [name_run].
  destruct (name_step c s) as [s'| |] eqn:St; cbn [obind].
  - apply IH. inversion E as [? ? N|]; subst; [|assumption]. exfalso. apply N.
    destruct c as [k n|k v|b]; cbn [name_step named] in *; [| |exact I];
      unfold set_key_number, set_key_version in St; destruct (name_pointer k); congruence.
  - destruct c as [k n|k v|b]; cbn [name_step] in St; unfold set_key_number, set_key_version in St;
      try destruct (name_pointer k); discriminate.
  - reflexivity.
Qed.
