(** * The library's own generated readers (C75) *)
From Verif Require Import Base BaseFacts Lexer_Model Lexer_Spec Lexer_Proofs Lexer_Facts
  Codec_Model Codec_Spec Codec_Proofs Wire_Model Wire_Spec Wire_Proofs Wire_Facts Wire_Facts2 Wire_Facts3 Wire_Props
  Message_Model Message_Spec Message_Proofs Message_Facts Message_Facts2 Message_Facts3 Seg_Model Seg_Facts4 Gosrc_Model Gen_Model Gen_Spec Gen_Facts Gen_Facts2 Gen_Props Gen_Library.
From Coq Require Import Lia Permutation.
Open Scope Z_scope.

(** ** The index of segments *)

Definition versioned : Type := bytes * Z.
Definition same_segment (a b : versioned) : bool := bytes_eqb (fst a) (fst b) && (snd a =? snd b).
(** segment/segment_index.go:32-60 IsIndexed, addToIndex, mustAddToIndex; the functions that
    make new segments are left out *)
Definition is_indexed (s : versioned) (index : list versioned) : bool := existsb (same_segment s) index.
Definition must_add (index : list versioned) (s : versioned) : outcome (list versioned) :=
  if is_indexed s index then Panic else Ok (s :: index).
(** The init functions, one after the other *)
Fixpoint build_index (index todo : list versioned) : outcome (list versioned) :=
  match todo with
  | [] => Ok index
  | s :: r => do index' <- must_add index s; build_index index' r
  end.
(** segment/segment_index.go:64-68, with segment/business_transaction.go:66, and the
    generated init functions *)
Definition added : list versioned :=
  [(B "HIRMG", 2); (B "HIRMS", 2); (B "DIPINS", 1)] ++ map (fun s => (ls_id s, ls_version s)) library.

(** ** Facts *)
Lemma same_segment_true a b : same_segment a b = true <-> a = b.
Proof.
  destruct a as [i v], b as [j w]. unfold same_segment. cbn [fst snd]. rewrite andb_true_iff, Z.eqb_eq. split.
  - intros (H&->). apply bytes_eqb_true in H. now subst.
  - intros E. injection E as -> ->. split; [apply beq_same|reflexivity].
Qed.
Lemma is_indexed_true s index : is_indexed s index = true <-> In s index.
Proof.
  unfold is_indexed. rewrite existsb_exists. split.
  - intros (x&Hx&E). apply same_segment_true in E. now subst.
  - intro H. exists s. split; [exact H|]. now apply same_segment_true.
Qed.
Lemma build_ok todo : forall index, NoDup (todo ++ index) -> exists index', build_index index todo = Ok index' /\ Permutation index' (todo ++ index).
Proof.
  induction todo as [|s r IH]; intros index N; cbn [build_index app] in *.
  - exists index. split; [reflexivity|apply Permutation_refl].
  - inversion N as [|? ? Hs Hr]; subst. unfold must_add. destruct (is_indexed s index) eqn:E.
    + apply is_indexed_true in E. destruct Hs. apply in_or_app. now right.
    + cbn [obind]. destruct (IH (s :: index)) as (i'&Hi&P).
      { apply (Permutation_NoDup (l := s :: r ++ index)); [apply Permutation_middle|now constructor]. }
      exists i'. split; [exact Hi|]. eapply Permutation_trans; [exact P|]. apply Permutation_sym, Permutation_middle.
Qed.
Fixpoint nodupb {A} (eqb : A -> A -> bool) (l : list A) : bool :=
  match l with [] => true | a :: r => negb (existsb (eqb a) r) && nodupb eqb r end.
Lemma nodupb_ok {A} (eqb : A -> A -> bool) : (forall a, eqb a a = true) -> forall l, nodupb eqb l = true -> NoDup l.
Proof.
  intros R. induction l as [|a r IH]; cbn [nodupb]; intro H; [constructor|]. apply andb_true_iff in H as (H1&H2). constructor; [|auto].
  intro K. apply negb_true_iff in H1. assert (existsb (eqb a) r = true) by (apply existsb_exists; eauto). congruence.
Qed.
Lemma added_nodup : NoDup added.
Proof. apply (nodupb_ok same_segment); [intro a; now apply same_segment_true|]. vm_compute. reflexivity. Qed.

(** In whatever order the init functions of the package run: none of them panics, and
    afterwards the index has every segment. *)
Theorem C75_index : forall todo, Permutation todo added ->
  exists index, build_index [] todo = Ok index /\ (forall s, is_indexed s index = true <-> In s added).
Proof.
  intros todo P. destruct (build_ok todo []) as (i&Hi&Pi).
  - rewrite app_nil_r. apply (Permutation_NoDup (l := added)); [now apply Permutation_sym|exact added_nodup].
  - exists i. split; [exact Hi|]. intro s. rewrite is_indexed_true. rewrite app_nil_r in Pi. split; intro H.
    + apply (Permutation_in _ P). now apply (Permutation_in _ Pi).
    + apply (Permutation_in _ (Permutation_sym Pi)). now apply (Permutation_in _ (Permutation_sym P)).
Qed.
Print Assumptions C75_index.

(** The segments of the table, with the three written by hand, are exactly the ones the
    dialogs of this model can read. *)
Theorem C75_known : forall F (parse_float : bytes -> option F) neg id v,
  (id = B "HIRMG" /\ v = 2 \/ id = B "HIRMS" /\ v = 2 \/ others parse_float neg id v <> None) <-> In (id, v) added.
Proof.
  intros F pf neg id v. split.
  - intros [(->&->)|[(->&->)|H]]; [now left|right; now left|]. unfold others in H. cbv zeta in H.
    repeat match type of H with
    | (if bytes_eqb id ?n then _ else _) <> None => let E := fresh in destruct (bytes_eqb id n) eqn:E; [apply bytes_eqb_true in E; subst id|]
    | (if ?c then _ else _) <> None => let E := fresh "V" in destruct c eqn:E; [|now destruct H]
    end; try (now destruct H); clear H;
    repeat match goal with
    | V : _ || _ = true |- _ => apply orb_true_iff in V as [V|V]
    | V : (_ =? _) = true |- _ => apply Z.eqb_eq in V; subst v
    | V : _ && _ = true |- _ => apply andb_true_iff in V as (?&?)
    end; try (apply is_indexed_true; vm_compute; reflexivity).
    all: repeat match goal with V : (_ <=? _) = true |- _ => apply Z.leb_le in V end.
    + assert (E : v = 2 \/ v = 3 \/ v = 4) by lia. destruct E as [->|[->| ->]]; apply is_indexed_true; vm_compute; reflexivity.
    + assert (E : v = 4 \/ v = 5 \/ v = 6 \/ v = 7) by lia. destruct E as [->|[->|[->| ->]]]; apply is_indexed_true; vm_compute; reflexivity.
    + assert (E : v = 5 \/ v = 6 \/ v = 7 \/ v = 8) by lia. destruct E as [->|[->|[->| ->]]]; apply is_indexed_true; vm_compute; reflexivity.
    + assert (E : v = 5 \/ v = 6 \/ v = 7) by lia. destruct E as [->|[->| ->]]; apply is_indexed_true; vm_compute; reflexivity.
  - intro H. assert (K : forallb (fun s => bytes_eqb (fst s) (B "HIRMG") && (snd s =? 2) || bytes_eqb (fst s) (B "HIRMS") && (snd s =? 2) ||
                             match others pf neg (fst s) (snd s) with Some _ => true | None => false end) added = true) by (vm_compute; reflexivity).
    rewrite forallb_forall in K. specialize (K _ H). cbn [fst snd] in K. apply orb_true_iff in K as [K|K]; [apply orb_true_iff in K as [K|K]; apply andb_true_iff in K as (K1&K2); apply bytes_eqb_true in K1; apply Z.eqb_eq in K2; tauto|].
    right. right. intro N. rewrite N in K. discriminate K.
Qed.
Print Assumptions C75_known.

(** ** The readers of all segments *)

(** What the generator should find for a segment: all listed elements, in order, each with
    the type of its field, no field twice. *)
Definition reads_all (s : library_segment) (fs : list gfield) : Prop :=
  map gf_name fs = map fst (ls_elements s) /\
  (forall f, In f fs -> In (mkSField [gf_name f] (GPointer (gf_type f))) (ls_fields s)) /\
  NoDup (map gf_name fs).
Definition has_field (fields : list gsfield) (f : gfield) : bool :=
  existsb (fun x => match sf_names x, sf_type x with [n], GPointer t => bytes_eqb n (gf_name f) && bytes_eqb t (gf_type f) | _, _ => false end) fields.
Fixpoint names_eqb (a b : list bytes) : bool :=
  match a, b with
  | [], [] => true
  | x :: a, y :: b => bytes_eqb x y && names_eqb a b
  | _, _ => false
  end.
Lemma names_eqb_true a : forall b, names_eqb a b = true -> a = b.
Proof.
  induction a as [|x a IH]; intros [|y b] H; cbn [names_eqb] in H; try discriminate; [reflexivity|].
  apply andb_true_iff in H as (H1&H2). apply bytes_eqb_true in H1. subst. f_equal. auto.
Qed.
Definition check (s : library_segment) : bool :=
  match extract_fields (source_of s) (ls_name s) with
  | Ok fs => names_eqb (map gf_name fs) (map fst (ls_elements s)) && forallb (has_field (ls_fields s)) fs && nodupb bytes_eqb (map gf_name fs)
  | _ => false
  end.
Lemma check_ok s : check s = true -> exists fs, extract_fields (source_of s) (ls_name s) = Ok fs /\ reads_all s fs.
Proof.
  unfold check. destruct (extract_fields (source_of s) (ls_name s)) as [fs| |]; try discriminate. intro H. apply andb_true_iff in H as (H&H3). apply andb_true_iff in H as (H1&H2).
  exists fs. split; [reflexivity|]. split; [now apply names_eqb_true|]. split.
  - intros f Hf. rewrite forallb_forall in H2. specialize (H2 f Hf). apply existsb_exists in H2 as (x&Hx&E). destruct x as [ns t]. cbn [sf_names sf_type] in E.
    destruct ns as [|n [|? ?]]; try discriminate E. destruct t as [t|]; try discriminate E. apply andb_true_iff in E as (E1&E2). apply bytes_eqb_true in E1, E2. now subst.
  - now apply (nodupb_ok bytes_eqb beq_same).
Qed.
Theorem C75_library : forall s, In s library -> exists fs, extract_fields (source_of s) (ls_name s) = Ok fs /\ reads_all s fs.
Proof.
  intros s Hs. apply check_ok. revert s Hs. apply forallb_forall. vm_compute. reflexivity.
Qed.
Print Assumptions C75_library.

(** The only fields of any of these segments that are never read are four of HITAN. *)
Theorem C75_library_unread : forall s n t, In s library -> In (mkSField [n] (GPointer t)) (ls_fields s) ->
  In n (map fst (ls_elements s)) \/
  ls_id s = B "HITAN" /\ In n [B "Challenge"; B "ChallengeHHD_UC"; B "ChallengeExpiryDate"; B "TANMediumDescription"].
Proof.
  assert (K : forallb (fun s => forallb (fun f => match sf_names f with
              | [n] => existsb (bytes_eqb n) (map fst (ls_elements s)) || bytes_eqb (ls_id s) (B "HITAN") && existsb (bytes_eqb n) [B "Challenge"; B "ChallengeHHD_UC"; B "ChallengeExpiryDate"; B "TANMediumDescription"]
              | _ => true end) (ls_fields s)) library = true) by (vm_compute; reflexivity).
  intros s n t Hs Hf. rewrite forallb_forall in K. specialize (K s Hs). rewrite forallb_forall in K. specialize (K _ Hf). cbn [sf_names] in K.
  apply orb_true_iff in K as [K|K].
  - left. apply existsb_exists in K as (m&Hm&E). apply bytes_eqb_true in E. now subst.
  - right. apply andb_true_iff in K as (K1&K2). apply bytes_eqb_true in K1. split; [exact K1|]. apply existsb_exists in K2 as (m&Hm&E). apply bytes_eqb_true in E. now subst.
Qed.
Print Assumptions C75_library_unread.

(** What is written by any of these segments, with any of its elements left out, is read by
    the reader generated for it into the same fields. *)
Theorem C75_library_round : forall s, In s library -> forall package code interface, exists o,
  segment_object package (source_of s) code (mkGSeg (ls_name s) interface (ls_version s)) = Ok o /\
  forall V (decode : bytes -> bytes -> outcome V) pos ref (src : bytes -> option delem) w,
  let written := mkSeg (ls_id s) pos (ls_version s) ref (map (fun e => src (fst e)) (ls_elements s)) in
  safe_seg written -> marshal_seg written = Ok w -> len w < 2 ^ 61 ->
  in_int64 pos = true -> match ref with Some r => in_int64 r = true | None => True end ->
  (forall n t b, In n (map fst (ls_elements s)) -> In (mkSField [n] (GPointer t)) (ls_fields s) -> marshal_opt (src n) = Ok b -> b <> [] -> exists v, decode t b = Ok v) ->
  exists st, run_reader decode o w nothing = Ok (inl st) /\
    forall n, In n (map fst (ls_elements s)) -> exists t b, In (mkSField [n] (GPointer t)) (ls_fields s) /\ marshal_opt (src n) = Ok b /\
      st n = match b, decode t b with [], _ => None | _, Ok v => Some (t, Some v) | _, _ => None end.
Proof.
  intros s Hs package code interface. destruct (C75_library s Hs) as (fs&E&R1&R2&R3).
  exists (mkObject code package (ls_name s) (name_var (ls_name s)) interface (ls_version s) fs). split.
  { unfold segment_object. cbn [gs_name gs_interface gs_version]. rewrite E. reflexivity. }
  intros V decode pos ref src w written Hsafe Hw Hl Hp Hr D.
  assert (HV : forallb alnum (ls_id s) = true /\ in_int64 (ls_version s) = true).
  { assert (K : forallb (fun s => forallb alnum (ls_id s) && in_int64 (ls_version s)) library = true) by (vm_compute; reflexivity).
    rewrite forallb_forall in K. specialize (K s Hs). now apply andb_true_iff in K. }
  destruct HV as (Hid&Hver).
  assert (EM : map (fun e => src (fst e)) (ls_elements s) = map (fun f => src (gf_name f)) fs).
  { rewrite <- (map_map fst src), <- R1, map_map. reflexivity. }
  subst written. rewrite EM in Hsafe, Hw.
  destruct (C75_round decode (mkObject code package (ls_name s) (name_var (ls_name s)) interface (ls_version s) fs) (ls_id s) pos (ls_version s) ref src w Hsafe Hw Hl Hid Hp Hver Hr R3) as (st&Rn&A).
  { cbn [go_fields]. intros f b Hf. apply D; [rewrite <- R1; now apply in_map|now apply R2]. }
  exists st. split; [exact Rn|]. intros n Hn. rewrite <- R1 in Hn. apply in_map_iff in Hn as (f&<-&Hf). cbn [go_fields] in A. destruct (A f Hf) as (b&Hb&Hst).
  exists (gf_type f), b. split; [now apply R2|]. split; [exact Hb|exact Hst].
Qed.
Print Assumptions C75_library_round.

Example C75_library_demo : List.length library = 37%nat /\ In lib_CommonBankParameterV3 library /\
  (exists o, segment_object (B "segment") (source_of lib_CommonUserParameterDataV4) (B "x") (mkGSeg (B "CommonUserParameterDataV4") (B "Segment") 4) = Ok o /\
     map gf_name (go_fields o) = [B "UserID"; B "UPDVersion"; B "UPDUsage"; B "UserName"; B "CommonExtensions"]).
Proof. split; [reflexivity|]. split; [vm_compute; tauto|]. eexists. split; vm_compute; reflexivity. Qed.
