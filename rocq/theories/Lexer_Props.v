(** * Properties C01-C05: the HBCI lexer

    [read_all inp] is what a caller gets from
    [lx := token.NewLexer("", inp); for lx.HasNext() { ts = append(ts, lx.Next()) }]:
    the tokens and how the loop ended ([EndDone]: HasNext became false,
    [EndPanic]: Next panicked, [EndFuel]: did not end). *)
From Verif Require Import Base BaseFacts Lexer_Model Lexer_Spec Lexer_Proofs Lexer_Facts.
From Coq Require Import Lia ZifyBool ZifyNat ZifyN.
Open Scope Z_scope.

(** ** C01 *)
Theorem C01_lexing_ends_in_one_closing_token : forall inp, small_input inp ->
  match read_all inp with
  | (ts, EndDone) => exists body last, ts = body ++ [last] /\ closing last /\
                       Forall (fun t => ~ closing t) body
  | (ts, EndPanic) => Forall (fun t => ~ closing t) ts
  | (_, EndFuel) => False
  end.
Proof.
  intros inp H. pose proof (scans_shape _ _ _ _ (read_all_scans _ H)) as G.
  destruct (read_all inp) as [ts []]; exact G.
Qed.
Print Assumptions C01_lexing_ends_in_one_closing_token.

Example C01_witness_eof :
  map tok_type (fst (read_all (B "HNHBK:1:3+000000000123+220'"))) =
  [T_ALNUM; T_GDES; T_NUMERIC; T_GDES; T_NUMERIC; T_DES; T_DIGIT; T_DES; T_NUMERIC; T_SEGEND; T_EOF]
  /\ small_input (B "HNHBK:1:3+000000000123+220'").
Proof. split; vm_compute; reflexivity. Qed.
Example C01_witness_error :
  (map tok_type (fst (read_all (B "a+b?c'"))), snd (read_all (B "a+b?c'"))) =
  ([T_ALNUM; T_DES; T_ERROR], EndDone).
Proof. vm_compute. reflexivity. Qed.

(** Calling Next again after HasNext became false panics ("No items left"). *)
Theorem C01_next_after_end_panics : forall f inp start pos,
  lx_next (S f) inp (mkLexer [] true None start pos) = Some Panic.
Proof. reflexivity. Qed.
Print Assumptions C01_next_after_end_panics.

(** ** C02 *)
(** Lexing panics exactly if, after some complete tokens, the rest of the input
    is a single '@', or starts with a binary header whose length overflows. *)
Theorem C02_lexer_panics_iff : forall inp, small_input inp ->
  let (ts, e) := read_all inp in
  e = EndPanic <->
  Forall (fun t => ~ closing t) ts /\
  exists rest, inp = covered ts ++ rest /\ (rest = [b_at] \/ bad_length (len (covered ts)) rest).
Proof.
  intros inp H. pose proof (scans_panic _ _ _ _ (read_all_scans _ H)) as G.
  destruct (read_all inp) as [ts e]. exact G.
Qed.
Print Assumptions C02_lexer_panics_iff.

(** In particular well terminated input with sane binary lengths never panics. *)
Theorem C02_no_panic_on_terminated_input : forall inp, small_input inp ->
  (exists i d, inp = i ++ [d] /\ is_delimiter d = true) ->
  (forall a ds b, inp = a ++ b_at :: ds ++ b_at :: b -> forallb is_digit ds = true ->
     Z.of_N (dec_val ds) < 2 ^ 62) ->
  snd (read_all inp) <> EndPanic.
Proof.
  intros inp H [i [d [Hi Hd]]] Hl Hp.
  apply (scans_panic _ _ _ _ (read_all_scans _ H)) in Hp.
  destruct Hp as [_ [rest [Hr [->|(ds&r&->&_&Hds&_&Hov)]]]].
  - rewrite Hi in Hr. apply app_inj_tail in Hr. destruct Hr as [_ ->]. discriminate.
  - specialize (Hl _ _ _ Hr Hds). unfold small_input in H. rewrite Hr in H.
    autorewrite with len in H. pose proof (len_nonneg r). lia.
Qed.
Print Assumptions C02_no_panic_on_terminated_input.

Example C02_panic_trailing_at : read_all (B "a+@") =
  ([mkTok T_ALNUM (B "a") 0; mkTok T_DES (B "+") 1], EndPanic).
Proof. vm_compute. reflexivity. Qed.
Example C02_panic_overflow : snd (read_all (B "@9223372036854775807@x'")) = EndPanic.
Proof. vm_compute. reflexivity. Qed.
Example C02_witness_terminated :
  (map tok_type (fst (read_all (B "HNVSD:999:1+@4@a'@:'"))), snd (read_all (B "HNVSD:999:1+@4@a'@:'"))) =
  ([T_ALNUM; T_GDES; T_NUMERIC; T_GDES; T_NUMERIC; T_DES; T_BINARY; T_SEGEND; T_EOF], EndDone).
Proof. vm_compute. reflexivity. Qed.

(** ** C03 *)
Theorem C03_lexing_loses_no_bytes : forall inp, small_input inp ->
  let (ts, e) := read_all inp in
  contiguous 0 ts /\
  exists rest, inp = covered ts ++ rest /\
    (e = EndDone -> forall body last, ts = body ++ [last] -> tok_type last = T_EOF ->
       (tok_val last = [] /\ rest = []) \/ tok_val last = [b_nul]).
Proof.
  intros inp H. pose proof (scans_cover _ _ _ _ (read_all_scans _ H)) as G.
  destruct (read_all inp) as [ts e]. exact G.
Qed.
Print Assumptions C03_lexing_loses_no_bytes.

(** Without NUL bytes, EOF means that the whole input was delivered. *)
Theorem C03_eof_means_everything : forall inp body last, small_input inp -> ~ In b_nul inp ->
  read_all inp = (body ++ [last], EndDone) -> tok_type last = T_EOF ->
  covered (body ++ [last]) = inp.
Proof.
  intros inp body last H Hn Hr Hl.
  pose proof (scans_cover _ _ _ _ (read_all_scans _ H)) as G. rewrite Hr in G. simpl in G.
  destruct G as [_ [rest [Hi He]]].
  destruct (He eq_refl body last eq_refl Hl) as [[_ ->]|Hv].
  - now rewrite app_nil_r in Hi.
  - exfalso. apply Hn. rewrite Hi. apply in_or_app. left. unfold covered.
    rewrite map_app, concat_app. apply in_or_app. right. simpl. rewrite Hv. now left.
Qed.
Print Assumptions C03_eof_means_everything.

(** The exception is real: everything behind a NUL byte at the start of a token
    is dropped, and the caller sees a normal EOF. *)
Theorem C03_nul_drops_rest_refuted :
  exists inp body last, small_input inp /\ read_all inp = (body ++ [last], EndDone) /\
    tok_type last = T_EOF /\ covered (body ++ [last]) <> inp.
Proof.
  exists (B "a+" ++ b_nul :: B "b'"), [mkTok T_ALNUM (B "a") 0; mkTok T_DES (B "+") 1], (mkTok T_EOF [b_nul] 2).
  repeat split; try (vm_compute; reflexivity). vm_compute. discriminate.
Qed.
Print Assumptions C03_nul_drops_rest_refuted.

Example C03_witness : exists body last, read_all (B "a?'b:1'") = (body ++ [last], EndDone) /\
  tok_type last = T_EOF /\ ~ In b_nul (B "a?'b:1'") /\ List.length body = 4%nat.
Proof.
  exists (firstn 4 (fst (read_all (B "a?'b:1'")))), (mkTok T_EOF [] 7).
  repeat split; try (vm_compute; reflexivity). vm_compute. intuition discriminate.
Qed.

(** ** C04 *)
(** [pre] is any input that is lexed to its end; [ds] any decimal notation of
    the payload length.  The tokens before and after the binary token do not
    depend on the payload at all. *)
Theorem C04_binary_is_opaque : forall pre body ds n c post,
  read_all pre = (body ++ [mkTok T_EOF [] (len pre)], EndDone) ->
  ds <> [] -> forallb is_digit ds = true -> dec_val ds = N.of_nat n -> is_delimiter c = true ->
  len pre + 2 + len ds + Z.of_nat n + 1 + len post < 2 ^ 62 ->
  exists ty more e, delimiter_type ty = true /\
    forall payload, List.length payload = n ->
      read_all (pre ++ (b_at :: ds ++ b_at :: payload) ++ c :: post) =
      (body ++ mkTok T_BINARY (b_at :: ds ++ b_at :: payload) (len pre)
            :: mkTok ty [c] (len pre + 2 + len ds + Z.of_nat n) :: more, e).
Proof.
  intros pre body ds n c post Hpre Hne Hd Hn Hc Hlen.
  pose proof (len_nonneg pre). pose proof (len_nonneg ds). pose proof (len_nonneg post).
  assert (Hsp : small_input pre) by (unfold small_input; lia).
  pose proof (read_all_scans _ Hsp) as Gp. rewrite Hpre in Gp. simpl in Gp.
  set (q := len pre + 2 + len ds + Z.of_nat n) in *.
  destruct (starts_delim_tok q (c :: post)) as [ty [Ety Hty]]; [exact Hc|].
  pose proof (scan_all_scans (S (List.length post)) (q + 1) post ltac:(lia)) as Gm.
  exists ty, (fst (scan_all (S (List.length post)) (q + 1) post)),
    (snd (scan_all (S (List.length post)) (q + 1) post)).
  split; [assumption|]. intros payload Hpl.
  assert (Hlp : len payload = Z.of_nat n) by (unfold len; lia).
  rewrite read_all_scan by (unfold small_input; repeat (rewrite len_app || rewrite len_cons); lia).
  apply scans_scan. apply (scans_app 0 pre _ (len pre)); [assumption|].
  rewrite Z.add_0_l. apply scans_emit_app.
  - apply scan_tok_binary; try assumption; lia.
  - replace (len pre + len (b_at :: ds ++ b_at :: payload)) with q
      by (unfold q; autorewrite with len; lia).
    apply (scans_emit_app q [c] post ty); [exact Ety|]. exact Gm.
Qed.
Print Assumptions C04_binary_is_opaque.

(** A concrete case: pre = "HNVSD:999:1+", 8 payload bytes; two payloads full of
    syntax give the same structure. *)
Example C04_witness :
  (exists body, read_all (B "HNVSD:999:1+") = (body ++ [mkTok T_EOF [] 12], EndDone)) /\
  map tok_type (fst (read_all (B "HNVSD:999:1+@8@'+:?@99@''"))) =
  map tok_type (fst (read_all (B "HNVSD:999:1+@8@abcdefgh''"))).
Proof.
  split; [exists (firstn 6 (fst (read_all (B "HNVSD:999:1+")))); vm_compute; reflexivity|].
  vm_compute. reflexivity.
Qed.

(** ** C05 *)
Theorem C05_delimiters_in_tokens_are_escaped : forall inp, small_input inp ->
  Forall (fun t =>
    match tok_type t with
    | T_DES => tok_val t = [b_plus]
    | T_GDES => tok_val t = [b_colon]
    | T_SEGEND => tok_val t = [b_quote]
    | T_BINARY => exists ds data, tok_val t = b_at :: ds ++ b_at :: data /\ ds <> [] /\
                    forallb is_digit ds = true /\ Z.of_N (dec_val ds) = len data
    | T_ALNUM | T_TEXT | T_NUMERIC | T_DIGIT | T_FLOAT =>
        tok_val t <> [] /\ all_escaped (tok_val t) = true
    | T_EOF => tok_val t = [] \/ tok_val t = [b_nul]
    | T_ERROR => True
    | _ => False
    end) (fst (read_all inp)).
Proof. intros inp H. exact (scans_tokens _ _ _ _ (read_all_scans _ H)). Qed.
Print Assumptions C05_delimiters_in_tokens_are_escaped.

(** Data tokens never touch: each one is followed by a delimiter token. *)
Theorem C05_data_tokens_are_separated : forall inp, small_input inp -> separated (fst (read_all inp)).
Proof. intros inp H. exact (scans_separated _ _ _ _ (read_all_scans _ H)). Qed.
Print Assumptions C05_data_tokens_are_separated.

Example C05_witness :
  map tok_val (fst (read_all (B "a?+b??+@2@+:'0,5'"))) =
  [B "a?+b??"; B "+"; B "@2@+:"; B "'"; B "0,5"; B "'"; []].
Proof. vm_compute. reflexivity. Qed.
