(** * C74: the middleware for other character sets *)
From Coq Require Import Lia.
From Verif Require Import Base BaseFacts Codec_Model Codec_Spec Codec_Proofs Transport_Model Utf8_Model Utf8_Spec Utf8_Facts.
Open Scope Z_scope.

Lemma answer_text (o : outcome body) : (do resp <- o; Ok (to_utf8 (fst resp), snd resp)) =
  match o with Ok (answer, failed) => Ok (string_of (map zb answer), failed) | Err => Err | Panic => Panic end.
Proof.
  destruct o as [[a f]| |]; cbn [obind fst snd]; try reflexivity. do 2 f_equal.
  rewrite string_of_latin1. { rewrite map_map. f_equal. symmetry. rewrite <- (map_id a) at 2. apply map_ext. intro. apply byte_of_Z_zb. }
  apply Forall_forall. intros z Hz. apply in_map_iff in Hz as (b&<-&_). unfold latin1_char. pose proof (zb_range b). lia.
Qed.

(** However the request comes in pieces: a text of characters up to U+00FF is sent with one
    byte for each, in one piece, and the answer comes back as the characters its bytes stand
    for.  What is said of a character without its end: it is not sent. *)
Theorem C74_sent (t : transport) url chunks cps tail :
  latin1_body (List.concat chunks) cps tail ->
  utf8_encoding t url chunks =
  match t url [map byte_of_Z cps] with
  | Ok (answer, failed) => Ok (string_of (map zb answer), failed)
  | Err => Err
  | Panic => Panic
  end.
Proof.
  intro H. unfold utf8_encoding.
  assert (I : latin1_body [] [] []) by (split; [constructor|]; split; [reflexivity|now left]).
  destruct (latin1_copy (mkLatin1 [] []) chunks) as [w|] eqn:E.
  - apply (copy_some chunks _ _ [] []) in E as (cps'&K&O); [|exact I|reflexivity]. rewrite O. cbn [app] in K.
    apply transform_body in H. apply transform_body in K. rewrite H in K. injection K as K _. rewrite <- K.
    apply answer_text.
  - exfalso. apply (copy_none chunks _ [] []) in E; [|exact I]. apply E. cbn [app]. eauto.
Qed.
(** Any other request is refused before the transport is asked. *)
Theorem C74_refused chunks :
  (~ exists cps tail, latin1_body (List.concat chunks) cps tail) <->
  (forall (t : transport) url, utf8_encoding t url chunks = Err).
Proof.
  assert (I : latin1_body [] [] []) by (split; [constructor|]; split; [reflexivity|now left]). split.
  - intros N t url. unfold utf8_encoding. destruct (latin1_copy (mkLatin1 [] []) chunks) as [w|] eqn:E; [|reflexivity].
    exfalso. apply N. apply (copy_some chunks _ _ [] []) in E as (cps&K&_); [|exact I|reflexivity]. cbn [app] in K. eauto.
  - intros H (cps&tail&K). specialize (H (fun _ _ => Ok ([], false)) []). rewrite (C74_sent _ _ _ _ _ K) in H. discriminate H.
Qed.
(** With a bank that sends back what it gets the whole text is read as it was written. *)
Theorem C74_round url chunks cps : Forall latin1_char cps -> List.concat chunks = string_of cps ->
  utf8_encoding (fun _ sent => Ok (List.concat sent, false)) url chunks = Ok (List.concat chunks, false).
Proof.
  intros L E. rewrite (C74_sent _ url chunks cps []).
  - cbn [List.concat]. rewrite app_nil_r, E. do 3 f_equal. clear E. induction L as [|c cs H _ IH]; [reflexivity|]. cbn [map]. unfold latin1_char in H.
    rewrite IH, zb_byte_of_Z by lia. reflexivity.
  - split; [exact L|]. split; [rewrite app_nil_r; exact E|now left].
Qed.
(** Refuted: the end of the text is not always sent.  Two requests of which one ends with
    the first byte of a character are sent alike. *)
Theorem C74_tail_refuted : exists a b, a <> b /\ forall t url, utf8_encoding t url [a] = utf8_encoding t url [b] /\ utf8_encoding t url [a] = match t url [B "a"] with Ok (x, f) => Ok (string_of (map zb x), f) | Err => Err | Panic => Panic end.
Proof.
  exists (B "a"), (B "a" ++ [byte_of_Z 195]). split; [intro H; apply (f_equal (@List.length _)) in H; vm_compute in H; discriminate H|].
  assert (Hb : latin1_body (List.concat [B "a" ++ [byte_of_Z 195]]) [97] [byte_of_Z 195]).
  { split; [repeat constructor; unfold latin1_char; lia|]. split; [reflexivity|]. right. split; [discriminate|].
    exists 252, [byte_of_Z 188]. split; [unfold unicode; lia|]. split; [discriminate|reflexivity]. }
  assert (Ha : latin1_body (List.concat [B "a"]) [97] []).
  { split; [repeat constructor; unfold latin1_char; lia|]. split; [reflexivity|now left]. }
  intros t url. rewrite (C74_sent _ _ _ _ _ Hb). rewrite (C74_sent _ _ _ _ _ Ha). split; reflexivity.
Qed.

(** A request with an umlaut in two pieces, cut inside the umlaut. *)
Example C74_demo : utf8_encoding (fun _ sent => Ok (B "<" ++ List.concat sent, true)) (B "https://bank") [B "M" ++ [byte_of_Z 195]; [byte_of_Z 188] ++ B "ller"]
  = Ok (B "<M" ++ [byte_of_Z 195; byte_of_Z 188] ++ B "ller", true).
Proof. vm_compute. reflexivity. Qed.
Example C74_demo_hyp : latin1_body (List.concat [B "M" ++ [byte_of_Z 195]; [byte_of_Z 188] ++ B "ller"]) [77; 252; 108; 108; 101; 114] [].
Proof. split; [repeat constructor; unfold latin1_char; lia|]. split; [vm_compute; reflexivity|now left]. Qed.
(** The euro sign is not among the characters. *)
Example C74_demo_refused : ~ exists cps tail, latin1_body (List.concat [utf8_enc 8364]) cps tail.
Proof. apply C74_refused. intros. vm_compute. reflexivity. Qed.

Print Assumptions C74_sent.
Print Assumptions C74_refused.
Print Assumptions C74_round.
Print Assumptions C74_tail_refuted.
