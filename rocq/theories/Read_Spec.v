(** * How a bank takes a request apart

    A reader of the syntax of HBCI messages, written without the library's lexer and
    extractors: one pass over the bytes, then cutting at the separators. *)
From Verif Require Import Base Lexer_Spec Codec_Model Codec_Spec Wire_Spec Dialog_Model Client_Model Time_Model Seg_Model Seg_Spec
  Request_Model Request_Spec.
Open Scope Z_scope.

(** ** The syntax *)
(** A character, a block of binary data, or one of the separators ' + : *)
Inductive token := Char (c : byte) | Block (data : bytes) | Separator (c : byte).
(** Where the reader is: between tokens, behind a release character, within the length of a
    block, within a block with this many bytes (at least one) to come. *)
Inductive place := Between | Released | Length (n : N) | Inside (to_come : N) (before : bytes).
Fixpoint scan (p : place) (w : bytes) : option (list token) :=
  match w with
  | [] => match p with Between => Some [] | _ => None end
  | c :: r =>
      match p with
      | Between =>
          if beq c "?" then scan Released r
          else if beq c "@" then scan (Length 0) r
          else option_map (cons (if mem_byte c (B "'+:") then Separator c else Char c)) (scan Between r)
      | Released => option_map (cons (Char c)) (scan Between r)
      | Length n =>
          if is_digit c then scan (Length (10 * n + digit_val c)) r
          else if beq c "@" then
            (if (n =? 0)%N then option_map (cons (Block [])) (scan Between r) else scan (Inside n []) r)
          else None
      | Inside n before =>
          if (n =? 1)%N then option_map (cons (Block (before ++ [c]))) (scan Between r)
          else scan (Inside (n - 1) (before ++ [c])) r
      end
  end.
(** Cutting at a separator. *)
Fixpoint cut (c : byte) (ts : list token) : list (list token) :=
  match ts with
  | [] => [[]]
  | Separator d :: r =>
      if beq c d then [] :: cut c r
      else match cut c r with s :: ss => (Separator d :: s) :: ss | [] => [] end
  | t :: r => match cut c r with s :: ss => (t :: s) :: ss | [] => [] end
  end.
(** A message: segments, each ended by an apostrophe, of data elements of values. *)
Definition bank_reads (w : bytes) : option (list (list (list (list token)))) :=
  option_map (fun ts => map (fun s => map (cut ":"%byte) (cut "+"%byte s)) (removelast (cut "'"%byte ts))) (scan Between w).
(** Value [k] of data element [j] of segment [i]; what is absent is empty. *)
Definition value_at (m : list (list (list (list token)))) (i j k : nat) : list token := nth k (nth j (nth i m []) []) [].

(** ** What it is to find *)
Definition chars (l : bytes) : list token := map Char l.
Definition item_value (i : item) : list token :=
  match i with TText l => chars l | TBinary d => [Block d] | _ => chars (item_wire i) end.
(** The data elements of a segment; the first one is its header: ID, position, version. *)
Definition elements_of (n : Z) (p : part) : list (list item) :=
  [TText (pt_id p); TNumber n; TNumber (pt_version p)] :: pt_fields p.
Definition given_value (l : list (Z * part)) (i j k : nat) : list token :=
  match nth_error l i with
  | Some (n, p) => match nth_error (nth j (elements_of n p) []) k with Some x => item_value x | None => [] end
  | None => []
  end.
Definition finds (w : bytes) (l : list (Z * part)) : Prop :=
  exists m, bank_reads w = Some m /\ List.length m = List.length l /\ forall i j k, value_at m i j k = given_value l i j k.
(** The segments numbered from [n] on. *)
Fixpoint counted (n : Z) (l : list part) : list (Z * part) :=
  match l with [] => [] | p :: r => (n, p) :: counted (n + 1) r end.
Definition message_header (x : who) (dialog : bytes) (number size : Z) : part :=
  mkPart (B "HNHBK") 3 [[TDigits 12 size]; [TNumber (wh_version x)]; [TText dialog]; [TNumber number]].
Definition message_end (number : Z) : part := mkPart (B "HNHBS") 1 [[TNumber number]].

(** ** When two requests say the same *)
Definition same_who (x y : who) : Prop :=
  wh_version x = wh_version y /\ wh_country x = wh_country y /\ wh_bank x = wh_bank y /\ wh_user x = wh_user y.
(** An absent bank and the empty one with country 0 are the same on the wire. *)
Definition bank_of (a : international) : Z * bytes := match in_bank a with Some b => b | None => (0, []) end.
Definition same_account (a b : international) : Prop :=
  in_iban a = in_iban b /\ in_bic a = in_bic b /\ in_account a = in_account b /\ in_sub a = in_sub b /\ bank_of a = bank_of b.
Definition same_wish (today today' : date) (w w' : wish) : Prop :=
  match w, w' with
  | WBalances v a all, WBalances v' a' all' => v = v' /\ a = a' /\ all = all'
  | WSepaBalances v a all, WSepaBalances v' a' all' => v = v' /\ same_account a a' /\ all = all'
  | WTransactions v a from to all, WTransactions v' a' from' to' all' =>
      v = v' /\ a = a' /\ from_or today from = from_or today' from' /\ to_or today to = to_or today' to' /\ all = all'
  | WSepaTransactions v a from to all, WSepaTransactions v' a' from' to' all' =>
      v = v' /\ same_account a a' /\ from_or today from = from_or today' from' /\ to_or today to = to_or today' to' /\ all = all'
  | WInformation v a all, WInformation v' a' all' => v = v' /\ a = a' /\ all = all'
  | WStatus v from to n, WStatus v' from' to' n' => v = v' /\ from = from' /\ to = to' /\ n = n'
  | _, _ => False
  end.
Definition same_ask (today today' : date) (a a' : ask) : Prop :=
  match a, a' with
  | QSync client, QSync client' => client = client'
  | QInit client system bpd upd, QInit client' system' bpd' upd' =>
      client = client' /\ system = system' /\ bpd = bpd' /\ upd = upd'
  | QJob w mark, QJob w' mark' => same_wish today today' w w' /\ mark = mark'
  | QEnd, QEnd => True
  | _, _ => False
  end.
(** The numbers are values of Go's int. *)
Definition wish_ints (w : wish) : list Z :=
  match w with
  | WBalances v a _ | WTransactions v a _ _ _ | WInformation v a _ => [v; na_country a]
  | WSepaBalances v a _ | WSepaTransactions v a _ _ _ => [v; fst (bank_of a)]
  | WStatus v _ _ n => [v; n]
  end.
Definition ask_ints (a : ask) : list Z :=
  match a with QInit _ _ bpd upd => [bpd; upd] | QJob w _ => wish_ints w | _ => [] end.
Definition int_values (x : who) (number : Z) (a : ask) : Prop :=
  Forall (fun z => in_int64 z = true) ([wh_version x; wh_country x; number] ++ ask_ints a).
