(** * A client and its bank

    What the caller asks of a client, and a bank that does its part: for statements
    about the whole library, from the caller's arguments to the bytes on the wire and
    from the bank's bytes to the caller's results.  Without the definitions of the
    request, message and dialog models. *)
From Verif Require Import Base Codec_Model Codec_Spec Wire_Spec Message_Model Message_Spec Dialog_Model Dialog_Spec
  Client_Model Client_Spec Time_Model Seg_Model Seg_Spec Request_Model Request_Spec Answer_Spec.
Open Scope Z_scope.

(** ** The caller *)
(** The calls, with texts as Latin-1 characters.  [pages] bounds the pages that are looked
    at, [tick] counts the readings of the clock before the call. *)
Inductive order :=
| OAccounts
| OBalances (a : national) (all : bool)
| OSepaBalances (pages : nat) (a : international) (all : bool) (mark : bytes)
| OTransactions (pages : nat) (a : national) (from to : option date) (all : bool) (mark : bytes) (tick : nat)
| OSepaTransactions (pages : nat) (a : international) (from to : option date) (all : bool) (mark : bytes) (tick : nat)
| OInformation (a : national) (all : bool)
| OStatus (from to : date) (max_entries : Z) (mark : bytes).
Definition order_call (o : order) : ccall args :=
  match o with
  | OAccounts => CAccounts
  | OBalances a all => CBalances (AAccount (national_value a) all)
  | OSepaBalances n a all mark => CSepaBalances n (ASepa (international_value a) all) (utf8 mark)
  | OTransactions n a from to all mark tick =>
      CTransactions n (ARange (national_value a) (mkTf (given from) (given to)) all) (utf8 mark) tick
  | OSepaTransactions n a from to all mark tick =>
      CSepaTransactions n (ASepaRange (international_value a) (mkTf (given from) (given to)) all) (utf8 mark) tick
  | OInformation a all => CInformation (AAccount (national_value a) all)
  | OStatus from to n mark => CStatus (AStatus from to n) (utf8 mark)
  end.
(** The request it leads to, in any version. *)
Definition order_wish (o : order) (v : Z) : option (wish * bytes) :=
  match o with
  | OAccounts => None
  | OBalances a all => Some (WBalances v a all, [])
  | OSepaBalances _ a all mark => Some (WSepaBalances v a all, mark)
  | OTransactions _ a from to all mark _ => Some (WTransactions v a from to all, mark)
  | OSepaTransactions _ a from to all mark _ => Some (WSepaTransactions v a from to all, mark)
  | OInformation a all => Some (WInformation v a all, [])
  | OStatus from to n mark => Some (WStatus v from to n, mark)
  end.
(** Texts that do not end in ':' or '+' (C56), dates of the calendar; an end of a timeframe is
    left out or is not the zero date. *)
Definition order_ok (o : order) : Prop :=
  match order_wish o 0 with
  | None => True
  | Some (w, mark) => wish_ok w /\ Forall clean_text (mark :: wish_texts w) /\ Forall real_date (wish_dates w)
  end.

(** The caller has a bank code and a PIN; none of the texts ends in ':' or '+'. *)
Definition person_ok (x : who) (pin : bytes) : Prop :=
  wh_bank x <> [] /\ pin <> [] /\ Forall clean_text (pin :: who_texts x).
(** The clock shows dates of the calendar. *)
Definition clock_ok (today : list (entry (Client_Model.job args)) -> date) (signed_at enveloped_at : list (entry (Client_Model.job args)) -> date * tod) : Prop :=
  forall h, real_date (today h) /\ 1 <= d_year (today h) /\ real_moment (signed_at h) /\ real_moment (enveloped_at h).

(** ** The bank *)
Definition notices (i : info) : list notice := match i with IMessage l | ISegment l => l | _ => [] end.
Definition letter_notices (l : letter) : list notice := flat_map (fun p => notices (pc_info p)) (lt_pieces l).
(** The TAN processes of the first segment about them. *)
Fixpoint functions_of (ps : list piece) : option (list bytes) :=
  match ps with
  | [] => None
  | p :: r => match pc_info p with ITans _ _ _ _ _ _ l => Some (map ti_function l) | _ => functions_of r end
  end.
Definition tells_system (l : letter) : Prop := exists p v s m g, In p (lt_pieces l) /\ pc_info p = ISync v s m g.
Definition tells_parameters (l : letter) : Prop := exists p v b, In p (lt_pieces l) /\ pc_info p = IBank v b.
(** IDs of the bank that come back in later messages. *)
Definition returned_texts (i : info) : list bytes :=
  match i with
  | ISync _ s _ _ => [s]
  | IUser _ u => [ui_user u]
  | IMessage l | ISegment l => flat_map (fun n => if (nt_code n =? 3920) || (nt_code n =? 3040) then nt_params n else []) l
  | _ => []
  end.
(** A message without an error code.  If it says which TAN processes the user may use
    (3920), one of them is among the processes it describes, if it describes any; a
    continuation (3040) has a mark; announcements have a subject and a body. *)
Definition friendly (l : letter) : Prop :=
  letter_ok l /\ Forall (fun n => nt_code n < 9000) (letter_notices l) /\
  Forall clean_text (lt_dialog l :: flat_map (fun p => returned_texts (pc_info p)) (lt_pieces l)) /\
  Forall (fun n => nt_code n = 3040 -> nt_params n <> []) (letter_notices l) /\
  Forall (fun p => match pc_info p with IKept (KNews subject body) => subject <> [] /\ body <> [] | _ => True end) (lt_pieces l) /\
  (forall fs, functions_of (lt_pieces l) = Some fs ->
     Forall (fun n => nt_code n = 3920 -> exists f, In f (nt_params n) /\ In f fs /\ forallb is_digit f = true) (letter_notices l)).

Section Bank.
  Variable letters : list (entry (Client_Model.job args)) -> letter.
  (** The bank always answers so, and synchronisations with a system ID and parameters. *)
  Definition helpful : Prop := forall h e,
    friendly (letters (h ++ [e])) /\
    (forall c, kind_of e = KSync c -> tells_system (letters (h ++ [e])) /\ tells_parameters (letters (h ++ [e]))).
  (** Whenever it sends parameters it offers [id] in one of the versions [vs]. *)
  Definition serves (id : bytes) (vs : list Z) : Prop := forall h e,
    tells_parameters (letters (h ++ [e])) -> exists v, In v vs /\ In (id, v) (letter_offers (letters (h ++ [e]))).
  (** Its answers to the jobs [t]. *)
  Definition answers_with (t : topic) (P : letter -> Prop) : Prop := forall h e j,
    kind_of e = KJob j -> jb_topic j = t -> P (letters (h ++ [e])).
End Bank.
(** It answers every message of a client. *)
Definition post (letters : list (entry (Client_Model.job args)) -> letter) (h : list (entry (Client_Model.job args))) : outcome bytes :=
  Ok (letter_wire (letters h)).
(** What the caller is to get from a message. *)
Definition letter_accounts {F} (l : letter) : list (Seg_Model.account_information F) :=
  flat_map (fun p => match pc_info p with
                     | IAccount v a => [account_value (if v <=? 5 then ad_jobs a else firstn 1 (ad_jobs a)) a]
                     | _ => [] end) (lt_pieces l).
(** The accounts in the answers to the synchronisations and initialisations among the
    messages [l], sent after [h]. *)
Fixpoint told_accounts {F} (letters : list (entry (Client_Model.job args)) -> letter) (h l : list (entry (Client_Model.job args)))
  : list (Seg_Model.account_information F) :=
  match l with
  | [] => []
  | e :: r => match kind_of e with
              | KSync _ | KInit _ _ _ _ => letter_accounts (letters (h ++ [e]))
              | _ => []
              end ++ told_accounts letters (h ++ [e]) r
  end.
Definition sepa_values {F} (value : N -> bytes -> F) (neg : F -> F) (l : letter) :=
  flat_map (fun vb => match bs_account (snd vb) with
                      | BInternational a => [sepa_value value neg a vb]
                      | BNational _ => []
                      end) (letter_balances l).
Definition only_international (l : letter) : Prop :=
  Forall (fun vb => 7 <= fst vb <= 8 /\ exists a, bs_account (snd vb) = BInternational a) (letter_balances l).
