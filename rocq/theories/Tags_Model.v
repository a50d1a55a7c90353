(** * The tags of SWIFT messages as objects (swift/element.go) *)
From Verif Require Import Base Mt940_Model.
Open Scope Z_scope.

Section Tags.
  Context {F : Type}.
  (** strconv.ParseFloat(s, 64) *)
  Variable parse_float : bytes -> option F.

  (** swift/element.go:20-23 tag, and the pointer to it in a tag object: AlphaNumericTag (28),
      NumberTag (53), FloatTag (81).  [None] is the nil pointer of a tag nothing was read
      into. *)
  Inductive value := VText (t : bytes) | VNumber (n : Z) | VFloat (x : F).
  Definition tag := option (bytes * value).
  Inductive kind := Alphanumeric | Numeric | Float.
  (** lines 39-40; 65-69; 93-97 *)
  Definition parse_value (k : kind) (w : bytes) : outcome value :=
    match k with
    | Alphanumeric => Ok (VText w)
    | Numeric => omap VNumber (atoi w)
    | Float => match parse_float w with Some x => Ok (VFloat x) | None => Err end
    end.
  (** lines 33-45, 58-73, 86-101 Unmarshal: the tag afterwards and the result *)
  Definition tag_unmarshal (k : kind) (w : bytes) (t : tag) : tag * outcome unit :=
    match (do e <- tag_elements w; do v <- parse_value k (snd e); Ok (fst e, v)) with
    | Ok e => (Some e, Ok tt)
    | Err => (t, Err)
    | Panic => (t, Panic)
    end.
  (** lines 25-26 ID and Value; Val (48-50, 76-78, 104-106) is Value with the type of the kind *)
  Definition tag_id (t : tag) : outcome bytes := match t with Some e => Ok (fst e) | None => Panic end.
  Definition tag_value (t : tag) : outcome value := match t with Some e => Ok (snd e) | None => Panic end.
  Definition tag_val (k : kind) (t : tag) : outcome value :=
    do v <- tag_value t;
    match k, v with
    | Alphanumeric, VText _ | Numeric, VNumber _ | Float, VFloat _ => Ok v
    | _, _ => Panic
    end.
  (** Reading one text after the other into the same tag: the results *)
  Fixpoint tag_reads (k : kind) (ws : list bytes) (t : tag) : tag * list (outcome unit) :=
    match ws with
    | [] => (t, [])
    | w :: ws => let r := tag_unmarshal k w t in let rs := tag_reads k ws (fst r) in (fst rs, snd r :: snd rs)
    end.
End Tags.
Arguments value : clear implicits.
Arguments tag : clear implicits.
