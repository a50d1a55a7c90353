(** * Which data elements are valid, in terms of their values

    Independent of the code: the rules of IsValid by element type.  Only the types of
    Valid_Model.v are used. *)
From Verif Require Import Base Codec_Model Wire_Model Valid_Model.
Open Scope Z_scope.

Definition fits (max : Z) (v : bytes) : Prop := Z.of_nat (List.length v) <= max.
Definition lf : byte := "010"%byte.
Definition cr : byte := "013"%byte.
(** what the documentation of AlphaNumericDataElement excludes *)
Definition one_line (v : bytes) : Prop := ~ In lf v /\ ~ In cr v.
(** what IsValid excludes *)
Definition unbroken (v : bytes) : Prop := one_line v /\ ~ In " "%byte v /\ ~ In "&"%byte v.

(** A whole number with at most [max] characters, a minus sign included *)
Definition int_fits (max z : Z) : Prop := 1 <= max /\ - 10 ^ (max - 1) < z < 10 ^ max.

(** The characters of a list of numbers in brackets: one for every number, one between two,
    two around *)
Definition digits_of (b : byte) : Z :=
  if (Byte.to_N b <? 10)%N then 1 else if (Byte.to_N b <? 100)%N then 2 else 3.
Fixpoint listing (d : bytes) : Z := match d with [] => 0 | b :: r => digits_of b + 1 + listing r end.
Definition listing_length (d : bytes) : Z := match d with [] => 2 | _ => listing d + 1 end.

(** The characters of a number in the form with or without exponent; [zero] before and
    behind the significant digits [ds] *)
Inductive float_length : gofloat -> Z -> Prop :=
| L_nan : float_length FNaN 3
| L_inf : forall neg, float_length (FInf neg) 4
| L_zero : forall (neg : bool) frac, forallb (beq b_zero) frac = true ->
    float_length (FNum neg 0 frac) (if neg then 2 else 1)
| L_num : forall (neg : bool) i frac a b ds d e, itoa_N i ++ frac = repeat b_zero a ++ ds ++ repeat b_zero b ->
    hd_error ds = Some d -> d <> b_zero -> last ds d <> b_zero ->
    e = Z.of_nat (List.length (itoa_N i)) - Z.of_nat a - 1 ->
    float_length (FNum neg i frac)
      ((if neg then 1 else 0) +
       if (e <? -4) || (6 <=? e) then
         Z.of_nat (List.length ds) + (if Nat.leb (List.length ds) 1 then 0 else 1) + 2 + Z.max 2 (Z.of_nat (List.length (itoa (Z.abs e))))
       else Z.of_nat (List.length (itoa_N i)) + (match frac with [] => 0 | _ => 1 end) + Z.of_nat (List.length frac)).

(** The order of texts: at the first difference the smaller byte, and a beginning before the
    whole *)
Inductive before : bytes -> bytes -> Prop :=
| B_nil : forall t, before [] t
| B_less : forall x y s t, (Byte.to_N x < Byte.to_N y)%N -> before (x :: s) (y :: t)
| B_same : forall x s t, before s t -> before (x :: s) (x :: t).

Inductive acceptable : velem -> Prop :=
| A_alnum : forall max v, fits max v -> unbroken v -> acceptable (VAlnum max v)
| A_text : forall max v, fits max v -> acceptable (VText max v)
| A_int : forall padded max z, int_fits max z -> acceptable (VInt padded max z)
| A_float : forall max f n, float_length f n -> n <= max -> acceptable (VFloat max f)
| A_binary : forall max d, listing_length d <= max -> acceptable (VBinary max d)
| A_code : forall set max v c, In c set -> before v c -> fits max v -> unbroken v -> acceptable (VCode set max v)
| A_currency : forall v, List.length v = 3%nat -> acceptable (VCurrency v)
| A_moment : forall time d t, ~ (d = mkDate 1 1 1 /\ t = mkTod 0 0 0) -> acceptable (VMoment time d t)
| A_group : forall count needed es, count = Z.of_nat (List.length es) ->
    (forall i, In i needed -> exists x, nth_error es i = Some (Some x)) ->
    (forall x, In (Some x) es -> acceptable x) -> acceptable (VGroup count needed es)
| A_array : forall min max es, min <= Z.of_nat (List.length es) <= max ->
    (forall x, In x es -> acceptable x) -> acceptable (VArray min max es).

(** No part of the element is without the element it embeds *)
Inductive whole : velem -> Prop :=
| W_group : forall count needed es, (forall x, In (Some x) es -> whole x) -> whole (VGroup count needed es)
| W_array : forall min max es, (forall x, In x es -> whole x) -> whole (VArray min max es)
| W_basic : forall e, match e with VGroup _ _ _ | VArray _ _ _ | VUnset => False | _ => True end -> whole e.

(** The length of an element: the characters of its value as fmt prints it.  In a group the
    parts that are there count, and neither separators nor what escaping adds. *)
Inductive measures : velem -> Z -> Prop :=
| M_alnum : forall max v, measures (VAlnum max v) (Z.of_nat (List.length v))
| M_text : forall max v, measures (VText max v) (Z.of_nat (List.length v))
| M_code : forall set max v, measures (VCode set max v) (Z.of_nat (List.length v))
| M_currency : forall v, measures (VCurrency v) (Z.of_nat (List.length v))
| M_int : forall padded max z, measures (VInt padded max z) (Z.of_nat (List.length (itoa z)))
| M_float : forall max f n, float_length f n -> measures (VFloat max f) n
| M_binary : forall max d, measures (VBinary max d) (listing_length d)
| M_bool : forall b : bool, measures (VBool b) (if b then 4 else 5)
| M_group : forall count needed es n, measures_parts es n -> measures (VGroup count needed es) n
| M_array : forall min max es n, measures_each es n -> measures (VArray min max es) n
with measures_parts : list (option velem) -> Z -> Prop :=
| M_end : measures_parts [] 0
| M_absent : forall es n, measures_parts es n -> measures_parts (None :: es) n
| M_part : forall x es n m, measures x n -> measures_parts es m -> measures_parts (Some x :: es) (n + m)
with measures_each : list velem -> Z -> Prop :=
| M_last : measures_each [] 0
| M_one : forall x es n m, measures x n -> measures_each es m -> measures_each (x :: es) (n + m).
