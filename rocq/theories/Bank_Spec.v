(** * Specification vocabulary for the bank table and client.New *)
From Verif Require Import Base Bank_Model.
Open Scope Z_scope.

(** The entry of a bank: the last one with its ID. *)
Definition last_entry (table : list bank_info) (id : bytes) (e : bank_info) : Prop :=
  exists before after, table = before ++ e :: after /\ bi_id e = id /\
    forall x, In x after -> bi_id x <> id.
Definition listed (table : list bank_info) (id : bytes) : Prop := exists e, In e table /\ bi_id e = id.

(** The protocol versions the table knows, by name and by number. *)
Definition version_names : list (bytes * Z) :=
  [(B "HBCI 2.2 Erweiterung PIN/TAN V1.01", 220); (B "FinTS V3.0", 300); (B "FinTS V4.0", 400); (B "FinTS V4.1", 410)].
Definition version_numbers : list (bytes * Z) :=
  [(B "2.1", 210); (B "2.2", 220); (B "3.0", 300); (B "4.0", 400); (B "4.1", 410)].
(** An entry names version v. *)
Definition names_version (e : bank_info) (v : Z) : Prop :=
  In (bi_name e, v) version_names \/ In (bi_number e, v) version_numbers.
(** Both version fields are empty or known. *)
Definition readable (e : bank_info) : Prop :=
  (bi_name e = [] \/ exists v, In (bi_name e, v) version_names) /\
  (bi_number e = [] \/ exists v, In (bi_number e, v) version_numbers).
Definition highest (e : bank_info) (v : Z) : Prop :=
  names_version e v /\ forall w, names_version e w -> w <= v.
(** The protocol versions the client speaks. *)
Definition spoken (v : Z) : Prop := v = 220 \/ v = 300.
