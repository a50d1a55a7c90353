(** * Which call decided what is written *)
From Verif Require Import Base Bank_Model Log_Model Switch_Model.

(** No panic, not even inside a function passed to WithDebugLogging or while a client is
    made (C48 says when that can happen: never with the bank table of the library). *)
Fixpoint calm (c : call) : bool :=
  match c with
  | Crash => false
  | NewClient table cfg _ => match client_new table cfg with Panic => false | _ => true end
  | WithDebugLogging body => forallb calm body
  | _ => true
  end.
(** The decision of a call about the debug logger, if it makes one, and the last one of a
    history that made one. *)
Definition decision (c : call) : option bool :=
  match c with
  | SetDebugMode b | ParseFlag b | NewClient _ _ b => Some b
  | WithDebugLogging _ => Some false
  | _ => None
  end.
Fixpoint last_decision (default : bool) (h : list call) : bool :=
  match h with
  | [] => default
  | c :: r => last_decision (match decision c with Some b => b | None => default end) r
  end.
(** The calls of SetInfoLog of a history, also those inside functions. *)
Fixpoint info_calls (c : call) : list bool :=
  match c with SetInfoLog b => [b] | WithDebugLogging body => flat_map info_calls body | _ => [] end.
