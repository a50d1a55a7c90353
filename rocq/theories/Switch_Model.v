(** * The switches of the loggers

    internal/logger.go, hbci.go and the first line of client.New: two variables of the
    program that decide what is written to the log, for all clients. *)
From Verif Require Import Base Bank_Model Log_Model.
Open Scope Z_scope.

(** internal/logger.go:14-15, 46-49: the two loggers and the variables they look at *)
Inductive logger := Debug | Info.
Record switches := mkSwitches { sw_debug : bool; sw_info : bool }.
Definition initial : switches := mkSwitches false true.
Definition is_on (w : logger) (s : switches) : bool := match w with Debug => sw_debug s | Info => sw_info s end.

(** What a program does.  [ParseFlag]: flag.Parse with -debug (logger.go:10-12); [Write]:
    entries written with one of the loggers, as by the dialogs (Log_Model.v); [Crash]: a
    panic, which ends the functions it passes. *)
Inductive call :=
| SetDebugMode (on : bool)
| SetInfoLog (on : bool)
| ParseFlag (on : bool)
| NewClient (table : list bank_info) (cfg : config) (enable_debug_logging : bool)
| WithDebugLogging (body : list call)
| Write (w : logger) (entries : list log_entry)
| Crash.

(** Whether a call ended with a panic *)
Definition is_panic {A} (o : outcome A) : bool := match o with Panic => true | _ => false end.
Definition set_debug (on : bool) (s : switches) : switches := mkSwitches on (sw_info s).
(** client/client.go:45-46 with [client_new] of Bank_Model.v for the rest *)
Definition new_switched (table : list bank_info) (cfg : config) (debug : bool) (s : switches) : switches * outcome new_client :=
  (set_debug debug s, client_new table cfg).

(** One call: the switches afterwards, what was written, and whether it crashed.
    internal/logger.go:24-26 SetDebugMode, 34-36 SetInfoLog (hbci.go:9-16), 39-43
    WithDebugLogging, 65-70 conditionalWriter.Write *)
Fixpoint run_call (c : call) (s : switches) {struct c} : switches * list (logger * log_entry) * bool :=
  match c with
  | SetDebugMode b | ParseFlag b => (set_debug b s, [], false)
  | SetInfoLog b => (mkSwitches (sw_debug s) b, [], false)
  | NewClient table cfg b => (fst (new_switched table cfg b s), [], is_panic (snd (new_switched table cfg b s)))
  | Write w l => (s, if is_on w s then map (pair w) l else [], false)
  | Crash => (s, [], true)
  | WithDebugLogging body =>
      let r := (fix go (l : list call) (s : switches) : switches * list (logger * log_entry) * bool :=
                  match l with
                  | [] => (s, [], false)
                  | c :: l => let r1 := run_call c s in
                              if snd r1 then r1
                              else let r2 := go l (fst (fst r1)) in (fst (fst r2), snd (fst r1) ++ snd (fst r2), snd r2)
                  end) body (set_debug true s) in
      if snd r then r else (set_debug false (fst (fst r)), snd (fst r), false)
  end.
(** Calls one after the other *)
Fixpoint run_calls (l : list call) (s : switches) : switches * list (logger * log_entry) * bool :=
  match l with
  | [] => (s, [], false)
  | c :: l => let r1 := run_call c s in
              if snd r1 then r1
              else let r2 := run_calls l (fst (fst r1)) in (fst (fst r2), snd (fst r1) ++ snd (fst r2), snd r2)
  end.
Definition after (h : list call) : switches := fst (fst (run_calls h initial)).
Definition log_of_run (h : list call) : list (logger * log_entry) := snd (fst (run_calls h initial)).
Definition crashed (h : list call) : bool := snd (run_calls h initial).
