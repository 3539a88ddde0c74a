(** src/qw/flagprint.rs and src/qw/flagevent.rs *)
From Verif.Model Require Import Base Utf8Error FragEvent.

(** src/qw/flagprint.rs:2-2 *)
Definition X_CAPTURED_FLAG : list str := [
  lit " ãáðôõòåä the ÒÅÄ flag!" ++ [x0a];
  lit " ãáðôõòåä the ÂÌÕÅ flag!" ++ [x0a] ].

(** src/qw/flagprint.rs:4-4 *)
Definition X_DEFENDS_FLAG : list str := [
  lit " defends the ÒÅÄ flag" ++ [x0a];
  lit " defends the ÂÌÕÅ flag" ++ [x0a] ].

(** src/qw/flagprint.rs:6-9 *)
Definition X_DEFENDS_CARRIER : list str := [
  lit " defends ÒÅÄ's flag carrier" ++ [x0a];
  lit " defends ÂÌÕÅ's flag carrier" ++ [x0a] ].

(** src/qw/flagprint.rs:11-14 *)
Definition X_DEFENDS_CARRIER_AGGR : list str := [
  lit " defends ÒÅÄ's flag carrier against an aggressive enemy" ++ [x0a];
  lit " defends ÂÌÕÅ's flag carrier against an aggressive enemy" ++ [x0a] ].

(** src/qw/flagprint.rs:16-16 *)
Definition X_GOT_FLAG : list str := [
  lit " çïô the ÒÅÄ flag!" ++ [x0a];
  lit " çïô the ÂÌÕÅ flag!" ++ [x0a] ].

(** src/qw/flagprint.rs:18-18 *)
Definition X_RETURNED_FLAG : list str := [
  lit " òåôõòîåä the ÒÅÄ flag!" ++ [x0a];
  lit " òåôõòîåä the ÂÌÕÅ flag!" ++ [x0a] ].

(** src/qw/flagprint.rs:20-23 *)
Definition X_FRAGS_CARRIER : list str := [
  lit " gets an assist for returning his flag!" ++ [x0a];
  lit " gets an assist for fragging the flag carrier!" ++ [x0a] ].

(** src/qw/flagevent.rs:5-14 *)
Inductive FlagEvent :=
| CapturedFlag (player : str)
| GotFlag (player : str)
| DefendsFlag (player : str)
| DefendsFlagCarrier (player : str)
| DefendsFlagCarrierVsAggressive (player : str)
| ReturnedFlag (player : str)
| ReturnedFlagAssist (player : str).

(** src/qw/flagevent.rs:20-28 and 34-43: the needle lists in the order they are tried,
    each with the event it stands for *)
Definition flag_print_types : list ((str -> FlagEvent) * list str) := [
  (CapturedFlag, X_CAPTURED_FLAG);
  (DefendsFlag, X_DEFENDS_FLAG);
  (DefendsFlagCarrierVsAggressive, X_DEFENDS_CARRIER_AGGR);
  (DefendsFlagCarrier, X_DEFENDS_CARRIER);
  (GotFlag, X_GOT_FLAG);
  (ReturnedFlag, X_RETURNED_FLAG);
  (ReturnedFlagAssist, X_FRAGS_CARRIER) ].

(** src/qw/flagevent.rs:16-49 *)
Definition flag_event_from (value : str) : result FlagEvent :=
  match find_map (fun '(mk, needles) =>
                    match find_any value needles with
                    | Some pos => Some (mk (until value pos))
                    | None => None
                    end) flag_print_types with
  | Some e => Ok e
  | None => Err (quoting "Unable to parse as flag event" value)
  end.
