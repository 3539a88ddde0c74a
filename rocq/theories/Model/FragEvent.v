(** src/qw/fragprint.rs and src/qw/fragevent.rs *)
From Verif.Model Require Import Base Utf8Error.

(** src/qw/fragprint.rs:2 *)
Definition WILDCARD : str := lit """??""".

(** src/qw/fragprint.rs:4-22 *)
Definition X_DEATH : list str := [
  lit " sleeps with the fishes";
  lit " sucks it down";
  lit " gulped a load of slime";
  lit " can't exist on slime alone";
  lit " burst into flames";
  lit " turned into hot slag";
  lit " visits the Volcano God";
  lit " cratered";
  lit " fell to his death";
  lit " fell to her death";
  lit " blew up";
  lit " was spiked";
  lit " was zapped";
  lit " ate a lavaball";
  lit " died";
  lit " tried to leave";
  lit " was squished" ].

(** src/qw/fragprint.rs:24-36 *)
Definition X_SUICIDE_BY_WEAPON : list str := [
  lit " tries to put the pin back in";
  lit " becomes bored with life";
  lit " discovers blast radius";
  lit " electrocutes himself";
  lit " electrocutes herself";
  lit " railcutes himself";
  lit " railcutes herself";
  lit " discharges into the slime";
  lit " discharges into the lava";
  lit " discharges into the water";
  lit " heats up the water" ].

(** src/qw/fragprint.rs:38 *)
Definition X_SUICIDE : str := lit " suicides".

(** src/qw/fragprint.rs:40-47 *)
Definition X_TEAMKILL_UNKNOWN : list str := [
  lit " squished a teammate";
  lit " mows down a teammate";
  lit " checks his glasses";
  lit " checks her glasses";
  lit " gets a frag for the other team";
  lit " loses another friend" ].

(** src/qw/fragprint.rs:49-56 *)
Definition UNKNOWN_TEAMKILL_X : list str := [
  lit " was telefragged by his teammate";
  lit " was telefragged by her teammate";
  lit " was crushed by his teammate";
  lit " was crushed by her teammate";
  lit " was jumped by his teammate";
  lit " was jumped by her teammate" ].

(** src/qw/fragprint.rs:58-63 *)
Definition X_FRAG_Y : list str := [
  lit " stomps ";
  lit " squishes ";
  lit " rips ""??"" a new one" ].

(** src/qw/fragprint.rs:65-94 *)
Definition Y_FRAG_X : list str := [
  lit " was ax-murdered by ";
  lit " softens ""??""'s fall";
  lit " tried to catch ";
  lit " was crushed by ";
  lit " was jumped by ";
  lit " chewed on ""??""'s boomstick";
  lit " was body pierced by ";
  lit " was nailed by ";
  lit " was railed by ";
  lit " was telefragged by ";
  lit " accepts ""??""'s discharge";
  lit " drains ""??""'s batteries";
  lit " was lead poisoned by ";
  lit " accepts ""??""'s shaft";
  lit " ate 2 loads of ""??""'s buckshot";
  lit " was perforated by ";
  lit " was punctured by ";
  lit " was ventilated by ";
  lit " ate 8 loads of ""??""'s buckshot";
  lit " gets a natural disaster from ";
  lit " rides ""??""'s rocket";
  lit " was gibbed by ""??""'s rocket";
  lit " was straw-cuttered by ";
  lit " eats ""??""'s pineapple";
  lit " was gibbed by ""??""'s grenade";
  lit " was brutalized by ""??""'s quad rocket";
  lit " was smeared by ""??""'s quad rocket";
  lit " was hooked by " ].

(** src/qw/fragevent.rs:8-16 *)
Inductive FragEvent :=
| Death (player : str)
| Suicide (player : str)
| SuicideByWeapon (player : str)
| Frag (killer victim : str)
| Teamkill (killer : str)
| TeamkillByUnknown (victim : str).

(** [T.iter().find_map(|&p| value.find(p))] *)
Definition find_any (value : str) (table : list str) : option N :=
  find_map (find value) table.

(** [value[..pos]] for a [pos] returned by [value.find]: always a char boundary of a
    valid string, so the slice cannot panic. *)
Definition until (value : str) (pos : N) : str := firstn (N.to_nat pos) value.

(** src/qw/fragevent.rs:58-70 *)
Definition pattern_match (value pattern : str) : option (str * str) :=
  if is_some (find pattern WILDCARD) then
    match split_once pattern WILDCARD with
    | None => None
    | Some (prefix, suffix) =>
        match split_once value prefix with
        | None => None
        | Some (x, rest) =>
            match split_once rest suffix with
            | None => None
            | Some (y, _) => Some (x, y)
            end
        end
    end
  else split_once value pattern.

(** src/qw/fragevent.rs:44-52 *)
Definition frag_by_pattern (value : str) : option FragEvent :=
  find_map (fun p =>
              match pattern_match value p with
              | None => None
              | Some (x, y) =>
                  if existsb (beq p) X_FRAG_Y then Some (Frag x y) else Some (Frag y x)
              end)
           (X_FRAG_Y ++ Y_FRAG_X).

(** src/qw/fragevent.rs:18-56 *)
Definition frag_event_from (value : str) : result FragEvent :=
  match find_any value X_DEATH with
  | Some pos => Ok (Death (until value pos))
  | None =>
  match find_any value X_SUICIDE_BY_WEAPON with
  | Some pos => Ok (SuicideByWeapon (until value pos))
  | None =>
  if ends_with value X_SUICIDE then Ok (Suicide (trim_end_matches value X_SUICIDE)) else
  match find_any value X_TEAMKILL_UNKNOWN with
  | Some pos => Ok (Teamkill (until value pos))
  | None =>
  match find_any value UNKNOWN_TEAMKILL_X with
  | Some pos => Ok (TeamkillByUnknown (until value pos))
  | None =>
  match frag_by_pattern value with
  | Some e => Ok e
  | None => Err (quoting "Unable to parse message" value)
  end end end end end.
