(** The obituary messages of the game, as a table of phrases, and what a text says according
    to the table. *)
From Verif.Model Require Import Base FragEvent.
From Verif.Spec Require Import Occ.

Inductive kind := KDies | KOwnWeapon | KSuicides | KKillsMate | KKilledByMate | KKills | KKilledBy.

(** The first name, [before], and for the last two kinds the second name and [after] *)
Record phrase := mkPhrase { ph_kind : kind; ph_before : str; ph_after : str }.

Definition one (k : kind) (s : string) : phrase := mkPhrase k (lit s) [].
Definition two (k : kind) (s t : string) : phrase := mkPhrase k (lit s) (lit t).

(** In the order of precedence: a text that fits several phrases is read as the first. *)
Definition phrases : list phrase := [
  one KDies " sleeps with the fishes"; one KDies " sucks it down"; one KDies " gulped a load of slime";
  one KDies " can't exist on slime alone"; one KDies " burst into flames"; one KDies " turned into hot slag";
  one KDies " visits the Volcano God"; one KDies " cratered"; one KDies " fell to his death";
  one KDies " fell to her death"; one KDies " blew up"; one KDies " was spiked"; one KDies " was zapped";
  one KDies " ate a lavaball"; one KDies " died"; one KDies " tried to leave"; one KDies " was squished";
  one KOwnWeapon " tries to put the pin back in"; one KOwnWeapon " becomes bored with life";
  one KOwnWeapon " discovers blast radius"; one KOwnWeapon " electrocutes himself";
  one KOwnWeapon " electrocutes herself"; one KOwnWeapon " railcutes himself";
  one KOwnWeapon " railcutes herself"; one KOwnWeapon " discharges into the slime";
  one KOwnWeapon " discharges into the lava"; one KOwnWeapon " discharges into the water";
  one KOwnWeapon " heats up the water";
  one KSuicides " suicides";
  one KKillsMate " squished a teammate"; one KKillsMate " mows down a teammate";
  one KKillsMate " checks his glasses"; one KKillsMate " checks her glasses";
  one KKillsMate " gets a frag for the other team"; one KKillsMate " loses another friend";
  one KKilledByMate " was telefragged by his teammate"; one KKilledByMate " was telefragged by her teammate";
  one KKilledByMate " was crushed by his teammate"; one KKilledByMate " was crushed by her teammate";
  one KKilledByMate " was jumped by his teammate"; one KKilledByMate " was jumped by her teammate";
  two KKills " stomps " ""; two KKills " squishes " ""; two KKills " rips " " a new one";
  two KKilledBy " was ax-murdered by " ""; two KKilledBy " softens " "'s fall";
  two KKilledBy " tried to catch " ""; two KKilledBy " was crushed by " "";
  two KKilledBy " was jumped by " ""; two KKilledBy " chewed on " "'s boomstick";
  two KKilledBy " was body pierced by " ""; two KKilledBy " was nailed by " "";
  two KKilledBy " was railed by " ""; two KKilledBy " was telefragged by " "";
  two KKilledBy " accepts " "'s discharge"; two KKilledBy " drains " "'s batteries";
  two KKilledBy " was lead poisoned by " ""; two KKilledBy " accepts " "'s shaft";
  two KKilledBy " ate 2 loads of " "'s buckshot"; two KKilledBy " was perforated by " "";
  two KKilledBy " was punctured by " ""; two KKilledBy " was ventilated by " "";
  two KKilledBy " ate 8 loads of " "'s buckshot"; two KKilledBy " gets a natural disaster from " "";
  two KKilledBy " rides " "'s rocket"; two KKilledBy " was gibbed by " "'s rocket";
  two KKilledBy " was straw-cuttered by " ""; two KKilledBy " eats " "'s pineapple";
  two KKilledBy " was gibbed by " "'s grenade"; two KKilledBy " was brutalized by " "'s quad rocket";
  two KKilledBy " was smeared by " "'s quad rocket"; two KKilledBy " was hooked by " "" ].

Definition has_two_names (k : kind) : bool :=
  match k with KKills | KKilledBy => true | _ => false end.

(** Who did what to whom, given the two names in the order of the text *)
Definition event (k : kind) (x y : str) : FragEvent :=
  match k with
  | KDies => Death x
  | KOwnWeapon => SuicideByWeapon x
  | KSuicides => Suicide x
  | KKillsMate => Teamkill x
  | KKilledByMate => TeamkillByUnknown x
  | KKills => Frag x y
  | KKilledBy => Frag y x
  end.

(** [msg] is [x], the phrase with [y], and possibly more behind it.  Names end where the phrase
    begins for the first time.  Only the suicide phrase must stand at the end (once or
    several times). *)
Definition fits (p : phrase) (msg x y : str) : Prop :=
  match ph_kind p with
  | KSuicides =>
      (exists n, msg = x ++ concat (repeat (ph_before p) (S n))) /\
      ~ (exists z, x = z ++ ph_before p) /\ y = []
  | k =>
      exists r, msg = x ++ ph_before p ++ r /\ first_at msg (ph_before p) (len x) /\
        if has_two_names k then
          (ph_after p = [] /\ y = r) \/
          (ph_after p <> [] /\ exists t, r = y ++ ph_after p ++ t /\ first_at r (ph_after p) (len y))
        else y = []
  end.

(** [msg] says that [e] happened: the first phrase that fits. *)
Definition reads (msg : str) (e : FragEvent) : Prop :=
  exists l1 p l2 x y, phrases = l1 ++ p :: l2 /\ fits p msg x y /\
    Forall (fun q => ~ exists x y, fits q msg x y) l1 /\ e = event (ph_kind p) x y.

(** the text of an obituary *)
Definition obituary (p : phrase) (x y : str) : str := x ++ ph_before p ++ y ++ ph_after p.

(** A single word that cannot be mistaken for a piece of a phrase *)
Definition plain (y : str) : Prop :=
  ~ In x20 y /\ (forall r, y <> lit "cratered" ++ r) /\ (forall r, y <> lit "died" ++ r) /\
  y <> lit "suicides" /\ y <> lit "stomps" /\ y <> lit "squishes".

(** White space: the characters with the Unicode property White_Space, in UTF-8 *)
Definition byte_of (n : N) : byte := match Byte.of_N n with Some b => b | None => x00 end.
Definition utf8 (c : N) : str :=
  if c <? 128 then [byte_of c]
  else if c <? 2048 then [byte_of (192 + c / 64); byte_of (128 + c mod 64)]
  else [byte_of (224 + c / 4096); byte_of (128 + c / 64 mod 64); byte_of (128 + c mod 64)].
Definition white (c : N) : Prop :=
  9 <= c <= 13 \/ c = 32 \/ c = 133 \/ c = 160 \/ c = 5760 \/ 8192 <= c <= 8202 \/
  c = 8232 \/ c = 8233 \/ c = 8239 \/ c = 8287 \/ c = 12288.

(** [t] is [s] without the white space at its end. *)
Definition trimmed (s t : str) : Prop :=
  (exists l, s = t ++ concat (map utf8 l) /\ Forall white l) /\
  forall a c, white c -> t <> a ++ utf8 c.
