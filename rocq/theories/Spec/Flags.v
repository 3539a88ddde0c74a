(** Flag messages of the game, as a table of phrases, and what the frames of a demo announce
    about flags. *)
From Verif.Model Require Import Base Env FlagEvent Flags.
From Verif.Spec Require Import Occ Mvd Messages.

Inductive deed := Captures | Defends | DefendsCarrierHard | DefendsCarrier | Takes | Returns | Assists.

Definition line (s : string) : str := lit s ++ [x0a].

(** In the order of precedence: a text with several phrases is read as the first. *)
Definition flag_phrases : list (deed * str) := [
  (Captures, line " ãáðôõòåä the ÒÅÄ flag!"); (Captures, line " ãáðôõòåä the ÂÌÕÅ flag!");
  (Defends, line " defends the ÒÅÄ flag"); (Defends, line " defends the ÂÌÕÅ flag");
  (DefendsCarrierHard, line " defends ÒÅÄ's flag carrier against an aggressive enemy");
  (DefendsCarrierHard, line " defends ÂÌÕÅ's flag carrier against an aggressive enemy");
  (DefendsCarrier, line " defends ÒÅÄ's flag carrier"); (DefendsCarrier, line " defends ÂÌÕÅ's flag carrier");
  (Takes, line " çïô the ÒÅÄ flag!"); (Takes, line " çïô the ÂÌÕÅ flag!");
  (Returns, line " òåôõòîåä the ÒÅÄ flag!"); (Returns, line " òåôõòîåä the ÂÌÕÅ flag!");
  (Assists, line " gets an assist for returning his flag!");
  (Assists, line " gets an assist for fragging the flag carrier!") ].

(** A name in which no flag message stands *)
Definition quotes_no_flag (name : str) : Prop := forall q, In q flag_phrases -> ~ occurs name (snd q).

(** The event the API speaks of *)
Definition flag_event (k : deed) (name : str) : FlagEvent :=
  match k with
  | Captures => CapturedFlag name
  | Defends => DefendsFlag name
  | DefendsCarrierHard => DefendsFlagCarrierVsAggressive name
  | DefendsCarrier => DefendsFlagCarrier name
  | Takes => GotFlag name
  | Returns => ReturnedFlag name
  | Assists => ReturnedFlagAssist name
  end.

(** [msg] tells of [k] by [name]: the first phrase that occurs in it, and all that stands before
    its first occurrence. *)
Definition tells (msg : str) (k : deed) (name : str) : Prop :=
  exists l1 s l2 r, flag_phrases = l1 ++ (k, s) :: l2 /\
    msg = name ++ s ++ r /\ first_at msg s (len name) /\
    Forall (fun q => ~ occurs msg (snd q)) l1.

(** [msg] tells of the deeds [l]: one or none *)
Definition tells_all (msg : str) (l : list (deed * str)) : Prop :=
  (exists k name, tells msg k name /\ l = [(k, name)]) \/
  ((forall k name, ~ tells msg k name) /\ l = []).

(** The print messages found in a body by looking at every byte: a byte 8 begins a message, any
    other byte is passed over, and a message without end is the last thing looked at. *)
Inductive scans : bytes -> list message -> Prop :=
| scans_end : scans [] []
| scans_over : forall b r ms, b <> x08 -> scans r ms -> scans (b :: r) ms
| scans_message : forall m r ms, wf_message m -> scans r ms -> scans (encode_message m ++ r) (m :: ms)
| scans_cut : forall r, (forall m q, wf_message m -> x08 :: r <> encode_message m ++ q) -> scans (x08 :: r) [].

Definition high (m : message) : bool := (n_of (m_level m) =? 2) && has_text m.

(** A print that can be the second half of a message whose first half is the name *)
Definition second_half (E : env) (text : bytes) : Prop :=
  exists k s z, In (k, s) flag_phrases /\ (k = Captures \/ k = Takes \/ k = Returns) /\
    to_unicode E text = z ++ s.

(** How consecutive texts of one frame are put together: in twos; the second of two is either
    the end of the first or it is lost. *)
Inductive pairs (E : env) : list bytes -> list bytes -> Prop :=
| pairs_none : pairs E [] []
| pairs_one : forall a, pairs E [a] [a]
| pairs_joined : forall a b l k, second_half E b -> pairs E l k -> pairs E (a :: b :: l) ((a ++ b) :: k)
| pairs_lost : forall a b l k, ~ second_half E b -> pairs E l k -> pairs E (a :: b :: l) (a :: k).

(** The texts announced by a frame *)
Definition announces (E : env) (f : frame) (texts : list bytes) : Prop :=
  (~ occurs (f_body f) (lit "flag") /\ texts = []) \/
  (occurs (f_body f) (lit "flag") /\
   exists ms, scans (f_body f) ms /\ pairs E (map m_text (filter high ms)) texts).

(** What the result says about a player *)
Definition counter (k : deed) (p : PlayerFlagEvents) : N :=
  match k with
  | Captures => captures p
  | Defends => defends p
  | DefendsCarrierHard => carrier_defends_vs_aggressive p
  | DefendsCarrier => carrier_defends p
  | Takes => pickups p
  | Returns => returns p
  | Assists => carrier_frags p
  end.

Definition deed_eqb (a b : deed) : bool :=
  match a, b with
  | Captures, Captures | Defends, Defends | DefendsCarrierHard, DefendsCarrierHard
  | DefendsCarrier, DefendsCarrier | Takes, Takes | Returns, Returns | Assists, Assists => true
  | _, _ => false
  end.

Definition times (k : deed) (name : str) (l : list (deed * str)) : N :=
  len (filter (fun x => deed_eqb (fst x) k && beq (snd x) name) l).

(** The table has one row for each name in [l], with the number of its deeds, reduced modulo 256. *)
Definition counts (tbl : list (str * PlayerFlagEvents)) (l : list (deed * str)) : Prop :=
  NoDup (map fst tbl) /\
  (forall name, In name (map fst tbl) <-> In name (map snd l)) /\
  (forall name p k, In (name, p) tbl -> counter k p = times k name l mod 256).

(** A frame that carries one flag message of [name] and nothing else, as one print or as two *)
Definition carries (E : env) (f : frame) (k : deed) (name : str) : Prop :=
  exists s, In (k, s) flag_phrases /\ quotes_no_flag name /\ occurs (f_body f) (lit "flag") /\
  ((exists m, f_body f = encode_message m /\ wf_message m /\ high m = true /\
      to_unicode E (m_text m) = name ++ s) \/
   (exists m1 m2, f_body f = encode_message m1 ++ encode_message m2 /\
      wf_message m1 /\ wf_message m2 /\ high m1 = true /\ high m2 = true /\ second_half E (m_text m2) /\
      to_unicode E (m_text m1 ++ m_text m2) = name ++ s)).

(** A frame that has nothing to do with flags *)
Definition silent (f : frame) : Prop := ~ occurs (f_body f) (lit "flag").
