(** Texts are UTF-8: what Rust's [String] promises, for the libraries and for the results *)
From Verif.Model Require Import Base Env Clients FragEvent FlagEvent Ktxstats Players.
From Verif.Spec Require Import Utf8.

Definition text_if_any (o : option str) : Prop := forall s, o = Some s -> utf8_text s.

Definition clientinfo_texts (c : Clientinfo) : Prop :=
  text_if_any (ci_name c) /\ text_if_any (ci_team c) /\ text_if_any (ci_auth c) /\ text_if_any (ci_flag c) /\
  text_if_any (ci_client c).
Definition settings_texts (s : Settings) : Prop :=
  text_if_any (st_mode s) /\ text_if_any (st_serverdemo s) /\ Forall text_if_any (st_other s).
Definition stats_texts (s : KtxstatsV3) : Prop :=
  utf8_text (ks_hostname s) /\ utf8_text (ks_ip s) /\
  Forall (fun p => utf8_text (kp_name p) /\ utf8_text (kp_team p) /\ utf8_text (kp_login p)) (ks_players s).
Definition client_texts (c : Client) : Prop :=
  utf8_text (c_name c) /\ utf8_text (c_team c) /\ text_if_any (c_auth_username c) /\ text_if_any (c_auth_cc c).
Definition player_texts (p : Player) : Prop :=
  utf8_text (p_name p) /\ utf8_text (p_team p) /\ text_if_any (p_auth_username p) /\ text_if_any (p_auth_cc p).
Definition team_texts (t : Team) : Prop := utf8_text (t_name t) /\ Forall player_texts (t_players t).
Definition server_texts (s : Server) : Prop :=
  utf8_text (sv_hostname s) /\ utf8_text (sv_address s) /\ utf8_text (sv_ip s).

(** The texts in an event *)
Definition frag_texts (e : FragEvent) : Prop :=
  match e with
  | Frag k v => utf8_text k /\ utf8_text v
  | Death p | Suicide p | SuicideByWeapon p | Teamkill p | TeamkillByUnknown p => utf8_text p
  end.
Definition flag_texts (e : FlagEvent) : Prop :=
  match e with
  | CapturedFlag p | GotFlag p | DefendsFlag p | DefendsFlagCarrier p
  | DefendsFlagCarrierVsAggressive p | ReturnedFlag p | ReturnedFlagAssist p => utf8_text p
  end.

(** The other crates return strings.  (In Rust the type says so; in the model a text is a list of
    bytes.)  They are only ever given strings. *)
Record returns_strings (E : env) : Prop := {
  rs_unicode : forall d, utf8_text (to_unicode E d);
  rs_utf8 : forall d, utf8_text (to_utf8 E d);
  rs_sort : forall l, Forall utf8_text l -> Forall utf8_text (unicode_sort E l);
  rs_clientinfo : forall s, utf8_text s -> clientinfo_texts (clientinfo_from E s);
  rs_settings : forall s, utf8_text s -> settings_texts (settings_from E s);
  rs_ktxstats : forall s k, utf8_text s -> ktxstats_from E s = Ok k -> stats_texts k;
  rs_ktxstats_error : forall s e, utf8_text s -> ktxstats_from E s = Err e -> utf8_text (lit e);
  rs_datetime_error : forall s e, utf8_text s -> parse_datetime E s = Err e -> utf8_text (lit e);
}.

(** The value has only texts in it ([P]), and the error is a text. *)
Definition gives_texts {A} (P : A -> Prop) (m : M (result A)) : Prop :=
  (forall a, m = Ret (Ok a) -> P a) /\ (forall e, m = Ret (Err e) -> utf8_text (lit e)).
