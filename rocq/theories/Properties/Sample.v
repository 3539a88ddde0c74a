(** A concrete environment and concrete demos for the examples beside the theorems.
    The text conversions are the identity and the info strings are read with a small
    [\key\value] lookup; nothing in the theorems depends on this choice. *)
From Verif.Model Require Import Base Env Timezone.
From Verif.Spec Require Import Mvd.

(** the bytes up to the next backslash *)
Fixpoint until_backslash (s : bytes) : bytes :=
  match s with
  | [] => []
  | b :: r => if Byte.eqb b x5c then [] else b :: until_backslash r
  end.
Definition field (key : string) (s : str) : option str :=
  match split_once s (lit "\" ++ lit key ++ lit "\") with
  | Some (_, r) => Some (until_backslash r)
  | None => None
  end.
Definition int_field (key : string) (s : str) : option Z :=
  match field key s with Some v => parse_i32 v | None => None end.

Definition sample_clientinfo (s : str) : Clientinfo :=
  mkClientinfo (field "name" s) (field "team" s) (int_field "topcolor" s)
    (int_field "bottomcolor" s) (int_field "*spectator" s) (field "*auth" s) (field "*flag" s)
    (field "*client" s) (int_field "*bot" s) (int_field "chat" s).

Definition sample_settings (s : str) : Settings :=
  mkSettings (field "mode" s) (int_field "epoch" s) (field "serverdemo" s) [].

Definition ascii_lower (b : byte) : byte :=
  if in_range b 0x41 0x5A then
    match Byte.of_N (n_of b + 32) with Some c => c | None => b end
  else b.

(** [sample true]: debug build, [sample false]: release build *)
Definition sample (debug : bool) : env := {|
  checked := debug;
  eof_on_short_read := true;
  to_unicode := fun s => s;
  to_utf8 := fun s => s;
  unicode_sort := sort_by str_cmp;
  clientinfo_from := sample_clientinfo;
  settings_from := sample_settings;
  ktxstats_from := fun s => Ok (mkKtxstatsV3 (lit "host") (lit "10.0.0.1") 27500 []);
  parse_datetime := fun s => if len s =? 25 then Ok 0%Z else Err "input is too short";
  to_lowercase := map ascii_lower;
  players_order := fun l => l;
  teams_order := fun l => l;
  colors_order := fun _ l => l;
|}.

(** a frame of kind 6 (dem_all) *)
Definition frame_all (time : byte) (body : bytes) : frame := mkFrame time x06 [] body.
(** a print message *)
Definition say (level : byte) (s : string) : bytes := x08 :: level :: lit s ++ [x00].

(** the frame that carries the serverinfo, padded so that a demo that starts with it is
    longer than the 1280 bytes serverinfo_string() looks at *)
Definition info_frame (info : string) : frame :=
  frame_all x00 (x09 :: lit "fullserverinfo """ ++ lit info ++ lit """" ++ [x0a; x00] ++ repeat x01 1300).

(** one hidden block of embedded stats *)
Definition stats_frame (number : N) (content : bytes) : frame :=
  mkFrame x00 x03 [x00; x00; x00; x00]
    (enc32 (len content + 2) ++ enc16 3 ++ enc16 number ++ content).
