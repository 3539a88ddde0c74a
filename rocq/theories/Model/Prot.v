(** src/qw/prot.rs *)
From Verif.Model Require Import Base.

(** src/qw/prot.rs:1-8 *)
Inductive Target := TNone | TMultiple | TSingle | TStats | TAll.

(** src/qw/prot.rs:10-21 *)
Definition target_from (v : byte) : Target :=
  match N.land (n_of v) 7 with
  | 3 => TMultiple
  | 4 => TSingle
  | 5 => TStats
  | 6 => TAll
  | _ => TNone
  end.

(** src/qw/prot.rs:23-29 *)
Inductive Command := CQwd | CRead | CSet | CEmpty.

(** src/qw/prot.rs:31-41 *)
Definition command_from (v : byte) : Command :=
  match N.land (n_of v) 7 with
  | 0 => CQwd
  | 1 | 3 | 4 | 5 | 6 => CRead
  | 2 => CSet
  | _ => CEmpty
  end.

(** src/qw/prot.rs:43-107 *)
Inductive MessageType :=
| MtBad | MtNop | MtDisconnect | MtUpdateStat | MtNqVersion | MtNqSetview | MtSound
| MtNqTime | MtPrint | MtStufftext | MtSetAngle | MtServerData | MtLightstyle
| MtNqUpdateName | MtUpdateFrags | MtNqClientdata | MtStopSound | MtNqUpdateColors
| MtNqParticle | MtDamage | MtSpawnStatic | MtFteSpawnStatic2 | MtSpawnBaseline
| MtTempEntity | MtSetPause | MtNqSignonnum | MtCenterPrint | MtKilledmonster
| MtFoundSecret | MtSpawnStaticSound | MtIntermission | MtFinale | MtCdtrack
| MtSellscreen | MtSmallkick | MtBigkick | MtUpdatePing | MtUpdateEntertime
| MtUpdateStatLong | MtMuzzleflash | MtUpdateUserinfo | MtDownload | MtPlayerinfo
| MtNails | MtChokeCount | MtModellist | MtSoundlist | MtPacketentities
| MtDeltapacketentities | MtMaxspeed | MtEntgravity | MtSetinfo | MtServerinfo
| MtUpdatePl | MtNails2 | MtFteModellistshort | MtFteSpawnbaseline2 | MtEndOfDemo
| MtQizmoVoice | MtFteVoiceChat | MtUnknown.

(** src/qw/prot.rs:109-175 *)
Definition message_type_from (v : byte) : MessageType :=
  match n_of v with
  | 0 => MtBad | 1 => MtNop | 2 => MtDisconnect | 3 => MtUpdateStat | 4 => MtNqVersion
  | 5 => MtNqSetview | 6 => MtSound | 7 => MtNqTime | 8 => MtPrint | 9 => MtStufftext
  | 10 => MtSetAngle | 11 => MtServerData | 12 => MtLightstyle | 13 => MtNqUpdateName
  | 14 => MtUpdateFrags | 15 => MtNqClientdata | 16 => MtStopSound
  | 17 => MtNqUpdateColors | 18 => MtNqParticle | 19 => MtDamage | 20 => MtSpawnStatic
  | 21 => MtFteSpawnStatic2 | 22 => MtSpawnBaseline | 23 => MtTempEntity
  | 24 => MtSetPause | 25 => MtNqSignonnum | 26 => MtCenterPrint | 27 => MtKilledmonster
  | 28 => MtFoundSecret | 29 => MtSpawnStaticSound | 30 => MtIntermission | 31 => MtFinale
  | 32 => MtCdtrack | 33 => MtSellscreen | 34 => MtSmallkick | 35 => MtBigkick
  | 36 => MtUpdatePing | 37 => MtUpdateEntertime | 38 => MtUpdateStatLong
  | 39 => MtMuzzleflash | 40 => MtUpdateUserinfo | 41 => MtDownload | 42 => MtPlayerinfo
  | 43 => MtNails | 44 => MtChokeCount | 45 => MtModellist | 46 => MtSoundlist
  | 47 => MtPacketentities | 48 => MtDeltapacketentities | 49 => MtMaxspeed
  | 50 => MtEntgravity | 51 => MtSetinfo | 52 => MtServerinfo | 53 => MtUpdatePl
  | 54 => MtNails2 | 60 => MtFteModellistshort | 66 => MtFteSpawnbaseline2
  | 69 => MtEndOfDemo | 83 => MtQizmoVoice | 84 => MtFteVoiceChat
  | _ => MtUnknown
  end.

(** derived PartialEq, for the three comparisons /repo makes *)
Definition is_print (t : MessageType) : bool := match t with MtPrint => true | _ => false end.
Definition is_update_frags (t : MessageType) : bool :=
  match t with MtUpdateFrags => true | _ => false end.
Definition is_update_ping (t : MessageType) : bool :=
  match t with MtUpdatePing => true | _ => false end.

(** src/qw/prot.rs:177-192 *)
Inductive HiddenMessage :=
| HmAntilagPosition | HmUsercmd | HmUsercmdWeapons | HmDemoinfo | HmCommentaryTrack
| HmCommentaryData | HmCommentaryTextSegment | HmDmgdone | HmUsercmdWeaponsSs
| HmUsercmdWeaponInstruction | HmPausedDuration | HmExtended | HmUnknown.

(** src/qw/prot.rs:194-212 *)
Definition hidden_message_from (v : N) : HiddenMessage :=
  match v with
  | 0 => HmAntilagPosition | 1 => HmUsercmd | 2 => HmUsercmdWeapons | 3 => HmDemoinfo
  | 4 => HmCommentaryTrack | 5 => HmCommentaryData | 6 => HmCommentaryTextSegment
  | 7 => HmDmgdone | 8 => HmUsercmdWeaponsSs | 9 => HmUsercmdWeaponInstruction
  | 10 => HmPausedDuration | 0xFFFF => HmExtended
  | _ => HmUnknown
  end.

Definition is_demoinfo (h : HiddenMessage) : bool :=
  match h with HmDemoinfo => true | _ => false end.

(** src/qw/prot.rs:214-221 *)
Inductive PrintId := PiLow | PiMedium | PiHigh | PiChat | PiUnknown.

(** src/qw/prot.rs:223-233 *)
Definition print_id_from (v : byte) : PrintId :=
  match n_of v with
  | 0 => PiLow | 1 => PiMedium | 2 => PiHigh | 3 => PiChat | _ => PiUnknown
  end.

Definition print_id_eqb (a b : PrintId) : bool :=
  match a, b with
  | PiLow, PiLow | PiMedium, PiMedium | PiHigh, PiHigh | PiChat, PiChat
  | PiUnknown, PiUnknown => true
  | _, _ => false
  end.

(** src/qw/prot.rs:1-8: the discriminants *)
Definition target_code (t : Target) : N :=
  match t with
  | TNone => 0 | TMultiple => 3 | TSingle => 4 | TStats => 5 | TAll => 6
  end.

(** src/qw/prot.rs:23-29: the discriminants *)
Definition command_code (t : Command) : N :=
  match t with
  | CQwd => 0 | CRead => 1 | CSet => 2 | CEmpty => 7
  end.

(** src/qw/prot.rs:43-107: the discriminants *)
Definition message_type_code (t : MessageType) : N :=
  match t with
  | MtBad => 0 | MtNop => 1 | MtDisconnect => 2 | MtUpdateStat => 3 | MtNqVersion => 4
  | MtNqSetview => 5 | MtSound => 6 | MtNqTime => 7 | MtPrint => 8 | MtStufftext => 9
  | MtSetAngle => 10 | MtServerData => 11 | MtLightstyle => 12 | MtNqUpdateName => 13
  | MtUpdateFrags => 14 | MtNqClientdata => 15 | MtStopSound => 16
  | MtNqUpdateColors => 17 | MtNqParticle => 18 | MtDamage => 19 | MtSpawnStatic => 20
  | MtFteSpawnStatic2 => 21 | MtSpawnBaseline => 22 | MtTempEntity => 23
  | MtSetPause => 24 | MtNqSignonnum => 25 | MtCenterPrint => 26 | MtKilledmonster => 27
  | MtFoundSecret => 28 | MtSpawnStaticSound => 29 | MtIntermission => 30 | MtFinale => 31
  | MtCdtrack => 32 | MtSellscreen => 33 | MtSmallkick => 34 | MtBigkick => 35
  | MtUpdatePing => 36 | MtUpdateEntertime => 37 | MtUpdateStatLong => 38
  | MtMuzzleflash => 39 | MtUpdateUserinfo => 40 | MtDownload => 41 | MtPlayerinfo => 42
  | MtNails => 43 | MtChokeCount => 44 | MtModellist => 45 | MtSoundlist => 46
  | MtPacketentities => 47 | MtDeltapacketentities => 48 | MtMaxspeed => 49
  | MtEntgravity => 50 | MtSetinfo => 51 | MtServerinfo => 52 | MtUpdatePl => 53
  | MtNails2 => 54 | MtFteModellistshort => 60 | MtFteSpawnbaseline2 => 66
  | MtEndOfDemo => 69 | MtQizmoVoice => 83 | MtFteVoiceChat => 84 | MtUnknown => 255
  end.

(** src/qw/prot.rs:177-192: the discriminants *)
Definition hidden_message_code (t : HiddenMessage) : N :=
  match t with
  | HmAntilagPosition => 0 | HmUsercmd => 1 | HmUsercmdWeapons => 2 | HmDemoinfo => 3
  | HmCommentaryTrack => 4 | HmCommentaryData => 5 | HmCommentaryTextSegment => 6
  | HmDmgdone => 7 | HmUsercmdWeaponsSs => 8 | HmUsercmdWeaponInstruction => 9
  | HmPausedDuration => 10 | HmExtended => 65535 | HmUnknown => 57005
  end.

(** src/qw/prot.rs:214-221: the discriminants *)
Definition print_id_code (t : PrintId) : N :=
  match t with
  | PiLow => 0 | PiMedium => 1 | PiHigh => 2 | PiChat => 3 | PiUnknown => 57005
  end.
