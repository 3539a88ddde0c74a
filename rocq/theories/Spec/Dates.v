(** Calendar dates, times of day and time zones. *)
From Verif.Model Require Import Base.
From Verif.Spec Require Import Occ Mvd Texts Utf8.

(** ** The proleptic Gregorian calendar *)
Definition leap (y : N) : bool := (y mod 4 =? 0) && (negb (y mod 100 =? 0) || (y mod 400 =? 0)).
Definition year_days (y : N) : Z := if leap y then 366%Z else 365%Z.
Definition month_days (y m : N) : N :=
  if m =? 2 then (if leap y then 29 else 28)
  else if (m =? 4) || (m =? 6) || (m =? 9) || (m =? 11) then 30 else 31.

Record moment := mkMoment { mo_year : N; mo_month : N; mo_day : N; mo_hour : N; mo_minute : N; mo_second : N }.

Definition valid_moment (m : moment) : Prop :=
  mo_year m < 10000 /\ 1 <= mo_month m <= 12 /\ 1 <= mo_day m <= month_days (mo_year m) (mo_month m) /\
  mo_hour m < 24 /\ mo_minute m < 60 /\ mo_second m < 60.

Fixpoint zsum (l : list Z) : Z := match l with [] => 0%Z | x :: l' => (x + zsum l')%Z end.

(** days from 0000-01-01 to the given date *)
Definition days (y m d : N) : Z :=
  (zsum (map (fun i => year_days (N.of_nat i)) (seq 0 (N.to_nat y)))
   + zsum (map (fun i => Z.of_N (month_days y (N.of_nat i))) (seq 1 (N.to_nat m - 1)))
   + Z.of_N d - 1)%Z.

(** seconds since 1970-01-01 00:00:00, both in the same time zone *)
Definition seconds (m : moment) : Z :=
  (86400 * (days (mo_year m) (mo_month m) (mo_day m) - days 1970 1 1)
   + 3600 * Z.of_N (mo_hour m) + 60 * Z.of_N (mo_minute m) + Z.of_N (mo_second m))%Z.

(** ** Texts *)
Definition char_of (d : N) : byte := byte_of (48 + d).
Definition two_digits (n : N) : bytes := [char_of (n / 10 mod 10); char_of (n mod 10)].
Definition four_digits (n : N) : bytes :=
  [char_of (n / 1000 mod 10); char_of (n / 100 mod 10); char_of (n / 10 mod 10); char_of (n mod 10)].

(** yyyy-mm-dd hh:mm:ss *)
Definition moment_text (m : moment) : bytes :=
  four_digits (mo_year m) ++ lit "-" ++ two_digits (mo_month m) ++ lit "-" ++ two_digits (mo_day m)
  ++ lit " " ++ two_digits (mo_hour m) ++ lit ":" ++ two_digits (mo_minute m) ++ lit ":" ++ two_digits (mo_second m).

(** a distance from UTC in minutes as +hh:mm, with [minus] as the minus sign *)
Definition offset_text (minus : bytes) (min : Z) : bytes :=
  (if (min <? 0)%Z then minus else lit "+")
  ++ two_digits (Z.abs_N min / 60) ++ lit ":" ++ two_digits (Z.abs_N min mod 60).

(** hyphen, and U+2212 *)
Definition minus_signs : list bytes := [lit "-"; encode_char 0x2212].

(** ** Time zones: abbreviation and distance from UTC in minutes.  Abbreviations in use for
    several zones stand for one of them. *)
Open Scope string_scope.
Definition zones : list (string * Z) := [
  ("ACDT", 630); ("ACST", 570); ("ACT", 570); ("ACWST", 525); ("ADT", -180); ("AEDT", 660);
  ("AEST", 600); ("AFT", 270); ("AKDT", -480); ("AKST", -540); ("ALMT", 360); ("AMST", -180);
  ("AMT", 240); ("ANAT", 720); ("AQTT", 300); ("ART", -180); ("AST", 180); ("AWST", 480);
  ("AZOST", 0); ("AZOT", -60); ("AZT", 240); ("BIOT", 360); ("BIT", -720); ("BNT", 480);
  ("BOT", -240); ("BRST", -120); ("BRT", -180); ("BST", 60); ("BTT", 360); ("CAT", 120);
  ("CCT", 390); ("CDT", -300); ("CEST", 120); ("CET", 60); ("CHADT", 825); ("CHAST", 765);
  ("CHOST", 540); ("CHOT", 480); ("CHST", 600); ("CHUT", 600); ("CIST", -480); ("CKT", -600);
  ("CLST", -180); ("CLT", -240); ("COST", -240); ("COT", -300); ("CST", -360); ("CVT", -60);
  ("CWST", 525); ("CXT", 420); ("DAVT", 420); ("DDUT", 600); ("DFT", 60); ("EASST", -300);
  ("EAST", -360); ("EAT", 180); ("ECT", -300); ("EDT", -240); ("EEST", 180); ("EET", 120);
  ("EGST", 0); ("EGT", -60); ("EST", -300); ("FET", 180); ("FJT", 720); ("FKST", -180);
  ("FKT", -240); ("FNT", -120); ("GALT", -360); ("GAMT", -540); ("GET", 240); ("GFT", -180);
  ("GILT", 720); ("GIT", -540); ("GMT", 0); ("GST", -120); ("GYT", -240); ("HAEC", 120);
  ("HDT", -540); ("HKT", 480); ("HMT", 300); ("HOVST", 480); ("HOVT", 420); ("HST", -600);
  ("ICT", 420); ("IDLW", -720); ("IDT", 180); ("IOT", 360); ("IRDT", 270); ("IRKT", 480);
  ("IRST", 210); ("IST", 60); ("JST", 540); ("KALT", 120); ("KGT", 360); ("KOST", 660);
  ("KRAT", 420); ("KST", 540); ("LHST", 630); ("LINT", 840); ("MAGT", 720); ("MART", -570);
  ("MAWT", 300); ("MDT", -360); ("MEST", 120); ("MET", 60); ("MHT", 720); ("MIST", 660);
  ("MIT", -570); ("MMT", 390); ("MSK", 180); ("MST", -420); ("MUT", 240); ("MVT", 300);
  ("MYT", 480); ("NCT", 660); ("NDT", -150); ("NFT", 660); ("NOVT", 420); ("NPT", 345);
  ("NST", -210); ("NT", -210); ("NUT", -660); ("NZDT", 780); ("NZST", 720); ("OMST", 360);
  ("ORAT", 300); ("PDT", -420); ("PET", -300); ("PETT", 720); ("PGT", 600); ("PHOT", 780);
  ("PHST", 480); ("PHT", 480); ("PKT", 300); ("PMDT", -120); ("PMST", -180); ("PONT", 660);
  ("PST", -480); ("PWT", 540); ("PYST", -180); ("PYT", -240); ("RET", 240); ("ROTT", -180);
  ("SAKT", 660); ("SAMT", 240); ("SAST", 120); ("SBT", 660); ("SCT", 240); ("SDT", -600);
  ("SGT", 480); ("SLST", 330); ("SRET", 660); ("SRT", -180); ("SST", 480); ("SYOT", 180);
  ("TAHT", -600); ("TFT", 300); ("THA", 420); ("TJT", 300); ("TKT", 780); ("TLT", 540);
  ("TMT", 300); ("TOT", 780); ("TRT", 180); ("TST", 480); ("TVT", 720); ("ULAST", 540);
  ("ULAT", 480); ("UTC", 0); ("UYST", -120); ("UYT", -180); ("UZT", 300); ("VET", -240);
  ("VLAT", 600); ("VOLT", 180); ("VOST", 360); ("VUT", 660); ("WAKT", 720); ("WAST", 120);
  ("WAT", 60); ("WEST", 60); ("WET", 0); ("WGST", -120); ("WGT", -180); ("WIB", 420);
  ("WIT", 540); ("WITA", 480); ("WST", 480); ("YAKT", 540); ("YEKT", 300) ]%Z.
Close Scope string_scope.

(** these are written with U+2212 *)
Definition long_minus : list string := ["MART"; "MIT"; "NDT"; "NST"; "NT"]%string.

(** [z] names the zone [min] minutes ahead of UTC: by abbreviation, or as sign and hours, with
    or without minutes, with or without colon, not more than 12 hours. *)
Definition numeric_zone (z : bytes) (min : Z) : Prop :=
  exists neg h m,
    100 * h + m <= 1200 /\ m < 60 /\
    min = (if neg : bool then - Z.of_N (60 * h + m) else Z.of_N (60 * h + m))%Z /\
    let sign := if neg then lit "-" else lit "+" in
    (z = sign ++ two_digits h ++ two_digits m \/
     z = sign ++ two_digits h ++ lit ":" ++ two_digits m \/
     (m = 0 /\ z = sign ++ two_digits h)).
Definition named_zone (z : bytes) (min : Z) : Prop := exists a, In (a, min) zones /\ z = lit a.

(** the minus sign in the offset that stands for the zone *)
Definition minus_of (z : bytes) (minus : bytes) : Prop :=
  ((exists a, In a long_minus /\ z = lit a) /\ minus = encode_char 0x2212) \/
  (~ (exists a, In a long_minus /\ z = lit a) /\ minus = lit "-").

(** Everything that is taken for a numeric offset: a sign, then four characters once colons are
    dropped and missing ones are filled up with zeros; the four are digits up to 1200, or a
    second plus sign and three digits, or a minus sign and three zeros. *)
Definition is_digit (b : byte) : Prop := exists d, d < 10 /\ b = char_of d.
Definition offset_reads (z o : bytes) : Prop :=
  exists sign t zeros a b c d,
    (sign = x2b \/ sign = x2d) /\ z = sign :: t /\
    filter (fun x => negb (Byte.eqb x x3a)) t ++ repeat x30 zeros = [a; b; c; d] /\
    o = [sign; a; b; x3a; c; d] /\
    ((exists n, n <= 1200 /\ [a; b; c; d] = four_digits n) \/
     (a = x2b /\ is_digit b /\ is_digit c /\ is_digit d) \/
     [a; b; c; d] = lit "-000").

(** ** Match dates *)
Definition matchdate_mark : bytes := x08 :: x02 :: lit "matchdate: ".
Definition has_matchdate (data text : bytes) : Prop :=
  (exists from, stands_between data matchdate_mark [x0a] text from) /\
  22 <= len text <= 25 /\ utf8_text text.
