(** src/timezone.rs *)
From Verif.Model Require Import Base.

(** src/timezone.rs:1-207 *)
Definition UTC_OFFSET_BY_ABBR : list (str * str) := [
  (lit "ACDT", lit "+10:30");
  (lit "ACST", lit "+09:30");
  (lit "ACT", lit "+09:30");
  (lit "ACWST", lit "+08:45");
  (lit "ADT", lit "-03:00");
  (lit "AEDT", lit "+11:00");
  (lit "AEST", lit "+10:00");
  (lit "AFT", lit "+04:30");
  (lit "AKDT", lit "-08:00");
  (lit "AKST", lit "-09:00");
  (lit "ALMT", lit "+06:00");
  (lit "AMST", lit "-03:00");
  (lit "AMT", lit "+04:00");
  (lit "ANAT", lit "+12:00");
  (lit "AQTT", lit "+05:00");
  (lit "ART", lit "-03:00");
  (lit "AST", lit "+03:00");
  (lit "AST", lit "-04:00");
  (lit "AWST", lit "+08:00");
  (lit "AZOST", lit "+00:00");
  (lit "AZOT", lit "-01:00");
  (lit "AZT", lit "+04:00");
  (lit "BIOT", lit "+06:00");
  (lit "BIT", lit "-12:00");
  (lit "BNT", lit "+08:00");
  (lit "BOT", lit "-04:00");
  (lit "BRST", lit "-02:00");
  (lit "BRT", lit "-03:00");
  (lit "BST", lit "+01:00");
  (lit "BTT", lit "+06:00");
  (lit "CAT", lit "+02:00");
  (lit "CCT", lit "+06:30");
  (lit "CDT", lit "-05:00");
  (lit "CEST", lit "+02:00");
  (lit "CET", lit "+01:00");
  (lit "CHADT", lit "+13:45");
  (lit "CHAST", lit "+12:45");
  (lit "CHOST", lit "+09:00");
  (lit "CHOT", lit "+08:00");
  (lit "CHST", lit "+10:00");
  (lit "CHUT", lit "+10:00");
  (lit "CIST", lit "-08:00");
  (lit "CKT", lit "-10:00");
  (lit "CLST", lit "-03:00");
  (lit "CLT", lit "-04:00");
  (lit "COST", lit "-04:00");
  (lit "COT", lit "-05:00");
  (lit "CST", lit "-06:00");
  (lit "CVT", lit "-01:00");
  (lit "CWST", lit "+08:45");
  (lit "CXT", lit "+07:00");
  (lit "DAVT", lit "+07:00");
  (lit "DDUT", lit "+10:00");
  (lit "DFT", lit "+01:00");
  (lit "EASST", lit "-05:00");
  (lit "EAST", lit "-06:00");
  (lit "EAT", lit "+03:00");
  (lit "ECT", lit "-05:00");
  (lit "EDT", lit "-04:00");
  (lit "EEST", lit "+03:00");
  (lit "EET", lit "+02:00");
  (lit "EGST", lit "+00:00");
  (lit "EGT", lit "-01:00");
  (lit "EST", lit "-05:00");
  (lit "FET", lit "+03:00");
  (lit "FJT", lit "+12:00");
  (lit "FKST", lit "-03:00");
  (lit "FKT", lit "-04:00");
  (lit "FNT", lit "-02:00");
  (lit "GALT", lit "-06:00");
  (lit "GAMT", lit "-09:00");
  (lit "GET", lit "+04:00");
  (lit "GFT", lit "-03:00");
  (lit "GILT", lit "+12:00");
  (lit "GIT", lit "-09:00");
  (lit "GMT", lit "+00:00");
  (lit "GST", lit "-02:00");
  (lit "GYT", lit "-04:00");
  (lit "HAEC", lit "+02:00");
  (lit "HDT", lit "-09:00");
  (lit "HKT", lit "+08:00");
  (lit "HMT", lit "+05:00");
  (lit "HOVST", lit "+08:00");
  (lit "HOVT", lit "+07:00");
  (lit "HST", lit "-10:00");
  (lit "ICT", lit "+07:00");
  (lit "IDLW", lit "-12:00");
  (lit "IDT", lit "+03:00");
  (lit "IOT", lit "+06:00");
  (lit "IRDT", lit "+04:30");
  (lit "IRKT", lit "+08:00");
  (lit "IRST", lit "+03:30");
  (lit "IST", lit "+01:00");
  (lit "JST", lit "+09:00");
  (lit "KALT", lit "+02:00");
  (lit "KGT", lit "+06:00");
  (lit "KOST", lit "+11:00");
  (lit "KRAT", lit "+07:00");
  (lit "KST", lit "+09:00");
  (lit "LHST", lit "+10:30");
  (lit "LHST", lit "+11:00");
  (lit "LINT", lit "+14:00");
  (lit "MAGT", lit "+12:00");
  (lit "MART", lit "−09:30");
  (lit "MAWT", lit "+05:00");
  (lit "MDT", lit "-06:00");
  (lit "MEST", lit "+02:00");
  (lit "MET", lit "+01:00");
  (lit "MHT", lit "+12:00");
  (lit "MIST", lit "+11:00");
  (lit "MIT", lit "−09:30");
  (lit "MMT", lit "+06:30");
  (lit "MSK", lit "+03:00");
  (lit "MST", lit "-07:00");
  (lit "MUT", lit "+04:00");
  (lit "MVT", lit "+05:00");
  (lit "MYT", lit "+08:00");
  (lit "NCT", lit "+11:00");
  (lit "NDT", lit "−02:30");
  (lit "NFT", lit "+11:00");
  (lit "NOVT", lit "+07:00");
  (lit "NPT", lit "+05:45");
  (lit "NST", lit "−03:30");
  (lit "NT", lit "−03:30");
  (lit "NUT", lit "-11:00");
  (lit "NZDT", lit "+13:00");
  (lit "NZST", lit "+12:00");
  (lit "OMST", lit "+06:00");
  (lit "ORAT", lit "+05:00");
  (lit "PDT", lit "-07:00");
  (lit "PET", lit "-05:00");
  (lit "PETT", lit "+12:00");
  (lit "PGT", lit "+10:00");
  (lit "PHOT", lit "+13:00");
  (lit "PHST", lit "+08:00");
  (lit "PHT", lit "+08:00");
  (lit "PKT", lit "+05:00");
  (lit "PMDT", lit "-02:00");
  (lit "PMST", lit "-03:00");
  (lit "PONT", lit "+11:00");
  (lit "PST", lit "-08:00");
  (lit "PWT", lit "+09:00");
  (lit "PYST", lit "-03:00");
  (lit "PYT", lit "-04:00");
  (lit "RET", lit "+04:00");
  (lit "ROTT", lit "-03:00");
  (lit "SAKT", lit "+11:00");
  (lit "SAMT", lit "+04:00");
  (lit "SAST", lit "+02:00");
  (lit "SBT", lit "+11:00");
  (lit "SCT", lit "+04:00");
  (lit "SDT", lit "-10:00");
  (lit "SGT", lit "+08:00");
  (lit "SLST", lit "+05:30");
  (lit "SRET", lit "+11:00");
  (lit "SRT", lit "-03:00");
  (lit "SST", lit "+08:00");
  (lit "SYOT", lit "+03:00");
  (lit "TAHT", lit "-10:00");
  (lit "TFT", lit "+05:00");
  (lit "THA", lit "+07:00");
  (lit "TJT", lit "+05:00");
  (lit "TKT", lit "+13:00");
  (lit "TLT", lit "+09:00");
  (lit "TMT", lit "+05:00");
  (lit "TOT", lit "+13:00");
  (lit "TRT", lit "+03:00");
  (lit "TST", lit "+08:00");
  (lit "TVT", lit "+12:00");
  (lit "ULAST", lit "+09:00");
  (lit "ULAT", lit "+08:00");
  (lit "UTC", lit "+00:00");
  (lit "UYST", lit "-02:00");
  (lit "UYT", lit "-03:00");
  (lit "UZT", lit "+05:00");
  (lit "VET", lit "-04:00");
  (lit "VLAT", lit "+10:00");
  (lit "VOLT", lit "+03:00");
  (lit "VOST", lit "+06:00");
  (lit "VUT", lit "+11:00");
  (lit "WAKT", lit "+12:00");
  (lit "WAST", lit "+02:00");
  (lit "WAT", lit "+01:00");
  (lit "WEST", lit "+01:00");
  (lit "WET", lit "+00:00");
  (lit "WGST", lit "-02:00");
  (lit "WGT", lit "-03:00");
  (lit "WIB", lit "+07:00");
  (lit "WIT", lit "+09:00");
  (lit "WITA", lit "+08:00");
  (lit "WST", lit "+08:00");
  (lit "YAKT", lit "+09:00");
  (lit "YEKT", lit "+05:00") ].

(** src/timezone.rs:219-227 *)
Definition utc_offset_by_abbr (abbr : str) : option str :=
  find_map (fun '(a, o) => if beq a abbr then Some o else None) UTC_OFFSET_BY_ABBR.

(** [format!("{:0<4}", s)]: fills with '0' on the right up to four chars *)
Definition pad4 (s : str) : str := s ++ repeat x30 (4 - N.to_nat (char_count s)).

(** [s.parse::<i32>()] *)
Fixpoint all_digits (s : str) (v : Z) : option Z :=
  match s with
  | [] => Some v
  | b :: s' => if in_range b 0x30 0x39 then all_digits s' (10 * v + (Z.of_N (n_of b) - 48)) else None
  end.
Definition parse_i32 (s : str) : option Z :=
  let check o := match o with
                 | Some z => if ((-2147483648 <=? z) && (z <=? 2147483647))%Z then Some z else None
                 | None => None
                 end in
  match s with
  | [] => None
  | b :: s' =>
      if Byte.eqb b x2b then if is_empty s' then None else check (all_digits s' 0)
      else if Byte.eqb b x2d then
        if is_empty s' then None
        else check (match all_digits s' 0 with Some z => Some (- z)%Z | None => None end)
      else check (all_digits s 0)
  end.

(** src/timezone.rs:229-251.  [offset.chars().next()] is compared with two ASCII
    characters, so only the first byte matters; [offset[1..]] then starts at a boundary. *)
Definition utc_offset_by_offset (offset : str) : M (option str) :=
  match offset with
  | [] => Ret None
  | operator :: rest =>
      if Byte.eqb operator x2b || Byte.eqb operator x2d then
        let offset := pad4 (filter (fun b => negb (Byte.eqb b x3a)) rest) in
        if negb (len offset =? 4) then Ret None
        else match parse_i32 offset with
             | Some number =>
                 if ((0 <=? number) && (number <=? 1200))%Z then
                   let! hh := str_slice offset 0 2 in
                   let! mm := str_slice offset 2 4 in
                   Ret (Some ([operator] ++ hh ++ [x3a] ++ mm))
                 else Ret None
             | None => Ret None
             end
      else Ret None
  end.

(** src/timezone.rs:209-217 *)
Definition utc_offset (value : str) : M (option str) :=
  match utc_offset_by_abbr value with
  | Some o => Ret (Some o)
  | None => utc_offset_by_offset value
  end.
