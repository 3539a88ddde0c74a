(** Unit tests of the crate that read whole demo files, on the frames of those files that matter:
    for the scores the frames that open with a print of level 1, for the pings the frames that open
    with a ping update, by C79; for the statistics the bytes from 18 before the last mark on, by C70.
    The frames were selected from the files by a script.  They check the model, not a property. *)
From Verif.Model Require Import Base Env Frags Ping Ktxstats Matchdate Players Float.
From Verif.Properties Require Import Sample DemoFiles.
Open Scope string_scope.
Open Scope N_scope.
Open Scope list_scope.

Definition hex (l : list string) : bytes := concat (map (fun s => unhex (lit s)) l).

(** a byte from 0x80 on becomes the character with that number, as the expected names show *)
Definition latin (s : bytes) : str :=
  concat (map (fun b => if n_of b <? 128 then [b] else
    match Byte.of_N (0xC0 + n_of b / 64), Byte.of_N (0x80 + n_of b mod 64) with Some c, Some d => [c; d] | _, _ => [b] end) s).
Definition real (d : bool) : env :=
  let E := sample d in {|
  checked := checked E; eof_on_short_read := eof_on_short_read E; to_unicode := latin; to_utf8 := to_utf8 E;
  unicode_sort := unicode_sort E; clientinfo_from := clientinfo_from E; settings_from := settings_from E;
  ktxstats_from := ktxstats_from E; parse_datetime := parse_datetime E; to_lowercase := to_lowercase E;
  players_order := players_order E; teams_order := teams_order E; colors_order := colors_order E |}.

(** duel_holy_vs_dago[bravado]20240426-1659.mvd *)
Definition duel_holy_obituaries : bytes := hex [
    "0006350000000801e4e1e7ef20726964657320486f4c79277320726f636b65740a00092f2f6b74782064726f70203932";
    "20333220320a000e0001000006390000000801486f4c79206265636f6d657320626f7265642077697468206c6966650a";
    "00092f2f6b74782064726f7020393020333220310a000e0000000006390000000801486f4c7920776173206769626265";
    "6420627920e4e1e7ef277320726f636b65740a00092f2f6b74782064726f7020393220363420310a0000063900000008";
    "01e4e1e7ef206265636f6d657320626f7265642077697468206c6966650a00092f2f6b74782064726f70203933203332";
    "20320a000e0100000006480000000801486f4c79206163636570747320e4e1e7ef27732073686166740a00092f2f6b74";
    "782064726f7020333720363420310a00092f2f7770732031206c6720313820340a000e0101000006490000000801e4e1";
    "e7ef206163636570747320486f4c7927732073686166740a00092f2f6b74782064726f7020333720363420320a00092f";
    "2f7770732030206c672034342031350a000e0001000006310000000801e4e1e7ef20726964657320486f4c7927732072";
    "6f636b65740a00092f2f6b74782064726f7020393220333220320a000006350000000801e4e1e7ef2072696465732048";
    "6f4c79277320726f636b65740a00092f2f6b74782064726f7020333720333220320a000e0003000006350000000801e4";
    "e1e7ef20726964657320486f4c79277320726f636b65740a00092f2f6b74782064726f7020393320333220320a000e00";
    "04000006490000000801e4e1e7ef206163636570747320486f4c7927732073686166740a00092f2f6b74782064726f70";
    "20333720333220320a00092f2f7770732030206c672038372032380a000e0005000006200000000801e4e1e7ef207269";
    "64657320486f4c79277320726f636b65740a000e0006000006350000000801486f4c7920726964657320e4e1e7ef2773";
    "20726f636b65740a00092f2f6b74782064726f7020393320363420310a000e0102000006200000000801486f4c792072";
    "6964657320e4e1e7ef277320726f636b65740a000e01030000064a0000000801e4e1e7ef206163636570747320486f4c";
    "7927732073686166740a00092f2f6b74782064726f7020393420333220320a00092f2f7770732030206c672031313720";
    "34300a000e0007000006350000000801e4e1e7ef206163636570747320486f4c7927732073686166740a00092f2f7770";
    "732030206c67203132362034340a000e0008000006350000000801e4e1e7ef20726964657320486f4c79277320726f63";
    "6b65740a00092f2f6b74782064726f7020393620333220320a000e0009000006390000000801e4e1e7ef206265636f6d";
    "657320626f7265642077697468206c6966650a00092f2f6b74782064726f7020393220333220320a000e01020000063d";
    "0000000801486f4c79207761732067696262656420627920e4e1e7ef277320726f636b65740a00092f2f6b7478206472";
    "6f7020393520333220310a000e0103000006200000000801486f4c7920726964657320e4e1e7ef277320726f636b6574";
    "0a000e0104000006200000000801e4e1e7ef20726964657320486f4c79277320726f636b65740a000e000a0000062000";
    "00000801e4e1e7ef20726964657320486f4c79277320726f636b65740a000e000b000006310000000801486f4c792072";
    "6964657320e4e1e7ef277320726f636b65740a00092f2f6b74782064726f7020393220363420310a0000063400000008";
    "01486f4c79206163636570747320e4e1e7ef27732073686166740a00092f2f7770732031206c672033332031310a000e";
    "0106000006390000000801e4e1e7ef207761732067696262656420627920486f4c79277320726f636b65740a00092f2f";
    "6b74782064726f7020393420333220320a0000065c0000000801e4e1e7ef206163636570747320486f4c792773207368";
    "6166740a00092f2f6b74782064726f7020393020333220320a00092f2f7770732030206c67203138322036300a000e00";
    "0d00092f2f777073203120726c20373720330a000006200000000801486f4c7920726964657320e4e1e7ef277320726f";
    "636b65740a000e01070000064a0000000801e4e1e7ef206163636570747320486f4c7927732073686166740a00092f2f";
    "6b74782064726f7020333720363420320a00092f2f7770732030206c67203139332036340a000e000e00000636000000";
    "0801486f4c7920726964657320e4e1e7ef277320726f636b65740a00092f2f6b74782064726f70203130312036342031";
    "0a000e0108000006350000000801e4e1e7ef20726964657320486f4c79277320726f636b65740a00092f2f6b74782064";
    "726f7020393420363420320a000e000f000006240000000801e4e1e7ef207761732074656c6566726167676564206279";
    "20486f4c790a000e0010000006350000000801486f4c7920726964657320e4e1e7ef277320726f636b65740a00092f2f";
    "6b74782064726f7020393920363420310a000e0109000006200000000801486f4c7920726964657320e4e1e7ef277320";
    "726f636b65740a000e010a000006390000000801486f4c79207761732067696262656420627920e4e1e7ef277320726f";
    "636b65740a00092f2f6b74782064726f7020333720333220310a000006490000000801486f4c79206163636570747320";
    "e4e1e7ef27732073686166740a00092f2f6b74782064726f7020333720363420310a00092f2f7770732031206c672036";
    "382032320a000e010c000006310000000801486f4c7920726964657320e4e1e7ef277320726f636b65740a00092f2f6b";
    "74782064726f7020393520333220310a000006200000000801486f4c7920726964657320e4e1e7ef277320726f636b65";
    "740a000e010e000006350000000801e4e1e7ef20726964657320486f4c79277320726f636b65740a00092f2f6b747820";
    "64726f7020393520333220320a000e0011000006350000000801486f4c79206265636f6d657320626f72656420776974";
    "68206c6966650a00092f2f6b74782064726f7020393620333220310a000006390000000801e4e1e7ef20776173206769";
    "6262656420627920486f4c79277320726f636b65740a00092f2f6b74782064726f7020393720333220320a0000064700";
    "00000801e4e1e7ef20726964657320486f4c79277320726f636b65740a00092f2f6b74782064726f7020393720333220";
    "320a000e001200092f2f777073203020726c20383420390a0000064a0000000801e4e1e7ef206163636570747320486f";
    "4c7927732073686166740a00092f2f6b74782064726f7020393020333220320a00092f2f7770732030206c6720323331";
    "2037350a000e0013000006350000000801486f4c7920726964657320e4e1e7ef277320726f636b65740a00092f2f6b74";
    "782064726f7020333720363420310a000e010f0000064a0000000801e4e1e7ef206163636570747320486f4c79277320";
    "73686166740a00092f2f6b74782064726f7020393320333220320a00092f2f7770732030206c67203235362038310a00";
    "0e00140000064a0000000801e4e1e7ef206163636570747320486f4c7927732073686166740a00092f2f6b7478206472";
    "6f7020393020363420320a00092f2f7770732030206c67203237322038350a000e0015000006490000000801486f4c79";
    "206163636570747320e4e1e7ef27732073686166740a00092f2f6b74782064726f7020393220333220310a00092f2f77";
    "70732031206c672037392032380a000e0110000006490000000801486f4c79206163636570747320e4e1e7ef27732073";
    "686166740a00092f2f6b74782064726f7020393220333220310a00092f2f7770732031206c672039302033320a000e01";
    "11000006350000000801486f4c7920726964657320e4e1e7ef277320726f636b65740a00092f2f6b74782064726f7020";
    "393020333220310a000e0112000006350000000801486f4c7920726964657320e4e1e7ef277320726f636b65740a0009";
    "2f2f6b74782064726f7020393320333220310a000e0113000006360000000801486f4c79206163636570747320e4e1e7";
    "ef27732073686166740a00092f2f6b74782064726f7020393220363420310a000e0114000006350000000801486f4c79";
    "206163636570747320e4e1e7ef27732073686166740a00092f2f7770732031206c67203131332034310a000e01150000";
    "06210000000801486f4c79206163636570747320e4e1e7ef27732073686166740a000e01160000064a0000000801486f";
    "4c79206163636570747320e4e1e7ef27732073686166740a00092f2f6b74782064726f7020393020333220310a00092f";
    "2f7770732031206c67203132372034350a000e01170000064a0000000801486f4c79206163636570747320e4e1e7ef27";
    "732073686166740a00092f2f6b74782064726f7020333720333220310a00092f2f7770732031206c6720313332203436";
    "0a000e0118000006240000000801486f4c79207761732067696262656420627920e4e1e7ef277320726f636b65740a00";
    "0006510000000801e4e1e7ef207761732067696262656420627920486f4c79277320726f636b65740a00092f2f6b7478";
    "2064726f7020393020333220320a000e001600092f2f777073203020726c203134322031320a000006200000000801e4";
    "e1e7ef20726964657320486f4c79277320726f636b65740a000e0017000006280000000801e4e1e7ef20776173206769";
    "6262656420627920486f4c79277320726f636b65740a000e00180000064a0000000801486f4c79206163636570747320";
    "e4e1e7ef27732073686166740a00092f2f6b74782064726f7020393020333220310a00092f2f7770732031206c672031";
    "37362035370a000e011a0000064a0000000801486f4c79206163636570747320e4e1e7ef27732073686166740a00092f";
    "2f6b74782064726f7020333720363420310a00092f2f7770732031206c67203138392036320a000e011b0000064a0000";
    "000801486f4c79206163636570747320e4e1e7ef27732073686166740a00092f2f6b74782064726f7020333720363420";
    "310a00092f2f7770732031206c67203230342036360a000e011c000006350000000801486f4c7920726964657320e4e1";
    "e7ef277320726f636b65740a00092f2f6b74782064726f7020393020333220310a000e011d0000064a0000000801486f";
    "4c79206163636570747320e4e1e7ef27732073686166740a00092f2f6b74782064726f7020333720333220310a00092f";
    "2f7770732031206c67203232392037310a000e011e000006350000000801486f4c79206163636570747320e4e1e7ef27";
    "732073686166740a00092f2f7770732031206c67203234302037350a000e011f000006350000000801e4e1e7ef207269";
    "64657320486f4c79277320726f636b65740a00092f2f6b74782064726f7020393720333220320a000e001900" ].

(** ffa_5[dm4]20240501-1229.mvd *)
Definition ffa_obituaries : bytes := hex [
    "00062400000008012f2062726f207269646573202f20676f6c64656e626f79277320726f636b65740a0000062b000000";
    "08012f2062726f2077617320676962626564206279202f2067727565277320726f636b65740a000e0701000006420000";
    "000801746573742077617320676962626564206279202f2074696e63616e277320726f636b65740a00092f2f6b747820";
    "64726f702031363520363420320a000e06010000063900000008012f2062726f207269646573202f20676f6c64656e62";
    "6f79277320726f636b65740a00092f2f777073203520726c203520320a000e05020000064200000008012f20676f6c64";
    "656e626f792061636365707473202f2074696e63616e27732073686166740a00092f2f6b74782064726f702031353820";
    "363420360a000e0602000006360000000801746573742061636365707473202f2074696e63616e27732073686166740a";
    "00092f2f7770732036206c67203520350a000e06030000064200000008012f2074696e63616e20636865776564206f6e";
    "202f2062726f277320626f6f6d737469636b0a00092f2f6b74782064726f702031363520363420370a000e0301000006";
    "2f00000008012f2062726f20636865776564206f6e202f20676f6c64656e626f79277320626f6f6d737469636b0a000e";
    "05030000062900000008012f20676f6c64656e626f79207269646573202f2067727565277320726f636b65740a000e07";
    "020000061d00000008012f2062726f2072696465732074657374277320726f636b65740a0000063800000008012f2067";
    "7275652072696465732074657374277320726f636b65740a00092f2f6b74782064726f702031363620333220380a000e";
    "01020000062800000008012f20676f6c64656e626f79207475726e656420696e746f20686f7420736c61670a000e0502";
    "0000064400000008012f20677275652077617320676962626564206279202f2074696e63616e277320726f636b65740a";
    "00092f2f6b74782064726f702031363020333220380a000e06040000064e00000008012f2074696e63616e2061636365";
    "707473207465737427732073686166740a00092f2f6b74782064726f702031353720333220370a00092f2f7770732031";
    "206c672031342031300a000e01030000062a00000008012f2062726f20636865776564206f6e202f2067727565277320";
    "626f6f6d737469636b0a000e07030000065000000008012f2062726f2061636365707473202f20676f6c64656e626f79";
    "27732073686166740a00092f2f6b74782064726f702031363020333220340a00092f2f7770732035206c67203420330a";
    "000e05030000064300000008012f20676f6c64656e626f792077617320676962626564206279202f2067727565277320";
    "726f636b65740a00092f2f6b74782064726f702031363520363420360a0000063900000008012f206772756520747572";
    "6e656420696e746f20686f7420736c61670a00092f2f6b74782064726f702031363520333220380a000e070300000650";
    "00000008012f20676f6c64656e626f792061636365707473202f2062726f27732073686166740a00092f2f6b74782064";
    "726f702031373820363420360a00092f2f7770732033206c67203520340a000e03020000063b00000008012f20676f6c";
    "64656e626f792061636365707473202f2062726f27732073686166740a00092f2f7770732033206c6720313020390a00";
    "0e03030000063a00000008012f2062726f2061636365707473202f206772756527732073686166740a00092f2f6b7478";
    "2064726f702031353820363420340a000e07040000062d00000008012f2074696e63616e207761732067696262656420";
    "6279202f2062726f277320726f636b65740a000e03040000064e00000008012f20677275652061636365707473202f20";
    "676f6c64656e626f7927732073686166740a00092f2f6b74782064726f702031363620363420380a00092f2f77707320";
    "35206c6720313320370a0000065a00000008012f20676f6c64656e626f7920636865776564206f6e202f2074696e6361";
    "6e277320626f6f6d737469636b0a00092f2f6b74782064726f702031353720363420360a00092f2f7770732037206c67";
    "20313120330a000e06050000064b0000000801746573742061636365707473202f206772756527732073686166740a00";
    "092f2f6b74782064726f702031353820363420320a00092f2f7770732037206c6720313320350a000e07050000064f00";
    "000008012f2062726f2061636365707473202f2074696e63616e27732073686166740a00092f2f6b74782064726f7020";
    "31353820333220340a00092f2f7770732036206c672032382031360a000e06060000063d00000008012f2074696e6361";
    "6e207269646573202f20676f6c64656e626f79277320726f636b65740a00092f2f6b74782064726f7020313730203634";
    "20370a0000063b00000008012f2074696e63616e20776173206e61696c6564206279202f20676f6c64656e626f790a00";
    "092f2f7770732035206e67203220310a000e05060000062a00000008012f20676f6c64656e626f792076697369747320";
    "74686520566f6c63616e6f20476f640a000e05050000064c00000008012f20677275652061636365707473202f206272";
    "6f27732073686166740a00092f2f6b74782064726f702031353720363420380a00092f2f7770732037206c6720313620";
    "360a000e03050000063800000008012f2062726f2061636365707473207465737427732073686166740a00092f2f6b74";
    "782064726f702031353720363420340a000e01040000062400000008012f2062726f207269646573202f20676f6c6465";
    "6e626f79277320726f636b65740a0000062300000008012f2067727565207475726e656420696e746f20686f7420736c";
    "61670a000e07040000063900000008012f2062726f2061636365707473202f2074696e63616e27732073686166740a00";
    "092f2f7770732036206c672033322032300a000e06070000062900000008017465737420636865776564206f6e202f20";
    "67727565277320626f6f6d737469636b0a000e07050000064000000008012f20676f6c64656e626f7920766973697473";
    "2074686520566f6c63616e6f20476f640a00092f2f6b74782064726f702031353720333220360a000e05050000064200";
    "000008012f2074696e63616e20636865776564206f6e202f2062726f277320626f6f6d737469636b0a00092f2f6b7478";
    "2064726f702031363420333220370a000e03060000063d00000008012f20676f6c64656e626f79206163636570747320";
    "2f206772756527732073686166740a00092f2f7770732037206c672032312031300a000e070600000623000000080174";
    "6573742061636365707473202f206772756527732073686166740a000e07070000063b00000008012f20677275652064";
    "6973636f7665727320626c617374207261646975730a00092f2f6b74782064726f702031363620333220380a000e0706";
    "0000062f00000008012f20676f6c64656e626f792077617320676962626564206279202f2074696e63616e277320726f";
    "636b65740a00" ].

(** ffa_5[dm4]20240501-1229.mvd *)
Definition ffa_pings : bytes := hex [
    "0d063c00000024008e0135000024010c0035010024020c0035020024030a003503002404320035040024050a00350500";
    "24060a0035060024070a003507003051000013063c0000002400010235000024010c0035010024020c0035020024030a";
    "003503002404320035040024050a0035050024060a0035060024070a00350700300f0000130644000000240025023500";
    "0024010c0035010024020c0035020024030a003503002404320035040024050a0035050024060a0035060024070a0035";
    "070030ce9e0eae0ef9f7dbff00000d063c0000002400390235000024010c0035010024020d0035020024030a00350300";
    "2404320035040024050a0035050024060a0035060024070a00350700308500001306720000002400450235000024010c";
    "0035010024020d0035020024030a003503002404320035040024050a0035050024060a0035060024070a003507003044";
    "a39e032f005ad10e8338f6bfa50abf031bfca69e0392040f00f202ddfd10a79e0307053cdcf32f1efd3ca89e03b80415";
    "20f2361efe0f00000006380000002400500235000024010c0035010024020c0035020024030a00350300240432003504";
    "0024050a0035050024060a0035060024070a003507001406480000002400630235000024010c0035010024020d003502";
    "0024030a003503002404320035040024050a0035050024060a0035060024070a0035070030c023089af4a50ed4077bf7";
    "c6f8000013063c0000002400830235000024010c0035010024020d0035020024030a003503002404330035040024050a";
    "0035050024060a0035060024070a00350700307f000014064a00000024009a0235000024010c0035010024020d003502";
    "0024030a003503002404360035040124050a0035050024060a0035060024070a00350700303fa60ee2092efd89fea90a";
    "6c035ef400000e066600000024009a0235000024010c0035010024021b0035020024030a003503002404320035040124";
    "050a0035050024060a0035060024070a0035070030fb9d0e0b0bdef807f6a19e03000aaee603662ef786a49e031008b3";
    "77fa86a9f23e000006240011451b83f9c00000063800000024009a0235000024010c003501002402320035020024030a";
    "003503002404360035040324050a0035050024060a0035060024070a003507000d066200000024009a0235000024010c";
    "003501002402340035020024030a003503002404360035040524050a0035050024060a0035060024070a003507003067";
    "a00a220401f3a60ea6057ff446f3a70835f3a8082af3aa081ef3ab0e9a174eed52fbac0811f300000d06980000002400";
    "9a0235000024010c003501002402320035020024030a003503002404330035040424050a0035050024060a0035060024";
    "070a00350700301b9d0efe0442f49bf5a60e7f06bcfb94f4ae9e03e60392acfb01dcf1dfb00e3106bff489f5b20ec806";
    "93fbd9f4b30ecc0549f476f5b40e8f06e0fbdef4b50e030631f470f5b60e7106b3fbbdf4b70e3a05eff45af5b80e9d06";
    "b2fba9f4000010068c00000024009a0235000024010c003501002402320035020024030a003503002404340035040424";
    "050a0035050024060a0035060024070a0035070030d09d0e150521f4f3f7a70e150708fc2ff7aa0e4806b7fb34f7ac0e";
    "2e067afb13f7b00ea106d8f4e2f7b10eb2062efbfff6b30e0306baf4cef7b50edd0500f4c8f7b70efa04a2f4b2f7b90e";
    "1206affbecf600000d064c00000024009a0235000024010c003501002402320035020024030a00350300240432003504";
    "0224050a0035050024060a0035060024070a0035070030879e0e921625fab101b90efd055afb44f90000160648000000";
    "24009a0235000024010c003501002402320035020024030a003503002404320035040124050a0035050024060a003506";
    "0024070a00350700303ba19e0332178d2eeb4995f969000010067e00000024009a0235000024010c0035010024023200";
    "35020024030a003503002404320035040024050a0035050024060a0035060024070a0035070030a79f0ea00996f7d5f5";
    "a70ec909b9f7cdf5b00e920960f8bef5b140b30e350904f8bcf5b40e46fe930be5f7b50e1b03ff04c9f5b60e7409d0f7";
    "98f5000017001bfb840fb1f800063800000024009a0235000024010c003501002402320035020024030a003503002404";
    "330035040124050a0035050024060a0035060024070a003507000e066c00000024009a0235000024010c003501002402";
    "320035020024030a003503002404320035040124050a0035050024060a0035060024070a0035070030ca9f0e4409e3f6";
    "7dfda30e300dadf457f6ab0e860c1df551f6af0ed50c08f544f6b10e110db8f433f6b40e380dd5f41ff6000015065c00";
    "000024009a0235000024010c003501002402320035020024030a003503002404320035040124050a0035050024060a00";
    "35060024070a00350700307fa10ee8ff2d0806f6af0e720c6ff49ef8b10e6d0d9bf48ef8b40eef0ce9f47af800000d06";
    "3c00000024009a0235000024010e003501002402320035020024030a003503002404320035040124050a003505002406";
    "0a0035060024070a0035070030340000" ].

(** wipeout_red_vs_blue[q3dm6qw]20240406-2028.mvd *)
Definition wipeout_pings : bytes := hex [
    "0f062e00000024000e00350000240164003501002402260035020024030d0035030024049a0235040024051900350500";
    "302300000d062e00000024000d00350000240128003501002402270035020024030d0035030024049a02350400240519";
    "0035050030ef00000d062e00000024000e00350000240134003501012402260035020024030d0035030124049a023504";
    "002405190035050030bb00000d062e00000024000d00350000240129003501002402270035020024030d003503002404";
    "9a0235040024051900350500308900000d062e00000024000f00350000240132003501022402280035020024030c0035";
    "030024049a02350400240519003505003058000000064500000024000e00350000240138003501052402270035020024";
    "030c0035030024049a023504002405190035050030f0250e98fc6d0b7b0500000a00ff01000a0503b8000a00ff010000";
    "064000000024000f0035000024012b003501012402260035020024030c0035030024049a023504002405190035050030";
    "bd250e36e99c01adfc00000a05040c000a05050b0000063b00000024000e003500002401270035010024022700350200";
    "24030c0035030024049a02350400240519003505003088250e8c030807fd0300000a0310870000062e00000024000e00";
    "350000240130003501002402260035020024030d0035030024049a023504002405190035050030560000000636000000";
    "24001100350000240129003501012402280035020024030c0035030024049a023504002405190035050030252c0ed7fd";
    "0b02d904000000065a0000002400120035000024012d003501002402270035020124030d0035030024049a0235040024";
    "051a0035050030f3279e033902d5c208ef06fec5280e7e02bbf697fc2d9e03f6044c13036475ff412e9e03de011cd3ed";
    "be6e002e000000062e00000024000d0035000024012b003501022402270035020024030c0035030024049a0235040024";
    "05190035050030c1000000062e00000024000e0035000024012b003501012402260035020024030c0035030024049a02";
    "350400240519003505003090000000064b00000024000d0035000024012b003501012402260035020024030d00350300";
    "24049a0235040024051900350501305d250e78feaae5eafe270e47fb87f458052c0e4b04f9f5960600000a0527320000";
    "067200000024001400350000240129003501002402270035020024030c0035030024049a0235040024051a0035050030";
    "2c240a15eef90f250ee30578f07c072e9e03b3e9a330ea9f2e0d652f9e0340e41c0deca806107e309e035ded29f7ea8e";
    "d20dc63c0e31ff1d08d30400000a01de44000a05de440000066100000024000e00350000240128003501002402270035";
    "020024030c0035030024049a023504002405190035050030fb279e036504b167ff501600aa289e0360eec57a06ca69fc";
    "b42f9e030be4b62bf24ae1fc3700000a0501d5000a0101d5000a0501d50000062e00000024000d003500002401280035";
    "01002402270035020024030c0035030024049a023504002405190035050030c800000006330000002400110035000024";
    "0128003501002402270035020024030c0035030024049a0235040024051900350500309500000a000888000d06490000";
    "0024000e00350000240138003501042402270035020024030d0035030024049a023504002405190035050030652c9e03";
    "b4f392f1f22f07fd2200000a03044e000a0006c8000a05044e000d063d00000024000e00350000240127003501002402";
    "270035020024030c0035030024049a0235040024051900350500303300000a030347000a000802000a0503470012062e";
    "00000024000c00350000240158003501032402260035020024030c0035030024049a0235040024051a00350500300300";
    "000d062e00000024000e00350000240136003501032402260035020024030c0035030024049a02350400240519003505";
    "0030cd00000f062e00000024000d00350000240142003501012402260035020024030c0035030024049a023504002405";
    "1900350500309c00000d063600000024000e00350000240129003501002402260035020024030c0035030024049a0235";
    "040024051900350500306c2c0e62ea220405fd000000063300000024000c0035000024012f0035010124022700350200";
    "24030c0035030024049a0235040024051a00350500303a00000a021d6b0000064000000024000e003500002401270035";
    "01002402270035020024030c0035030024049a02350400240519003505003009280eb9e07222b90200000a0210c4000a";
    "0304450000062a00000024000e00350000240127003501002402270035020024030d0035030024049a02350400240519";
    "0035050000063b00000024001100350000240127003501002402260035020024030c0035030024049a02350400240519";
    "0035050030a5250e7ae5901e440800000a00140e0000064000000024000d003500002401290035010124022700350200";
    "24030d0035030024049a02350400240519003505003072250ed4e9cc15ab040000061c00116bfd7a13c00c0006420000";
    "0024000f0035000024012b003501002402260035020024030c0035030024049a02350400240519003505003040270ebc";
    "011ef614052c9e03adf81cb2f0410b0511000000062e00000024000e0035000024012700350100240226003502002403";
    "0c0035030024049a02350400240519003505003008000000063300000024000e00350000240136003501052402270035";
    "020024030c0035030024049a023504002405190035050030d200000a011a6a0000064500000024000d0035000024012a";
    "003501012402260035020024030c0035030024049a0235040024051900350500309e230ef6de3b27060300000a02ff6c";
    "000a05016c000a02016c0000063d00000024000c00350000240128003501002402270035020024030c0035030024049a";
    "0235040024051900350500306d00000a0502c9000a0202c9000a0502c90000063300000024000e0035000024012b0035";
    "01012402270035020024030c0035030024049a0235040024051900350500303a00000a0202c70000064200000024000d";
    "00350000240128003501002402260035020024030c0035030024049a02350400240519003505003008259e0335023356";
    "fcf6f5fc2b270eb2fe1fff6dfe000000062a0000002400130035000024012b003501002402270035020024030c003503";
    "0024049a02350400240519003505010d063d00000024000e00350000240128003501002402270035020024030c003503";
    "0024049a023504002405190035050030a500000a000941000a030941000a0009410010063d00000024000d0035000024";
    "0128003501012402260035020024030c0035030024049a0235040024051a00350500307200000a03093e000a00093e00";
    "0a03093e000f063d00000024000e0035000024012a003501002402270035020024030c0035030024049a023504002405";
    "1900350500304000000a030687000a000687000a030687000e062e00000024000e0035000024012a0035010324022700";
    "35020024030c0035030024049a0235040024051900350500300d000012062e00000024000c0035000024013100350102";
    "2402270035020024030c0035030024049a023504002405190035050030dc000012063600000024000e0035000024012a";
    "003501032402260035020024030c0035030024049a023504002405190035050030a9270ecade2117760f000000062e00";
    "000024000e0035000024013e003501032402260035020024030c0035030024049a023504002405190035050030770000";
    "00063a00000024000e00350000240127003501032402270035020024030c0035030024049a0235040024051900350500";
    "3044279e0340fa6e3a014a660071000000062a00000024000f00350000240169003501012402260035020024030c0035";
    "030024049a023504002405190035050000063300000024000e00350000240128003501002402260035020024030c0035";
    "030024049a023504002405190035050030df00000a050a390000063d00000024000d0035000024013400350101240227";
    "0035020024030c0035030024049a0235040024051a0035050030ad00000a03fdc0000a020295000a03fdc00000063800";
    "000024000d0035000024012a003501012402270035020024030c0035030024049a0235040024051900350500307c2540";
    "0000170355f492fee70700064000000024000d0035000024012c003501012402260035020024030c0035030024049a02";
    "35040024051900350500304a250e3b01e00630fc2740000017030c1f0df1280c00064300000024000d00350000240127";
    "003501012402270035020024030c0035030024049a02350400240519003505003019250e15063815e10c270ec80e3614";
    "ec0c00000a0103820000062e00000024000f00350000240128003501012402260035020024030c0035030024049a0235";
    "04002405190035050030e600000e063d00000024000d00350000240127003501002402260035020024030c0035030024";
    "049a0235040024051a0035050030b500000a0302fb000a0002fb000a0302fb000d062e00000024000c00350000240128";
    "003501002402260035020024030c0035030024049a0235040024051900350500304e00000e062e00000024000e003500";
    "0024012f003501022402260035020024030c0035030024049a0235040024051900350500301900000f062e0000002400";
    "0d00350000240129003501002402260035020024030d0035030024049a023504002405190035050030e900000d063600";
    "00002400110035000024012d003501002402280035020024030d0035030024049a0235040024051a0035050030b8250e";
    "84e6a3173a0f000000062e0000002400120035000024012d003501002402260035020024030d0035030024049a023504";
    "0024051900350500308400000e064500000024000d0035000024012e003501012402270035020024030c003503002404";
    "9a0235040024051a003505003052250e38e382174d0400000a000248000a030248000a000248000d063800000024000d";
    "00350000240128003501002402260035020024030c0035030024049a0235040024051900350500302000000a0000a600";
    "0a0300a60016062e00000024000d00350000240129003501002402260035020024030c0035030024049a023504002405";
    "1a0035050030ee000000062e00000024000d00350000240127003501002402260035020024030c0035030024049a0235";
    "04002405190035050030bd00000e062e00000024000d0035000024012b003501012402270035020024030c0035030024";
    "049a0235040024051900350500308c000000063600000024000d0035000024013f003501022402270035020024030c00";
    "35030024049a0235040024051900350500305a2e0e6701130f8b0f000000063a00000024000e00350000240130003501";
    "022402270035020024030c0035030024049a02350400240519003505003028289e03e9d1ad1f0d265908990000000640";
    "00000024000e003500002401310035010124022b0035020024030d0035030024049a023504002405190035050030c528";
    "0edde5650a390a00000a03f82f000a03f8300000063800000024000d0035000024014200350103240227003502002403";
    "0c0035030024049a0235040024051900350500309300000a05058d000a0301b000000653000000240012003500002401";
    "28003501002402270035020024030c0035030024049a0235040024051900350500305f250ec9e2fe1872fd279e03beed";
    "b6eb053800fc2b289e0350f7cecd053a81fc7c00000a05f8420000064000000024000e0035000024016e003501022402";
    "270035020024030c0035030024049a0235040024051900350500302b250ed81d29f51c0700000a02017b000a02017a00";
    "00062a00000024000c00350000240131003501012402260035020024030c0035030024049a0235040024051900350500";
    "0e065c00000024000e00350000240128003501002402260035020024030d0035030024049a0235040024051900350500";
    "30c82e9e03f3e000822060d200fe2f9e0398e05de2206a530209309e031ae3a58f20881c00d700000a000b87000a030b";
    "87000f063800000024000e0035000024012f003501012402260035020024030c0035030024049a023504002405190035";
    "0500309400000a000701000a03070100" ].

(** duel_holy_vs_dago[bravado]20240426-1659.mvd: the last block of statistics, and the expected text without spaces *)
Definition duel_holy_stats : bytes := hex [
    "000300000000dc110000d6110000030000007b2276657273696f6e223a20332c2264617465223a2022323032342d3034";
    "2d32362031373a30393a3239202b30323030222c226d6170223a20226272617661646f222c22686f73746e616d65223a";
    "20225155414b452e5345204b54583a3238353031222c226970223a202234362e3232372e36382e313438222c22706f72";
    "74223a2032383530312c226d6f6465223a20226475656c222c22746c223a2031302c22646d223a20332c226475726174";
    "696f6e223a203630302c2264656d6f223a20226475656c5f686f6c795f76735f6461676f5b6272617661646f5d323032";
    "34303432362d313635392e6d7664222c22706c6179657273223a205b7b22746f702d636f6c6f72223a20342c22626f74";
    "746f6d2d636f6c6f72223a20342c2270696e67223a2032352c226c6f67696e223a2022222c226e616d65223a2022486f";
    "4c79222c227465616d223a202278222c227374617473223a207b20226672616773223a2032352c202264656174687322";
    "3a2033352c2022746b223a20302c2022737061776e2d6672616773223a20362c20226b696c6c73223a2032372c202273";
    "75696369646573223a2032207d2c22646d67223a207b202274616b656e223a20373632392c2022676976656e223a2037";
    "3236352c20227465616d223a20302c202273656c66223a20313035312c20227465616d2d776561706f6e73223a20302c";
    "2022656e656d792d776561706f6e73223a20363530342c202274616b656e2d746f2d646965223a20323137207d2c2278";
    "666572524c223a20302c22786665724c47223a20302c227370726565223a207b20226d6178223a20362c202271756164";
    "223a2030207d2c22636f6e74726f6c223a203135302e3037353932382c227370656564223a207b20226d6178223a2031";
    "3030332e3937313337352c2022617667223a203333372e363631313333207d2c22776561706f6e73223a207b22736722";
    "3a207b22616363223a207b202261747461636b73223a203133382c202268697473223a203536207d2c22646561746873";
    "223a20302c227069636b757073223a207b2264726f70706564223a20392c22746f74616c2d74616b656e223a2031327d";
    "2c2264616d616765223a207b2022656e656d79223a203232342c20227465616d223a2030207d7d2c22737367223a207b";
    "22616363223a207b202261747461636b73223a2034322c202268697473223a2031207d2c226b696c6c73223a207b2022";
    "746f74616c223a20302c20227465616d223a20302c2022656e656d79223a20342c202273656c66223a2030207d2c2264";
    "6561746873223a20302c227069636b757073223a207b2274616b656e223a20392c22746f74616c2d74616b656e223a20";
    "392c22737061776e2d74616b656e223a20392c22737061776e2d746f74616c2d74616b656e223a20397d2c2264616d61";
    "6765223a207b2022656e656d79223a20342c20227465616d223a2030207d7d2c226e67223a207b226b696c6c73223a20";
    "7b2022746f74616c223a20302c20227465616d223a20302c2022656e656d79223a20332c202273656c66223a2030207d";
    "2c22646561746873223a20302c227069636b757073223a207b2274616b656e223a20312c22746f74616c2d74616b656e";
    "223a20312c22737061776e2d74616b656e223a20312c22737061776e2d746f74616c2d74616b656e223a20317d7d2c22";
    "736e67223a207b22616363223a207b202261747461636b73223a2034342c202268697473223a2031207d2c226b696c6c";
    "73223a207b2022746f74616c223a20302c20227465616d223a20302c2022656e656d79223a20342c202273656c66223a";
    "2030207d2c22646561746873223a20302c227069636b757073223a207b2264726f70706564223a20312c2274616b656e";
    "223a20392c22746f74616c2d74616b656e223a2031302c22737061776e2d74616b656e223a20392c22737061776e2d74";
    "6f74616c2d74616b656e223a20397d2c2264616d616765223a207b2022656e656d79223a2031382c20227465616d223a";
    "2030207d7d2c22676c223a207b22616363223a207b202261747461636b73223a20352c202268697473223a2030207d2c";
    "226b696c6c73223a207b2022746f74616c223a20302c20227465616d223a20302c2022656e656d79223a20342c202273";
    "656c66223a2030207d2c22646561746873223a20302c227069636b757073223a207b2274616b656e223a20372c22746f";
    "74616c2d74616b656e223a20372c22737061776e2d74616b656e223a20372c22737061776e2d746f74616c2d74616b65";
    "6e223a20377d7d2c22726c223a207b22616363223a207b202261747461636b73223a203137382c202268697473223a20";
    "31342c20227265616c223a2035322c20227669727475616c223a203532207d2c226b696c6c73223a207b2022746f7461";
    "6c223a2031372c20227465616d223a20302c2022656e656d79223a2032312c202273656c66223a2032207d2c22646561";
    "746873223a2031382c227069636b757073223a207b2264726f70706564223a2031342c2274616b656e223a2032352c22";
    "746f74616c2d74616b656e223a2033392c22737061776e2d74616b656e223a2032322c22737061776e2d746f74616c2d";
    "74616b656e223a2032327d2c2264616d616765223a207b2022656e656d79223a20333732322c20227465616d223a2030";
    "207d7d2c226c67223a207b22616363223a207b202261747461636b73223a203337322c202268697473223a2031313020";
    "7d2c226b696c6c73223a207b2022746f74616c223a20392c20227465616d223a20302c2022656e656d79223a2031322c";
    "202273656c66223a2030207d2c22646561746873223a2031352c227069636b757073223a207b2264726f70706564223a";
    "2031312c2274616b656e223a2032312c22746f74616c2d74616b656e223a2032352c22737061776e2d74616b656e223a";
    "2031392c22737061776e2d746f74616c2d74616b656e223a2031397d2c2264616d616765223a207b2022656e656d7922";
    "3a20333139372c20227465616d223a2030207d7d7d2c226974656d73223a207b226865616c74685f3135223a207b2022";
    "746f6f6b223a203134207d2c226865616c74685f3235223a207b2022746f6f6b223a203430207d2c226865616c74685f";
    "313030223a207b2022746f6f6b223a2034207d2c226761223a207b2022746f6f6b223a20362c2274696d65223a203634";
    "207d2c227961223a207b2022746f6f6b223a2031342c2274696d65223a20313734207d2c227261223a207b2022746f6f";
    "6b223a2031312c2274696d65223a20313531207d7d7d2c7b22746f702d636f6c6f72223a20342c22626f74746f6d2d63";
    "6f6c6f72223a20342c2270696e67223a2032372c226c6f67696e223a2022222c226e616d65223a20225c75303045345c";
    "75303045315c75303045375c7530304546222c227465616d223a2022726564222c227374617473223a207b2022667261";
    "6773223a2033312c2022646561746873223a2032392c2022746b223a20302c2022737061776e2d6672616773223a2032";
    "2c20226b696c6c73223a2033332c20227375696369646573223a2032207d2c22646d67223a207b202274616b656e223a";
    "20373236352c2022676976656e223a20373632392c20227465616d223a20302c202273656c66223a20313135322c2022";
    "7465616d2d776561706f6e73223a20302c2022656e656d792d776561706f6e73223a20363538392c202274616b656e2d";
    "746f2d646965223a20323530207d2c2278666572524c223a20302c22786665724c47223a20302c227370726565223a20";
    "7b20226d6178223a2031302c202271756164223a2030207d2c22636f6e74726f6c223a203230352e3132343134362c22";
    "7370656564223a207b20226d6178223a20313034332e3736373934342c2022617667223a203334322e31313031333820";
    "7d2c22776561706f6e73223a207b227367223a207b22616363223a207b202261747461636b73223a203234302c202268";
    "697473223a203231207d2c22646561746873223a20302c227069636b757073223a207b2264726f70706564223a20372c";
    "22746f74616c2d74616b656e223a20337d2c2264616d616765223a207b2022656e656d79223a2038342c20227465616d";
    "223a2030207d7d2c22737367223a207b22616363223a207b202261747461636b73223a2034322c202268697473223a20";
    "35207d2c226b696c6c73223a207b2022746f74616c223a20302c20227465616d223a20302c2022656e656d79223a2037";
    "2c202273656c66223a2030207d2c22646561746873223a20302c227069636b757073223a207b2274616b656e223a2036";
    "2c22746f74616c2d74616b656e223a20362c22737061776e2d74616b656e223a20362c22737061776e2d746f74616c2d";
    "74616b656e223a20367d2c2264616d616765223a207b2022656e656d79223a2032302c20227465616d223a2030207d7d";
    "2c226e67223a207b22616363223a207b202261747461636b73223a20342c202268697473223a2031207d2c226b696c6c";
    "73223a207b2022746f74616c223a20302c20227465616d223a20302c2022656e656d79223a20312c202273656c66223a";
    "2030207d2c22646561746873223a20302c227069636b757073223a207b2274616b656e223a20332c22746f74616c2d74";
    "616b656e223a20332c22737061776e2d74616b656e223a20332c22737061776e2d746f74616c2d74616b656e223a2033";
    "7d2c2264616d616765223a207b2022656e656d79223a20392c20227465616d223a2030207d7d2c22736e67223a207b22";
    "6b696c6c73223a207b2022746f74616c223a20302c20227465616d223a20302c2022656e656d79223a20392c20227365";
    "6c66223a2030207d2c22646561746873223a20302c227069636b757073223a207b2274616b656e223a20352c22746f74";
    "616c2d74616b656e223a20352c22737061776e2d74616b656e223a20352c22737061776e2d746f74616c2d74616b656e";
    "223a20357d7d2c22676c223a207b22616363223a207b202261747461636b73223a2031322c202268697473223a203020";
    "7d2c226b696c6c73223a207b2022746f74616c223a20302c20227465616d223a20302c2022656e656d79223a20362c20";
    "2273656c66223a2030207d2c22646561746873223a20302c227069636b757073223a207b2274616b656e223a20342c22";
    "746f74616c2d74616b656e223a20342c22737061776e2d74616b656e223a20342c22737061776e2d746f74616c2d7461";
    "6b656e223a20347d7d2c22726c223a207b22616363223a207b202261747461636b73223a203236342c20226869747322";
    "3a2031312c20227265616c223a2037352c20227669727475616c223a203735207d2c226b696c6c73223a207b2022746f";
    "74616c223a2031382c20227465616d223a20302c2022656e656d79223a2032322c202273656c66223a2032207d2c2264";
    "6561746873223a2031372c227069636b757073223a207b2264726f70706564223a2031382c2274616b656e223a203234";
    "2c22746f74616c2d74616b656e223a2033372c22737061776e2d74616b656e223a2032322c22737061776e2d746f7461";
    "6c2d74616b656e223a2032327d2c2264616d616765223a207b2022656e656d79223a20353131382c20227465616d223a";
    "2030207d7d2c226c67223a207b22616363223a207b202261747461636b73223a203237392c202268697473223a203836";
    "207d2c226b696c6c73223a207b2022746f74616c223a2031352c20227465616d223a20302c2022656e656d79223a2031";
    "382c202273656c66223a2030207d2c22646561746873223a20392c227069636b757073223a207b2264726f7070656422";
    "3a20342c2274616b656e223a2031342c22746f74616c2d74616b656e223a2031392c22737061776e2d74616b656e223a";
    "2031302c22737061776e2d746f74616c2d74616b656e223a2031307d2c2264616d616765223a207b2022656e656d7922";
    "3a20323339382c20227465616d223a2030207d7d7d2c226974656d73223a207b226865616c74685f3135223a207b2022";
    "746f6f6b223a2034207d2c226865616c74685f3235223a207b2022746f6f6b223a203332207d2c226865616c74685f31";
    "3030223a207b2022746f6f6b223a203132207d2c226761223a207b2022746f6f6b223a20362c2274696d65223a203536";
    "207d2c227961223a207b2022746f6f6b223a20362c2274696d65223a203538207d2c227261223a207b2022746f6f6b22";
    "3a2031352c2274696d65223a20323632207d7d7d5d7d000445000000092f2f66696e616c73636f726573202241707220";
    "32362c2031373a30392220226475" ].

Definition duel_holy_json : bytes := hex [
    "7b2276657273696f6e223a332c2264617465223a22323032342d30342d323631373a30393a32392b30323030222c226d";
    "6170223a226272617661646f222c22686f73746e616d65223a225155414b452e53454b54583a3238353031222c226970";
    "223a2234362e3232372e36382e313438222c22706f7274223a32383530312c226d6f6465223a226475656c222c22746c";
    "223a31302c22646d223a332c226475726174696f6e223a3630302c2264656d6f223a226475656c5f686f6c795f76735f";
    "6461676f5b6272617661646f5d32303234303432362d313635392e6d7664222c22706c6179657273223a5b7b22746f70";
    "2d636f6c6f72223a342c22626f74746f6d2d636f6c6f72223a342c2270696e67223a32352c226c6f67696e223a22222c";
    "226e616d65223a22486f4c79222c227465616d223a2278222c227374617473223a7b226672616773223a32352c226465";
    "61746873223a33352c22746b223a302c22737061776e2d6672616773223a362c226b696c6c73223a32372c2273756963";
    "69646573223a327d2c22646d67223a7b2274616b656e223a373632392c22676976656e223a373236352c227465616d22";
    "3a302c2273656c66223a313035312c227465616d2d776561706f6e73223a302c22656e656d792d776561706f6e73223a";
    "363530342c2274616b656e2d746f2d646965223a3231377d2c2278666572524c223a302c22786665724c47223a302c22";
    "7370726565223a7b226d6178223a362c2271756164223a307d2c22636f6e74726f6c223a3135302e3037353932382c22";
    "7370656564223a7b226d6178223a313030332e3937313337352c22617667223a3333372e3636313133337d2c22776561";
    "706f6e73223a7b227367223a7b22616363223a7b2261747461636b73223a3133382c2268697473223a35367d2c226465";
    "61746873223a302c227069636b757073223a7b2264726f70706564223a392c22746f74616c2d74616b656e223a31327d";
    "2c2264616d616765223a7b22656e656d79223a3232342c227465616d223a307d7d2c22737367223a7b22616363223a7b";
    "2261747461636b73223a34322c2268697473223a317d2c226b696c6c73223a7b22746f74616c223a302c227465616d22";
    "3a302c22656e656d79223a342c2273656c66223a307d2c22646561746873223a302c227069636b757073223a7b227461";
    "6b656e223a392c22746f74616c2d74616b656e223a392c22737061776e2d74616b656e223a392c22737061776e2d746f";
    "74616c2d74616b656e223a397d2c2264616d616765223a7b22656e656d79223a342c227465616d223a307d7d2c226e67";
    "223a7b226b696c6c73223a7b22746f74616c223a302c227465616d223a302c22656e656d79223a332c2273656c66223a";
    "307d2c22646561746873223a302c227069636b757073223a7b2274616b656e223a312c22746f74616c2d74616b656e22";
    "3a312c22737061776e2d74616b656e223a312c22737061776e2d746f74616c2d74616b656e223a317d7d2c22736e6722";
    "3a7b22616363223a7b2261747461636b73223a34342c2268697473223a317d2c226b696c6c73223a7b22746f74616c22";
    "3a302c227465616d223a302c22656e656d79223a342c2273656c66223a307d2c22646561746873223a302c227069636b";
    "757073223a7b2264726f70706564223a312c2274616b656e223a392c22746f74616c2d74616b656e223a31302c227370";
    "61776e2d74616b656e223a392c22737061776e2d746f74616c2d74616b656e223a397d2c2264616d616765223a7b2265";
    "6e656d79223a31382c227465616d223a307d7d2c22676c223a7b22616363223a7b2261747461636b73223a352c226869";
    "7473223a307d2c226b696c6c73223a7b22746f74616c223a302c227465616d223a302c22656e656d79223a342c227365";
    "6c66223a307d2c22646561746873223a302c227069636b757073223a7b2274616b656e223a372c22746f74616c2d7461";
    "6b656e223a372c22737061776e2d74616b656e223a372c22737061776e2d746f74616c2d74616b656e223a377d7d2c22";
    "726c223a7b22616363223a7b2261747461636b73223a3137382c2268697473223a31342c227265616c223a35322c2276";
    "69727475616c223a35327d2c226b696c6c73223a7b22746f74616c223a31372c227465616d223a302c22656e656d7922";
    "3a32312c2273656c66223a327d2c22646561746873223a31382c227069636b757073223a7b2264726f70706564223a31";
    "342c2274616b656e223a32352c22746f74616c2d74616b656e223a33392c22737061776e2d74616b656e223a32322c22";
    "737061776e2d746f74616c2d74616b656e223a32327d2c2264616d616765223a7b22656e656d79223a333732322c2274";
    "65616d223a307d7d2c226c67223a7b22616363223a7b2261747461636b73223a3337322c2268697473223a3131307d2c";
    "226b696c6c73223a7b22746f74616c223a392c227465616d223a302c22656e656d79223a31322c2273656c66223a307d";
    "2c22646561746873223a31352c227069636b757073223a7b2264726f70706564223a31312c2274616b656e223a32312c";
    "22746f74616c2d74616b656e223a32352c22737061776e2d74616b656e223a31392c22737061776e2d746f74616c2d74";
    "616b656e223a31397d2c2264616d616765223a7b22656e656d79223a333139372c227465616d223a307d7d7d2c226974";
    "656d73223a7b226865616c74685f3135223a7b22746f6f6b223a31347d2c226865616c74685f3235223a7b22746f6f6b";
    "223a34307d2c226865616c74685f313030223a7b22746f6f6b223a347d2c226761223a7b22746f6f6b223a362c227469";
    "6d65223a36347d2c227961223a7b22746f6f6b223a31342c2274696d65223a3137347d2c227261223a7b22746f6f6b22";
    "3a31312c2274696d65223a3135317d7d7d2c7b22746f702d636f6c6f72223a342c22626f74746f6d2d636f6c6f72223a";
    "342c2270696e67223a32372c226c6f67696e223a22222c226e616d65223a225c75303045345c75303045315c75303045";
    "375c7530304546222c227465616d223a22726564222c227374617473223a7b226672616773223a33312c226465617468";
    "73223a32392c22746b223a302c22737061776e2d6672616773223a322c226b696c6c73223a33332c2273756963696465";
    "73223a327d2c22646d67223a7b2274616b656e223a373236352c22676976656e223a373632392c227465616d223a302c";
    "2273656c66223a313135322c227465616d2d776561706f6e73223a302c22656e656d792d776561706f6e73223a363538";
    "392c2274616b656e2d746f2d646965223a3235307d2c2278666572524c223a302c22786665724c47223a302c22737072";
    "6565223a7b226d6178223a31302c2271756164223a307d2c22636f6e74726f6c223a3230352e3132343134362c227370";
    "656564223a7b226d6178223a313034332e3736373934342c22617667223a3334322e3131303133387d2c22776561706f";
    "6e73223a7b227367223a7b22616363223a7b2261747461636b73223a3234302c2268697473223a32317d2c2264656174";
    "6873223a302c227069636b757073223a7b2264726f70706564223a372c22746f74616c2d74616b656e223a337d2c2264";
    "616d616765223a7b22656e656d79223a38342c227465616d223a307d7d2c22737367223a7b22616363223a7b22617474";
    "61636b73223a34322c2268697473223a357d2c226b696c6c73223a7b22746f74616c223a302c227465616d223a302c22";
    "656e656d79223a372c2273656c66223a307d2c22646561746873223a302c227069636b757073223a7b2274616b656e22";
    "3a362c22746f74616c2d74616b656e223a362c22737061776e2d74616b656e223a362c22737061776e2d746f74616c2d";
    "74616b656e223a367d2c2264616d616765223a7b22656e656d79223a32302c227465616d223a307d7d2c226e67223a7b";
    "22616363223a7b2261747461636b73223a342c2268697473223a317d2c226b696c6c73223a7b22746f74616c223a302c";
    "227465616d223a302c22656e656d79223a312c2273656c66223a307d2c22646561746873223a302c227069636b757073";
    "223a7b2274616b656e223a332c22746f74616c2d74616b656e223a332c22737061776e2d74616b656e223a332c227370";
    "61776e2d746f74616c2d74616b656e223a337d2c2264616d616765223a7b22656e656d79223a392c227465616d223a30";
    "7d7d2c22736e67223a7b226b696c6c73223a7b22746f74616c223a302c227465616d223a302c22656e656d79223a392c";
    "2273656c66223a307d2c22646561746873223a302c227069636b757073223a7b2274616b656e223a352c22746f74616c";
    "2d74616b656e223a352c22737061776e2d74616b656e223a352c22737061776e2d746f74616c2d74616b656e223a357d";
    "7d2c22676c223a7b22616363223a7b2261747461636b73223a31322c2268697473223a307d2c226b696c6c73223a7b22";
    "746f74616c223a302c227465616d223a302c22656e656d79223a362c2273656c66223a307d2c22646561746873223a30";
    "2c227069636b757073223a7b2274616b656e223a342c22746f74616c2d74616b656e223a342c22737061776e2d74616b";
    "656e223a342c22737061776e2d746f74616c2d74616b656e223a347d7d2c22726c223a7b22616363223a7b2261747461";
    "636b73223a3236342c2268697473223a31312c227265616c223a37352c227669727475616c223a37357d2c226b696c6c";
    "73223a7b22746f74616c223a31382c227465616d223a302c22656e656d79223a32322c2273656c66223a327d2c226465";
    "61746873223a31372c227069636b757073223a7b2264726f70706564223a31382c2274616b656e223a32342c22746f74";
    "616c2d74616b656e223a33372c22737061776e2d74616b656e223a32322c22737061776e2d746f74616c2d74616b656e";
    "223a32327d2c2264616d616765223a7b22656e656d79223a353131382c227465616d223a307d7d2c226c67223a7b2261";
    "6363223a7b2261747461636b73223a3237392c2268697473223a38367d2c226b696c6c73223a7b22746f74616c223a31";
    "352c227465616d223a302c22656e656d79223a31382c2273656c66223a307d2c22646561746873223a392c227069636b";
    "757073223a7b2264726f70706564223a342c2274616b656e223a31342c22746f74616c2d74616b656e223a31392c2273";
    "7061776e2d74616b656e223a31302c22737061776e2d746f74616c2d74616b656e223a31307d2c2264616d616765223a";
    "7b22656e656d79223a323339382c227465616d223a307d7d7d2c226974656d73223a7b226865616c74685f3135223a7b";
    "22746f6f6b223a347d2c226865616c74685f3235223a7b22746f6f6b223a33327d2c226865616c74685f313030223a7b";
    "22746f6f6b223a31327d2c226761223a7b22746f6f6b223a362c2274696d65223a35367d2c227961223a7b22746f6f6b";
    "223a362c2274696d65223a35387d2c227261223a7b22746f6f6b223a31352c2274696d65223a3236327d7d7d5d7d" ].

(** duel_holy_vs_dago[bravado]20240426-1659.mvd: from two bytes before the date to the end of its frame *)
Definition duel_holy_date : bytes := hex [
    "08026d61746368646174653a20323032342d30342d32362031363a35393a323920434553540a000802d4" ].

(** 2on2_sf_vs_red[frobodm2]220104-0915.mvd: the clients, the deaths, the frames after a death by a team mate, and the pings *)
Definition two_on_two : bytes := hex [
    "0006640100001641003000000080550000b8000003001642004000000040440080b20080050016470034000000804d00";
    "80ca0000000016480038000000c03e00c0ee0080020016490038000000c03e0040f000800200164a003a000001404000";
    "c0e200800000164b003a00000100290040e200800000164c0033000000404000c0e200000a00164d0039000000c03f00";
    "00e100000a00164e003f000000802f0080e900000500164f0038000000c03c00c0fe000000001653002d000000003c00";
    "00ea00c005001654003800000080390080eb0000050016550038000000803b0080eb0000050016570007000000000000";
    "00000080fd001659000800000000000000000080fb00165b003a000002004b0080eb00000200165c003a000002804d00";
    "00c2008003001d002900df0001567fc01d004040df0001567fc01d405a00ff80fe567fc01d004ca0b0c003567fc01d50";
    "4b50ea4001577fc009636d6420737061776e2031303320300a000006e90200000e0000002400340035000025006cd8ac";
    "4128005c0000005c636861745c315c2a636c69656e745c657a5175616b6520373033345c626f74746f6d636f6c6f725c";
    "345c746f70636f6c6f725c305c7465616d5c3d53463d5c6e616d655c46696e616c000e01000024010a0035010025012a";
    "2b8f4128015f0000005c7465616d5c7265645c2a626f745c315c626f74746f6d636f6c6f725c345c746f70636f6c6f72";
    "5c345c736b696e5c626173655c6e616d655c3a2054696d626572000e0200002402650235020025020993a84128025e00";
    "00005c2a636c69656e745c6c69627177636c69656e7420302e315c2a737065637461746f725c315c626f74746f6d636f";
    "6c6f725c31315c746f70636f6c6f725c31325c7465616d5c6c7177635c6e616d655c5b53657276654d655d000e030000";
    "24030a00350300250335b08a412803600000005c7465616d5c3d53463d5c2a626f745c315c626f74746f6d636f6c6f72";
    "5c345c746f70636f6c6f725c305c736b696e5c626173655c6e616d655c3e204d724a757374696365000e04000024040a";
    "003504002504dd6087412804610000005c7465616d5c7265645c2a626f745c315c626f74746f6d636f6c6f725c345c74";
    "6f70636f6c6f725c345c736b696e5c626173655c6e616d655c3a2053756a6f79000e0500002405e7033505002505c91c";
    "a047280541000000000e0600002406e70335060025061f90324a280600000000000e0700002407e70335070025071f90";
    "324a280700000000000e0800002408e70335080025081f90324a280800000000000e0900002409e70335090025091f90";
    "324a280900000000000e0a0000240ae703350a00250a1f90324a280a00000000000e0b0000240be703350b00250b1f90";
    "324a280b00000000000e0c0000240ce703350c00250c1f90324a280c00000000000e0d0000240de703350d00250d1f90";
    "324a280d00000000000e0e0000240ee703350e00250e1f90324a280e00000000000e0f0000240fe703350f00250f1f90";
    "324a280f00000000000006800100000e1000002410e70335100025101f90324a281000000000000e1100002411e70335";
    "110025111f90324a281100000000000e1200002412e70335120025121f90324a281200000000000e1300002413e70335";
    "130025131f90324a281300000000000e1400002414e70335140025141f90324a281400000000000e1500002415e70335";
    "150025151f90324a281500000000000e1600002416e70335160025161f90324a281600000000000e1700002417e70335";
    "170025171f90324a281700000000000e1800002418e70335180025181f90324a281800000000000e1900002419e70335";
    "190025191f90324a281900000000000e1a0000241ae703351a00251a1f90324a281a00000000000e1b0000241be70335";
    "1b00251b1f90324a281b00000000000e1c0000241ce703351c00251c1f90324a281c00000000000e1d0000241de70335";
    "1d00251d1f90324a281d00000000000e1e0000241ee703351e00251e1f90324a281e00000000000e1f0000241fe70335";
    "1f00251f1f90324a281f00000000000006540000002a00ff0c0e0052c0f00001a42f9a6d00000b0000002a01ff0c08f8";
    "3b33f11a03fbf843cb00000b0000002a03ff0c06423c2df03f032202740a00000b0000002a04ff0c0b0f3e8cf0400336";
    "01698d00000b0000002a06270000002400330035000024010a003501002402820235020024030a0035030024040a0035";
    "0400301c00002606270000002400330035000024010a0035010024029a0235020024030a0035030024040a0035040030";
    "6a00000006230000002400340035000024010a0035010024029a0235020024030a0035030024040a0035040029062b00";
    "00002400340035000024010a0035010024029a0235020024030a0035030024040a0035040030065908c0fc000025063b";
    "000000080146696e616c207269646573203a2054696d626572277320726f636b65740a00092f2f6b74782064726f7020";
    "32303420333220310a000e0101000006230000002400330035000024010a0035010024029a0235020024030a00350300";
    "24040a0035040026063b000000080146696e616c207269646573203a2054696d626572277320726f636b65740a00092f";
    "2f6b74782064726f702032303520333220310a000e01020000062100000008013a2054696d6265722072696465732046";
    "696e616c277320726f636b65740a002806270000002400340035000024010a0035010024029a0235020024030a003503";
    "0024040a0035040030a2000000062e00000008013e204d724a75737469636520636865776564206f6e203a2054696d62";
    "6572277320626f6f6d737469636b0a002706270000002400340035000024010a0035010024029a0235020024030a0035";
    "030024040a0035040030f0000026062b0000002400340035000024010a0035010024029a0235020024030a0035030024";
    "040a00350400308b5908d2fd000028062200000008013a2053756a6f7920646973636f7665727320626c617374207261";
    "646975730a0000062700000008013e204d724a757374696365207269646573203a2054696d626572277320726f636b65";
    "740a002806350000002400330035000024010a0035010024029a0235020024030a0035030024040a0035040030d95b08";
    "0001000006da0210004b80eb000124062100000008013e204d724a75737469636520627572737420696e746f20666c61";
    "6d65730a0026064f0000002400330035000024010a0035010024029a0235020024030a0035030024040a003504003027";
    "cd0e8a4f0403c4fcce0e9f4fb802b0fccf0ea14fb30295fcd10e594ff70293fcd20e6b4fe0027bfc000028065d000000";
    "2400330035000024010a0035010024029a0235020024030a0035030024040a0035040030743a080003cc0ef94ea2031a";
    "ffd00e454f3e0208ffd30e1a507302edfed40edb4e0e03ebfed50e634f3403d6fe000006d20110804ac0c10003280641";
    "0000002400340035000024010a0035010024029a0235020024030a0035030024040a0035040030c22e0800fb5908cffd";
    "d50e444fb5033301000006720110c04580fc00fb28062b0000002400340035000024010a0035010024029a0235020024";
    "030a0035030024040a003504003010570816fe00002606270000002400330035000024010a0035010024029a02350200";
    "24030a0035030024040a00350400305e000028062300000008013a2054696d626572207669736974732074686520566f";
    "6c63616e6f20476f640a0026062f0000002400340035000024010a0035010024029a0235020024030a0035030024040a";
    "0035040030accc0ee9509dbdaf01000000063100000008013a2053756a6f79206174652032206c6f616473206f66203e";
    "204d724a7573746963652773206275636b73686f740a002806270000002400340035000024010a0035010024029a0235";
    "020024030a0035030024040a0035040030fa000025062600000008013e204d724a757374696365207669736974732074";
    "686520566f6c63616e6f20476f640a002206270000002400340035000024010a0035010024029a0235020024030a0035";
    "030024040a003504003048000026062b0000002400340035000024010a0035010024029a0235020024030a0035030024";
    "040a00350400309959085ffe000000062600000008013e204d724a757374696365207269646573203a2053756a6f7927";
    "7320726f636b65740a002606270000002400340035000024010a0035010024029a0235020024030a0035030024040a00";
    "35040030e600002206270000002400340035000024010a0035010024029a0235020024030a0035030024040a00350400";
    "3034000000062600000008013e204d724a757374696365207269646573203a2053756a6f79277320726f636b65740a00";
    "2606390000002400330035000024010a0035010024029a0235020024030a0035030024040a0035040030823d08000059";
    "08a7fd000006ea0110c04380c50000250643000000080146696e616c2077617320676962626564206279203a2054696d";
    "626572277320726f636b65740a00092f2f6b74782064726f702032303820333220310a000e0104002806270000002400";
    "340035000024010a0035010024029a0235020024030a0035030024040a0035040030d000002206270000002400380035";
    "000024010a0035010024029a0235020024030a0035030024040a003504003020000027062b0000002400310035000024";
    "010a0035010024029a0235020024030a0035030024040a0035040030725708bcff000023062700000024003000350000";
    "24010a0035010024029a0235020024030a0035030024040a0035040030c4000000063e000000080146696e616c207761";
    "73206c65616420706f69736f6e6564206279203a2054696d6265720a000e010500092f2f777073203120736720323420";
    "31380a002a063f0000002400300035000024010a0035010024029a0235020024030a0035030024040a003504003016d2";
    "9e038b454514c711d30026d69e03ed4304eeb7fb6401dd000000062700000008013a2054696d62657220726964657320";
    "3e204d724a757374696365277320726f636b65740a002206270000002400310035000024010a0035010024029a023502";
    "0024030a0035030024040a00350400306800002206270000002400310035000024010a0035010024029a023502002403";
    "0a0035030024040a0035040030bb00002b06270000002400300035000024010a0035010024029a0235020024030a0035";
    "030024040a00350400300f000021062e00000008013e204d724a7573746963652077617320676962626564206279203a";
    "2053756a6f79277320726f636b65740a002a063f0000002400300035000024010a0035010024029a0235020024030a00";
    "35030024040a003504003061d49e039c33be1fe13cf3012cd79e036e3d5840e403bc01ca000028063500000024002f00";
    "35000024010a0035010024029a0235020024030a0035030024040a0035040030b22d0800fd0000066a0110805700ff00";
    "fd00062f00000008013e204d724a7573746963652077617320676962626564206279203a2054696d626572277320726f";
    "636b65740a0027062b0000002400360035000024010a0035010024029a0235020024030a0035030024040a0035040030";
    "035708b3ff00002206270000002400310035000024010a0035010024029a0235020024030a0035030024040a00350400";
    "3054000000062c000000080146696e616c2077617320676962626564206279203a2053756a6f79277320726f636b6574";
    "0a000e04030022064f0000002400320035000024010a0035010024029a0235020024030a0035030024040a0035040030";
    "a6590870fed29e03a14447ac00f983fc3bd39e03ff4b190b028f70fa61d49e03e5471465fd4af8fd9b00002306270000";
    "002400300035000024010a0035010024029a0235020024030a0035030024040a0035040030f9000023062f0000002400";
    "2e0035000024010a0035010024029a0235020024030a0035030024040a00350400304bd00e963583d141000000230637";
    "0000002400310035000024010a0035010024029a0235020024030a0035030024040a00350400309ccd0e783a36cbac00";
    "d50eae3514ce8601000027063700000024002f0035000024010a0035010024029a0235020024030a0035030024040a00";
    "35040030eecd0e70452db75503d00e78475fc6ab0000002b062f00000008013e204d724a757374696365207761732067";
    "6962626564206279203a2054696d626572277320726f636b65740a00210629000000080146696e616c20776173207465";
    "6c656672616767656420627920686973207465616d6d6174650a00001c260000002612848000000800596f7520676574";
    "200008003235207368656c6c730008000a000962660a000006040000000e03ffff001c6a0000000802476f616c31383a";
    "205b3134372e30207673203633322e395d204576616c286974656d5f61727469666163745f73757065725f64616d6167";
    "6529203d206d61782867743d31372e332c207265737061776e3d3135382e372c20737265737061776e3d31392e36290a";
    "0000050c00000026009dffffff030200031000001d1b000000030064030214030319030632030800030a01260f011100";
    "000310162306270000002400300035000024010a0035010024029a0235020024030a0035030024040a00350400304200";
    "0022063f00000024002f0035000024010a0035010024029a0235020024030a0035030024040a003504003095d10e1a4e";
    "a6ce6501d20e204e62d54101d30e0c4fe6d7040100002a06310000002400300035000024010a0035010024029a023502";
    "0024030a0035030024040a0035040030e80000062a001297493de6c0012a06270000002400c30035001924010a003501";
    "0024029a0235020024030a0035030024040a00350400303400002406270000002400320035001f24010a003501002402";
    "9a0235020024030a0035030024040a00350400308500000006270000002400300035000324010a0035010024029a0235";
    "020024030a0035030024040a0035040030d900002c062700000008013e204d724a757374696365207269646573203a20";
    "54696d626572277320726f636b65740a002b062d0000002400310035000024010a0035010024029a0235020024030a00";
    "35030024040a00350400302acd0aad3e0b05000022062700000008013e204d724a757374696365207269646573203a20";
    "54696d626572277320726f636b65740a00290629000000080146696e616c207761732074656c65667261676765642062";
    "7920686973207465616d6d6174650a00001c260000002612848000000800596f7520676574200008003235207368656c";
    "6c730008000a000962660a000006040000000e03feff00050c00000026009dffffff030200031000001d0f0000000300";
    "6403021403031903063203101600065a000000306d22be0c0b45045e3816ef3f3c015908a3fccd8e040e805115d70000";
    "d08e040f805115d70000d18e0410805115d700000000170b8050e0d5c8000622001f805080d6c800069246001a805115";
    "d7000006230020805080d6c00026064f0000002400310035000024010a0035010024029a0235020024030a0035030024";
    "040a00350400307d590874fecd9e0351517d4bd508e104e6d09e03f0500a74d60fe205a9d19e036c5066f7d727fe0370";
    "000022062f0000002400310035000024010a0035010024029a0235020024030a0035030024040a0035040030cf250e74";
    "5017f5cb03000000062700000008013e204d724a757374696365207269646573203a2054696d626572277320726f636b";
    "65740a00230629000000080146696e616c207761732074656c656672616767656420627920686973207465616d6d6174";
    "650a00001c260000002612848000000800596f7520676574200008003235207368656c6c730008000a000962660a0000";
    "06040000000e03fdff001c6a0000000802476f616c31383a205b3137362e38207673203633322e395d204576616c2869";
    "74656d5f61727469666163745f73757065725f64616d61676529203d206d61782867743d31312e362c20726573706177";
    "6e3d3233322e352c20737265737061776e3d36302e36290a000004090000001300500052c0f0200100050c0000002600";
    "9dffffff0302000310002606550000002400300035000024010a0035010024029a0235020024030a0035030024040a00";
    "3504003022d29e033352171df1182f010cd39e03505207adf0094b0101d49e03c8510b91f01233010800000612001231";
    "4ee2d9c00026063b00000008013e204d724a757374696365207761732062727574616c697a6564206279203a2053756a";
    "6f792773207175616420726f636b65740a000e04040022062f0000002400300035000024010a0035010024029a023502";
    "0024030a0035030024040a003504003075ce0e5945d3faeb00000022062700000024002f0035000024010a0035010024";
    "029a0235020024030a0035030024040a0035040030c6000023062f00000024002f0035000024010a0035010024029a02";
    "35020024030a0035030024040a003504003019cb0eeb54bcca8503000023063700000008013e204d724a757374696365";
    "207761732062727574616c697a6564206279203a2053756a6f792773207175616420726f636b65740a00240637000000";
    "2400320035000024010a0035010024029a0235020024030a0035030024040a00350400306bd70e5f43c7f0e300da0e26";
    "43fcf45801000023063e00000008013e204d724a757374696365207269646573203a2054696d626572277320726f636b";
    "65740a00092f2f777073203120726c2034392031340a000e010b00260629000000080146696e616c207761732074656c";
    "656672616767656420627920686973207465616d6d6174650a00001c260000002612848000000800596f752067657420";
    "0008003235207368656c6c730008000a000962660a0000246a0000000802476f616c31383a205b3139312e3820767320";
    "3633322e395d204576616c286974656d5f61727469666163745f73757065725f64616d61676529203d206d6178286774";
    "3d31352e352c207265737061776e3d3233322e352c20737265737061776e3d34312e35290a000006040000000e03fcff";
    "000409000000130050404680ffe0fb000c690000000802476f616c31383a205b3139312e38207673203633322e395d20";
    "4576616c286974656d5f61727469666163745f73757065725f64616d61676529203d206d61782867743d332e382c2072";
    "65737061776e3d3233322e352c20737265737061776e3d34312e35290a0023064b0000002400310035000024010a0035";
    "010024029a0235020024030a0035030024040a0035040030bfcd9e03974540cffe2060fd07d59e032347302000293bfd";
    "05d79e033647190bff4506fd13000000062700000008013e204d724a757374696365207269646573203a2054696d6265";
    "72277320726f636b65740a0000062300000024002f0035000024010a0035010024029a0235020024030a003503002404";
    "0a003504002306390000002400310035000024010a0035010024029a0235020024030a0035030024040a003504003064";
    "cb0e3c4b64b918030000062c0011cd4e20b8c00323062400000008013a2053756a6f7920726970732046696e616c2061";
    "206e6577206f6e650a000e04060023062f00000008013e204d724a757374696365207761732067696262656420627920";
    "3a2054696d626572277320726f636b65740a000006230000002400350035000024010a0035010024029a023502002403";
    "0a0035030024040a003504002b062600000008013e204d724a75737469636520646973636f7665727320626c61737420";
    "7261646975730a0022063d0000002400300035000024010a0035010024029a0235020024030a0035030024040a003504";
    "0030595708f8ffcd0eee4ec5d36d03000006ba0258004e00e2800124062b00000024002f0035000024010a0035010024";
    "029a0235020024030a0035030024040a0035040030aa590853fc000022062e00000008013e204d724a75737469636520";
    "77617320676962626564206279203a2053756a6f79277320726f636b65740a002a0629000000080146696e616c207761";
    "732074656c656672616767656420627920686973207465616d6d6174650a00001c260000002612848000000800596f75";
    "20676574200008003235207368656c6c730008000a000962660a000006040000000e03faff0004090000001300504046";
    "80ffe0fb001c690000000802476f616c31383a205b3231312e36207673203633322e395d204576616c286974656d5f61";
    "727469666163745f73757065725f64616d61676529203d206d61782867743d372e332c207265737061776e3d3233322e";
    "352c20737265737061776e3d32332e31290a0000050c00000026009dffffff03020003100024063f0000002400320035";
    "000024010a0035010024029a0235020024030a0035030024040a0035040030fbd69e037545ed36fc172cfb00d99e031a";
    "451ca3fdbc42fb0700002606270000002400340035000024010a0035010024029a0235020024030a0035030024040a00";
    "350400304b00002906270000002400330035000024010a0035010024029a0235020024030a0035030024040a00350400";
    "309900002706230000002400340035000024010a0035010024029a0235020024030a0035030024040a00350400280623";
    "0000002400340035000024010a0035010024029a0235020024030a0035030024040a00350400" ].

(** duel_equ_vs_kaboom[povdmm4]20240422-1038.mvd: the clients, the deaths and the pings *)
Definition duel_equ_players : bytes := hex [
    "0006b0020000160100070001000000000000000000001602000700020000000000000000000016030007000300000000";
    "000000000000160400070004000000000000000000001605000700050000000000000000000016060007000600000000";
    "000000000000160700070007000000000000000000001608000700080000000000000000000016090007000900000000";
    "000000000000160a0007000a00000000000000000000160b0007000b00000000000000000000160c0007000c00000000";
    "000000000000160d0007000d00000000000000000000160e0007000e00000000000000000000160f0007000f00000000";
    "000000000000161000070010000000000000000000001611000700110000000000000000000016120007001200000000";
    "000000000000161300070013000000000000000000001614000700140000000000000000000016150007001500000000";
    "000000000000161600070016000000000000000000001617000700170000000000000000000016180007001800000000";
    "00000000000016190007001900000000000000000000161a0007001a00000000000000000000161b0007001b00000000";
    "000000000000161c0007001c00000000000000000000161d0007001d00000000000000000000161e0007001e00000000";
    "000000000000161f0007001f000000000000000000001620000700200000000000000000000016270002000000000000";
    "000000000000162800030000000000000000000000001629003600000100fe0000eb0080f900162a0004000000000000";
    "000000000000162b0005000000000000000000000000162c0036000001000e0000050080f90016310023000000000a00";
    "00ea4040fa00163200230000000002000006c040fa001633002300000000fb0000f800c0f80016340023000000801400";
    "00f880c0020009636d6420737061776e203620300a000006de0200000e0000002400190035000025005b6e1c41280001";
    "0000005c2a636c69656e745c657a5175616b6520315c67656e6465725c6d5c626f74746f6d636f6c6f725c345c746f70";
    "636f6c6f725c345c7465616d5c7265645c6e616d655c655175000e0100002401e70135010025010c6aff402801050000";
    "005c2a636c69656e745c6c69627177636c69656e7420302e315c2a737065637461746f725c315c626f74746f6d636f6c";
    "6f725c31315c746f70636f6c6f725c31325c7465616d5c6c7177635c6e616d655c5b53657276654d655d000e02000024";
    "021f003502002502570c1c412802030000005c636861745c315c2a636c69656e745c657a5175616b6520315c67656e64";
    "65725c6d5c626f74746f6d636f6c6f725c325c746f70636f6c6f725c325c6e616d655c4b6162cfcf6d000e0300002403";
    "e70335031225036b5a2244280304000000000e0400002404e703350400250400000000280400000000000e0500002405";
    "e703350500250500000000280500000000000e0600002406e703350600250600000000280600000000000e0700002407";
    "e703350700250700000000280700000000000e0800002408e703350800250800000000280800000000000e0900002409";
    "e703350900250900000000280900000000000e0a0000240ae703350a00250a00000000280a00000000000e0b0000240b";
    "e703350b00250b00000000280b00000000000e0c0000240ce703350c00250c00000000280c00000000000e0d0000240d";
    "e703350d00250d00000000280d00000000000e0e0000240ee703350e00250e00000000280e00000000000e0f0000240f";
    "e703350f00250f00000000280f00000000000e1000002410e703351000251000000000281000000000000e1100002411";
    "e703351100251100000000281100000000000e1200002412e703351200251200000000281200000000000e1300002413";
    "e703351300251300000000281300000000000e1400002414e70335140025140000000028140000000000000608010000";
    "0e1500002415e703351500251500000000281500000000000e1600002416e70335160025160000000028160000000000";
    "0e1700002417e703351700251700000000281700000000000e1800002418e70335180025180000000028180000000000";
    "0e1900002419e703351900251900000000281900000000000e1a0000241ae703351a00251a00000000281a0000000000";
    "0e1b0000241be703351b00251b00000000281b00000000000e1c0000241ce703351c00251c00000000281c0000000000";
    "0e1d0000241de703351d00251d00000000281d00000000000e1e0000241ee703351e00251e00000000281e0000000000";
    "0e1f0000241fe703351f00251f00000000281f000000000000062a0000002a00ff0c074b0581f4bdf99eedf409000007";
    "0000002a02ff0c0e801400f8c00217ff977f0000070000000d06190000002400190035000024010d0235010024021d00";
    "35020030f600001006190000002400190035000024014f023501002402320035020030ba000000061500000024001900";
    "3500002401650235010024021a0035020000064a00000008014b6162cfcf6d2061636365707473206551752773207368";
    "6166740a00092f2f6b74782064726f7020343920363420330a00092f2f7770732030206c672032372031330a000e0001";
    "000006150000002400190035000024016b0235010024021b0035020000064a0000000801655175206163636570747320";
    "4b6162cfcf6d27732073686166740a00092f2f6b74782064726f7020353220363420310a00092f2f7770732032206c67";
    "2033392031350a000e02010012061d00000024001a0035000024017f023501002402190035020030ab3302ab11000011";
    "0619000000240019003500002401810235010024021a003502003063000000064a00000008014b6162cfcf6d20616363";
    "657074732065517527732073686166740a00092f2f6b74782064726f7020353020363420330a00092f2f777073203020";
    "6c672037332032390a000e00020015061d0000002400190035000024019a023501002402190035020030202708500200";
    "0000064a00000008016551752061636365707473204b6162cfcf6d27732073686166740a00092f2f6b74782064726f70";
    "20343920333220310a00092f2f7770732032206c672038392033330a000e02020000064a00000008014b6162cfcf6d20";
    "616363657074732065517527732073686166740a00092f2f6b74782064726f7020353120363420330a00092f2f777073";
    "2030206c672038352033350a000e0003001406270000002400190035000024019a02350100240219003502003096340e";
    "010687f2fdf835065a01bbf300001406190000002400190035000024019a0235010024021900350200304f000000063e";
    "00000008016551752077617320676962626564206279204b6162cfcf6d277320726f636b65740a00092f2f6b74782064";
    "726f7020353320363420310a000e02030000063200000008014b6162cfcf6d20726964657320655175277320726f636b";
    "65740a00092f2f6b74782064726f7020353220363420330a000d063d0000002400190035000024019a02350100240219";
    "0035020030072b08ae02340ea90b01ffadf9389e03be0de93700cf39f8d0399e03ae12149fff3f87fb97000014062300";
    "000024001a0035000024019a023501002402190035020030c10000065a0158000ec00240fc00064b0000000801655175";
    "2061636365707473204b6162cfcf6d27732073686166740a00092f2f6b74782064726f7020353020363420310a00092f";
    "2f7770732032206c67203133372035340a000e02040013062100000024001a0035000024019a0235010024021a003502";
    "00307c3a0e350ae0fcadfa000000064b00000008014b6162cfcf6d20616363657074732065517527732073686166740a";
    "00092f2f6b74782064726f7020353120363420330a00092f2f7770732030206c67203134382036300a000e0005000006";
    "150000002400190035000024019a023501002402190035020000063e0000000801655175207761732067696262656420";
    "6279204b6162cfcf6d277320726f636b65740a00092f2f6b74782064726f7020353920333220310a000e020500000649";
    "0000002400190035000024019a023501002402190035020030f8220844fa390e9a0a33fc66f93c9e03b10ba73cece404";
    "fb283d9e03fa11c061f62eb6f96e3e9e030b0cd775f16f6bf82f00000d06210000002400190035000024019a02350100";
    "2402190035020030b3360e740afcee43fe00001406190000002400190035000024019a02350100240219003502003071";
    "000000064b00000008016551752061636365707473204b6162cfcf6d27732073686166740a00092f2f6b74782064726f";
    "7020343920333220310a00092f2f7770732032206c67203230312038300a000e02060000064b00000008014b6162cfcf";
    "6d20616363657074732065517527732073686166740a00092f2f6b74782064726f7020353120363420330a00092f2f77";
    "70732030206c67203137322036390a000e0006000d06190000002400190035000024019a023501002402190035020030";
    "eb00000006380000000801655175206265636f6d657320626f7265642077697468206c6966650a00092f2f6b74782064";
    "726f7020353620333220310a000e0005000d061d0000002400190035000024019a023501002402190035020030a43302";
    "070e000000064b00000008014b6162cfcf6d20616363657074732065517527732073686166740a00092f2f6b74782064";
    "726f7020353220333220330a00092f2f7770732030206c67203230322038310a000e0006000f06190000002400190035";
    "000024019a02350100240219003502003063000000064c00000008016551752061636365707473204b6162cfcf6d2773";
    "2073686166740a00092f2f6b74782064726f7020353120333220310a00092f2f7770732032206c672032353820313030";
    "0a000e0207001306190000002400190035000024019a0235010024021a0035020030df000000064b00000008014b6162";
    "cfcf6d20616363657074732065517527732073686166740a00092f2f6b74782064726f7020333720363420330a00092f";
    "2f7770732030206c67203232322038350a000e00070013062100000024001a0035000024019a0235010024021a003502";
    "00309f250e6205aaefacf900001406210000002400190035000024019a0235010024021a00350200305a350eb4fd67f8";
    "02f8000000064c00000008016551752061636365707473204b6162cfcf6d27732073686166740a00092f2f6b74782064";
    "726f7020353020333220310a00092f2f7770732032206c6720323932203131330a000e0208000e061900000024001900";
    "35000024019a0235010024021a003502003016000000064b00000008014b6162cfcf6d20616363657074732065517527";
    "732073686166740a00092f2f6b74782064726f7020353120363420330a00092f2f7770732030206c6720323537203937";
    "0a000e0008001406210000002400190035000024019a023501002402190035020030d2330ee103dcf50bf90000000637";
    "000000080165517520646973636f7665727320626c617374207261646975730a00092f2f6b74782064726f7020353320";
    "333220310a000e00070013062100000024001a0035000024019a0235010024021900350200308f360e290657f637f800";
    "0013061d0000002400190035000024019a0235010024021900350200304c27087000000000064c000000080165517520";
    "61636365707473204b6162cfcf6d27732073686166740a00092f2f6b74782064726f7020353120363420310a00092f2f";
    "7770732032206c6720333636203134320a000e02090000064c00000008014b6162cfcf6d206163636570747320655175";
    "27732073686166740a00092f2f6b74782064726f7020353420363420330a00092f2f7770732030206c67203238302031";
    "30370a000e00080014062100000024001a0035000024019a0235010024021a00350200300b360ec00b9cfe3ff9000000";
    "064c00000008016551752061636365707473204b6162cfcf6d27732073686166740a00092f2f6b74782064726f702035";
    "3220363420310a00092f2f7770732032206c6720333831203134380a000e020a000e061f000000240019003500002401";
    "9a02350100240219003502003082350c7e02c0fa000000064c00000008014b6162cfcf6d206163636570747320655175";
    "27732073686166740a00092f2f6b74782064726f7020353320363420330a00092f2f7770732030206c67203332342031";
    "32330a000e0009001406190000002400190035000024019a0235010024021a00350200303f00000d0621000000240019";
    "0035000024019a023501002402190035020030fb320e4f0244f6f6f8000000064c00000008014b6162cfcf6d20616363";
    "657074732065517527732073686166740a00092f2f6b74782064726f7020353120333220330a00092f2f777073203020";
    "6c6720333436203133330a000e000a000006360000000801655175207269646573204b6162cfcf6d277320726f636b65";
    "740a00092f2f6b74782064726f7020353420363420310a000e020b000d06190000002400190035000024019a02350100";
    "24021a0035020030b800000d06190000002400190035000024019a02350100240219003502003074000000064c000000";
    "08014b6162cfcf6d20616363657074732065517527732073686166740a00092f2f6b74782064726f7020353020363420";
    "330a00092f2f7770732030206c6720333730203134310a000e000b000d06230000002400190035000024019a02350100";
    "2402190035020030320000061c0011b1fbd6f7c0f800063e00000008016551752077617320676962626564206279204b";
    "6162cfcf6d277320726f636b65740a00092f2f6b74782064726f7020353320333220310a000e020c0000061500000024";
    "00190035000024019a02350100240219003502001006230000002400190035000024019a0235010024021a0035020030";
    "a8324000001703810c85f407f800064c00000008016551752061636365707473204b6162cfcf6d27732073686166740a";
    "00092f2f6b74782064726f7020353120363420310a00092f2f7770732032206c6720343935203138390a000e020d0000";
    "064c00000008014b6162cfcf6d20616363657074732065517527732073686166740a00092f2f6b74782064726f702035";
    "3220363420330a00092f2f7770732030206c6720343132203135370a000e000c000d062100000024001a003500002401";
    "9a02350100240219003502003065340e560ef0f63ff900000d061900000024001a0035000024019a0235010024021900";
    "3502003020000000064c00000008014b6162cfcf6d20616363657074732065517527732073686166740a00092f2f6b74";
    "782064726f7020353020363420330a00092f2f7770732030206c6720343532203137300a000e000d0017062100000024";
    "00190035000024019a0235010024021c0035020030da320eda0c9afe6af900000f062100000024001a0035000024019a";
    "0235010024021900350200309c250eb8027cf5def800000006360000000801655175207269646573204b6162cfcf6d27";
    "7320726f636b65740a00092f2f6b74782064726f7020333720363420310a000e020e000d062100000024001900350000";
    "24019a02350100240219003502003062340e9dff41f7dcf8000000064c00000008014b6162cfcf6d2061636365707473";
    "2065517527732073686166740a00092f2f6b74782064726f7020353220363420330a00092f2f7770732030206c672034";
    "3836203138310a000e000e000d06210000002400190035000024019a0235010024021900350200302b250e020ea6f972";
    "00000000064c00000008016551752061636365707473204b6162cfcf6d27732073686166740a00092f2f6b7478206472";
    "6f7020333720363420310a00092f2f7770732032206c6720353738203231340a000e020f001506210000002400190035";
    "000024019a023501002402190035020030a4250e0b049cfb85f800001206190000002400190035000024019a02350100";
    "240219003502003063000000064c00000008014b6162cfcf6d20616363657074732065517527732073686166740a0009";
    "2f2f6b74782064726f7020353120363420330a00092f2f7770732030206c6720353136203138380a000e000f000d0619";
    "0000002400190035000024019a0235010024021a00350200301c000000064c0000000801655175206163636570747320";
    "4b6162cfcf6d27732073686166740a00092f2f6b74782064726f7020353120363420310a00092f2f7770732032206c67";
    "20363231203232370a000e02100012061d0000002400190035000024019a023501002402190035020030d62b08f30100";
    "000d06210000002400190035000024019a02350100240219003502003091340ee2063ffab6fa000000064c0000000801";
    "6551752061636365707473204b6162cfcf6d27732073686166740a00092f2f6b74782064726f7020353220333220310a";
    "00092f2f7770732032206c6720363538203233360a000e0211000d062900000024001a0035000024019a023501002402";
    "1900350200304d320e360c11f278f9340e831283ef54f9000000064c00000008014b6162cfcf6d206163636570747320";
    "65517527732073686166740a00092f2f6b74782064726f7020353320363420330a00092f2f7770732030206c67203536";
    "31203231300a000e0010001506150000002400190035000024019a0235010024021a003502000d061900000024001900";
    "35000024019a023501002402190035020030c1000000064c00000008014b6162cfcf6d20616363657074732065517527";
    "732073686166740a00092f2f6b74782064726f7020353020363420330a00092f2f7770732030206c6720363039203232";
    "370a000e0011001406150000002400190035000024019a023501002402190035020000064c0000000801655175206163";
    "6365707473204b6162cfcf6d27732073686166740a00092f2f6b74782064726f7020353420333220310a00092f2f7770";
    "732032206c6720373030203235300a000e0212000d06210000002400190035000024019a023501002402190035020030";
    "3c380eed06faf73a0300000d06210000002400190035000024019a023501002402190035020030f9250e000e5bf0f4f9";
    "000000064c00000008014b6162cfcf6d20616363657074732065517527732073686166740a00092f2f6b74782064726f";
    "7020333720363420330a00092f2f7770732030206c6720363335203233340a000e0012000d061900000024001a003500";
    "0024019a0235010024021a0035020030b7000000064c00000008016551752061636365707473204b6162cfcf6d277320";
    "73686166740a00092f2f6b74782064726f7020343920363420310a00092f2f7770732032206c6720373536203236340a";
    "000e0213000d06210000002400190035000024019a02350100240219003502003074320ede0117efbdfa000000064c00";
    "000008014b6162cfcf6d20616363657074732065517527732073686166740a00092f2f6b74782064726f702035302036";
    "3420330a00092f2f7770732030206c6720363635203235300a000e0013000006150000002400190035000024019a0235";
    "0100240219003502000006150000002400190035000024019a0235010024021a0035020000064c000000080165517520";
    "61636365707473204b6162cfcf6d27732073686166740a00092f2f6b74782064726f7020353020363420310a00092f2f";
    "7770732032206c6720373938203237340a000e0214000d061900000024001a0035000024019a02350100240219003502";
    "0030aa00001706190000002400190035000024019a0235010024021900350200306b00000d0619000000240019003500";
    "0024019a0235010024021900350200302f0000" ].

(** src/frags.rs:157-163, 179-189 *)
Definition scores_are (r : M (list (str * Z))) (l : list (string * Z)) : bool :=
  match r with
  | Ret t => (len t =? len l) && forallb (fun p => Z.eqb (aget_or beq (lit (fst p)) (-1000)%Z t) (snd p)) l
  | _ => false
  end.
Example test_frags_duel_holy : scores_are (frags_per_player_name (real true) duel_holy_obituaries) [("HoLy", 25%Z); ("äáçï", 31%Z)] = true.
Proof. vm_compute; reflexivity. Qed.
Example test_frags_ffa : scores_are (frags_per_player_name (real true) ffa_obituaries)
  [("test", 4%Z); ("/ bro", 6%Z); ("/ goldenboy", 5%Z); ("/ tincan", 8%Z); ("/ grue", 6%Z)] = true.
Proof. vm_compute; reflexivity. Qed.

(** src/ping.rs:114-123, 125-136 *)
Definition pings_are (r : M (result (list (N * N)))) (l : list (N * N)) : bool :=
  match r with Ret (Ok t) => forallb (fun p => aget_or N.eqb (fst p) 1000000 t =? snd p) l | _ => false end.
Example test_pings_ffa : pings_are (ping_per_player_number (real true) ffa_pings)
  [(0, 557); (1, 12); (2, 12); (3, 10); (4, 50); (5, 10); (6, 10); (7, 10)] = true.
Proof. vm_compute; reflexivity. Qed.
Example test_pings_wipeout : pings_are (ping_per_player_number (real true) wipeout_pings)
  [(0, 14); (1, 52); (2, 38); (3, 12); (4, 666); (5, 25)] = true.
Proof. vm_compute; reflexivity. Qed.

(** src/ktxstats.rs:79-85 *)
Definition strip (s : bytes) : bytes := filter (fun b => negb (Byte.eqb b x20 || Byte.eqb b x0a || Byte.eqb b x09 || Byte.eqb b x0d)) s.
Example test_ktxstats_duel_holy : 
  match ktxstats_string (real true) duel_holy_stats with Ret (Ok s) => beq (strip s) duel_holy_json | _ => false end = true.
Proof. vm_compute; reflexivity. Qed.

(** src/matchdate.rs:136-142 *)
Example test_matchdate_duel_holy : matchdate_string duel_holy_date = Ret (Ok (lit "2024-04-26 16:59:29 CEST")).
Proof. vm_compute. reflexivity. Qed.

(** src/players.rs:112-198 *)
Definition person (name team : string) (c d : N) (frags : Z) (ping : N) (bot : bool) : Player :=
  mkPlayer (lit name) (lit team) (c, d) frags ping bot None None.
Example test_players_2on2 : players_from_parsing (real true) two_on_two = Ret (Ok
  [ person ": Timber" "red" 4 4 13 10 true; person ": Sujoy" "red" 4 4 7 10 true;
    person "Final" "=SF=" 0 4 1 51 false; person "> MrJustice" "=SF=" 0 4 (-5) 10 true ]).
Proof. vm_compute. reflexivity. Qed.
Example test_players_duel_equ : players_from_parsing (real true) duel_equ_players = Ret (Ok
  [ person "KabÏÏm" "" 2 2 20 29 false; person "eQu" "red" 4 4 19 25 false ]).
Proof. vm_compute. reflexivity. Qed.
