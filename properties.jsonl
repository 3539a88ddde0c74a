{"id": "C01", "title": "Every API function terminates", "statement": "No public function loops forever: on every byte slice, each public function either returns or panics after a number of loop iterations bounded by the length of the input (plus a constant).", "quantifier": "all byte slices shorter than 2^63 bytes (the bound matters for the embedded stats only), all public functions, both overflow-check profiles", "why_tests_cant": "A test only shows termination on the inputs it runs; a loop that fails to advance on one odd frame header, message or client block would hang on data no test contains.", "anchors": ["src/prints.rs:prints", "src/frags.rs:frags_per_player_name", "src/flags.rs:flag_events_per_player_name", "src/ping.rs:ping_per_player_number", "src/duration.rs:duration_until_offset", "src/ktxstats.rs:ktxstats_string", "src/clientinfo.rs:clientinfo_strings", "src/qw/frame.rs:Info::from_data_and_index"]}
{"id": "C02", "title": "prints returns exactly the leading print messages of a well-formed demo", "statement": "For a byte stream that is the MVD encoding of a list of frames (followed by nothing, or by an incomplete header), prints() returns, in stream order, every print message that stands at the start of a frame body or directly after another such print message, with its level and its exact text bytes, leaving out empty texts and collapsing runs of consecutive equal prints to one.", "quantifier": "all lists of well-formed frames of any number and size, all print levels and texts", "why_tests_cant": "The set of streams is unbounded; fixture demos cover a handful of servers and never exercise every header kind, body size or message mix.", "anchors": ["src/prints.rs:prints", "src/qw/frame.rs:Info::from_data_and_index", "src/qw/message/print.rs:ReadPrint::read_print", "src/qw/primitives.rs:ReadPrimitives::read_bstring"]}
{"id": "C03", "title": "Shape of every prints result", "statement": "Whatever the input, every print returned by prints() has a non-empty text without a NUL byte, no two adjacent prints are equal, and every one of them occurs literally in the input as 0x08, level byte, text, 0x00.", "quantifier": "all byte slices on which prints returns", "why_tests_cant": "Needs to hold for arbitrary, also corrupted, input; examples only sample it.", "anchors": ["src/prints.rs:prints", "src/qw/message/print.rs:ReadPrint::read_print"]}
{"id": "C04", "title": "Exact behaviour of the frame walk on arbitrary bytes", "statement": "Every byte slice splits uniquely into a maximal sequence of complete frames and a rest; prints() returns the prints of those frames when the rest is shorter than a frame header or declares a frame larger than the whole input, and panics exactly when the rest is a frame that overruns the end of the data but is not larger than the whole input.", "quantifier": "all byte slices", "why_tests_cant": "Deciding when a panic occurs needs all possible truncations and corruptions, not a sample.", "anchors": ["src/qw/frame.rs:Info::from_data_and_index", "src/prints.rs:prints"]}
{"id": "C05", "title": "Truncated demos", "statement": "Cutting a well-formed demo off inside a frame header, or so that less data than the size of the cut frame is left, leaves prints(), flag_events_per_player_name() and ping_per_player_number() as they are for the complete frames (and frags_per_player_name() too, if the client list is the same). Any other cut inside a frame makes prints(), flag_events_per_player_name() and frags_per_player_name() panic, and ping_per_player_number() too unless eight frames with pings precede the cut; demo_duration() panics exactly if the cut frame starts before the end marker.", "quantifier": "all well-formed demos and all cut positions", "why_tests_cant": "The crash depends on where the cut falls relative to the last frame, for every demo.", "anchors": ["src/qw/frame.rs:Info::from_data_and_index", "src/prints.rs:prints", "src/duration.rs:duration_until_offset"]}
{"id": "C06", "title": "demo_duration adds up the frame times before the end marker", "statement": "On a well-formed demo, demo_duration() is the sum of the millisecond time bytes of the frames that start before the end marker, where the end marker is the last occurrence of 'The match is over', else the last serverinfo status Standby message, else the end of the data, converted from milliseconds to seconds.", "quantifier": "all lists of well-formed frames whose times sum to less than 2^32 ms", "why_tests_cant": "Quantifies over all streams and marker positions.", "anchors": ["src/duration.rs:demo_duration", "src/duration.rs:duration_until_offset"]}
{"id": "C07", "title": "Millisecond to Duration conversion is accurate and monotone", "statement": "The single-precision conversion used for durations never decreases when the millisecond count increases, has the exact number of whole seconds for every count below 2^24 ms (and not for every larger count: an input where it is a second ahead is exhibited), is exact for whole seconds up to 16777 s, and is off by less than half a millisecond for every count below 16384000 ms (4.5 hours).", "quantifier": "all 32-bit millisecond counts (or all below the stated bound)", "why_tests_cant": "Rounding errors depend on the exact value; a test of a few durations says nothing about the other millions.", "anchors": ["src/duration.rs:duration_until_offset"]}
{"id": "C08", "title": "match_duration from seeking never underflows", "statement": "When a well-formed demo's first matchdate marker does not lie after its end marker, match_duration_from_seeking() returns demo_duration minus countdown_duration (zero if that is an error) and does not panic; there is a well-formed demo with the markers in the other order on which it panics.", "quantifier": "all well-formed demos and marker positions", "why_tests_cant": "The subtraction panics only for particular marker orders; tests only contain ordered markers.", "anchors": ["src/duration.rs:match_duration_from_seeking", "src/duration.rs:countdown_duration", "src/duration.rs:demo_duration"]}
{"id": "C09", "title": "match_duration source selection", "statement": "match_duration() takes the duration from the embedded ktxstats when it is present and readable and the demo is not in hoonymode, otherwise from the frame times; a decimal duration below 2^23 s with at most nine fractional digits in the ktxstats text gives exactly that Duration, to the nanosecond; a negative duration in the text makes it panic; countdown_duration() is zero in hoonymode.", "quantifier": "all inputs; all decimal durations below 2^23 s with at most nine fractional digits", "why_tests_cant": "A decision rule over all combinations of mode, presence and readability, and all decimal values.", "anchors": ["src/duration.rs:match_duration", "src/duration.rs:match_duration_from_ktxstats", "src/duration.rs:countdown_duration"]}
{"id": "C10", "title": "ktxstats_string reassembles the embedded JSON", "statement": "For every UTF-8 JSON text starting with {\"version\": that is embedded in a demo as a chain of hidden demoinfo blocks of arbitrary sizes (last block numbered 0, others not), with no later occurrence of that prefix, ktxstats_string() returns exactly that text, whatever precedes and follows the chain.", "quantifier": "all texts, all ways to cut them into blocks, all surrounding bytes", "why_tests_cant": "The number and size of blocks is unbounded; fixtures contain two or three particular splits.", "anchors": ["src/ktxstats.rs:ktxstats_string", "src/qw/block.rs:Info::try_from"]}
{"id": "C11", "title": "ktxstats_string on arbitrary bytes", "statement": "ktxstats_string() returns the error 'ktxstats not found' exactly when the text {\"version\": does not occur in the input. When it occurs, then with overflow checks on the function returns exactly when the last occurrence is at offset 18 or later and the data from 18 bytes before it is a chain of complete blocks that ends with block 0 or before bytes that are not a block header of the demoinfo type; otherwise it panics, and inputs on which it panics (prefix near the start, declared block size below two, truncated chain) are exhibited.", "quantifier": "all byte slices below 2^64 bytes", "why_tests_cant": "Panics need crafted block headers or a marker near the start of the data.", "anchors": ["src/ktxstats.rs:ktxstats_string", "src/qw/block.rs:Info::try_from"]}
{"id": "C12", "title": "ping_per_player_number averages the sampled pings", "statement": "On a well-formed demo, ping_per_player_number() maps exactly the player numbers that occur in ping updates at the start of frames, up to and including the eighth such frame, to the floor of the arithmetic mean of their reported pings in those frames, provided no player's sampled pings add up to 65536 or more; otherwise it panics (overflow checks on) or averages the wrapped sum. If there are no ping updates it returns the error 'Unable to read pings'.", "quantifier": "all well-formed demos, all players, all ping values", "why_tests_cant": "Any number of updates and any values; float division and integer overflow only go wrong for particular values.", "anchors": ["src/ping.rs:ping_per_player_number", "src/qw/message/update_ping.rs:ReadUpdatePing::read_update_ping"]}
{"id": "C13", "title": "Obituary messages are parsed to the right event", "statement": "For every obituary phrase of the table, every first name without spaces and every second name without spaces that does not start with cratered or died and is not suicides, stomps or squishes, the message made of the names and the phrase is read as the event kind of that phrase with exactly those names in the roles of killer and victim. For each excluded second name some phrase is misread. For every text whatsoever, what is read is the first phrase of the table that fits the text, and an error if none fits.", "quantifier": "all names, all phrases", "why_tests_cant": "Names are arbitrary; the test tries one pair of names.", "anchors": ["src/qw/fragevent.rs:FragEvent::try_from", "src/qw/fragprint.rs"]}
{"id": "C14", "title": "frags_per_player_name keeps score", "statement": "frags_per_player_name() gives each name mentioned in a scored obituary the sum of +1 per kill, -1 per environmental death, -2 per suicide, -1 per weapon suicide, -1 per team kill, over the medium-level print messages that open a frame, and no other names.", "quantifier": "all inputs shorter than 2 GiB on which the walk does not panic", "why_tests_cant": "All sequences of events and names.", "anchors": ["src/frags.rs:frags_per_player_name"]}
{"id": "C15", "title": "Anonymous team kills are attributed to a team mate seen in the next score updates", "statement": "For a team kill that does not name the killer, the player charged with -1 is the first client that is in the victim's team, is not the victim and whose number appears in a score update that opens one of the following two non-empty frames or follows the message in its own frame; if there is none nobody is charged.", "quantifier": "all inputs", "why_tests_cant": "Depends on arbitrary frame sequences after the message and arbitrary client lists.", "anchors": ["src/frags.rs:find_team_killer"]}
{"id": "C16", "title": "Flag messages are parsed to the right event", "statement": "For every flag phrase of the table and every player name in which no phrase of the table stands (so for every name without a line end), name followed by phrase is read as the event of that phrase with that player. This is exact: a name followed by a phrase is read right exactly when neither that phrase nor one that goes before it in the table stands in the name. For every text, what is read is the first phrase of the table that occurs in it, with everything before its first occurrence as the player, and an error if none occurs.", "quantifier": "all names, all phrases", "why_tests_cant": "Names are arbitrary.", "anchors": ["src/qw/flagevent.rs:FlagEvent::try_from", "src/qw/flagprint.rs"]}
{"id": "C17", "title": "flag_events_per_player_name counts every flag message once", "statement": "In a demo whose frames carry at most one high-level flag message each (as one print or as name and phrase in two prints), every message adds one to the matching counter of its player, and nothing else changes. In general the texts of one frame are taken in twos: the second of two is joined to the first if it ends with a capture, pickup or return phrase, and lost otherwise, so that two complete messages in one frame count once. A counter that would pass 255 panics with overflow checks and wraps without.", "quantifier": "all demos whose walk ends without a truncated frame", "why_tests_cant": "All sequences of messages, several per frame, and more than 255 events per player.", "anchors": ["src/flags.rs:flag_events_per_player_name", "src/flags.rs:is_message_suffix"]}
{"id": "C18", "title": "serverinfo_string", "statement": "For data of at least 1280 bytes, serverinfo_string() returns the (text-converted) bytes between the first 'fullserverinfo \"' in the first 1280 bytes and the next double quote there, and an error if there is no such non-empty text; for shorter data it always panics.", "quantifier": "all byte slices", "why_tests_cant": "All positions, contents and lengths.", "anchors": ["src/serverinfo.rs:serverinfo_string", "src/bytesextra.rs:offsets_between"]}
{"id": "C19", "title": "is_valid decision", "statement": "is_valid() is true exactly for data of at least 1280 bytes that ends with the end-of-demo print, contains a serverinfo and at least one client record; it is false for data below 1024 bytes or without the end-of-demo print; on data of 1024 to 1279 bytes with the end-of-demo print it panics.", "quantifier": "all byte slices", "why_tests_cant": "A decision over all inputs, including sizes no fixture has.", "anchors": ["src/validate.rs:is_valid", "src/validate.rs:has_clients", "src/validate.rs:has_end_of_demo_print"]}
{"id": "C20", "title": "Status predicates", "statement": "has_end_of_demo_print() is true exactly when the data is longer than the end-of-demo print and ends with it; is_aborted() exactly when the 'Match stopped by majority vote' print occurs; is_paused() exactly when the demo does not end with the end-of-demo print and contains one of the two pause texts. A finished demo is never paused, and appending data never makes an aborted demo not aborted.", "quantifier": "all byte slices", "why_tests_cant": "Quantifies over all data and positions.", "anchors": ["src/validate.rs:has_end_of_demo_print", "src/aborted.rs:is_aborted", "src/paused.rs:is_paused"]}
{"id": "C21", "title": "clientinfo_strings finds every client record", "statement": "When the first 'cmd spawn' stufftext is followed by a run of NUL-terminated userinfo strings of 7 to 256 bytes, each containing \\name\\ and lying so that this \\name\\ is at most 496 bytes behind the previous string, with the whole run within 12288 bytes and no \\name\\ in the 511 bytes after it, clientinfo_strings() returns exactly those strings in order.", "quantifier": "all client lists and all surrounding bytes", "why_tests_cant": "All numbers, lengths and contents of clients.", "anchors": ["src/clientinfo.rs:clientinfo_strings"]}
{"id": "C22", "title": "Shape of clientinfo_strings results", "statement": "Whatever the input, every string returned comes from a NUL-delimited stretch of 7 to 256 bytes without NULs that contains \\name\\, the stretches are disjoint and in stream order, and the last one starts less than 24*512+512 bytes after the first 'cmd spawn'. The result is an error exactly when 'cmd spawn' does not occur; the function does not panic when the data reaches 12799 bytes past it, and a shorter input on which it panics is exhibited.", "quantifier": "all byte slices", "why_tests_cant": "Arbitrary input.", "anchors": ["src/clientinfo.rs:clientinfo_strings"]}
{"id": "C23", "title": "Clients are numbered in order and split into players and spectators", "statement": "clients() yields one client per client record, in order, numbered 0, 1, 2, ... (modulo 256, so the 257th record gets number 0 again); player_clients() and spectator_clients() are complementary order-preserving selections of it, so each client is in exactly one of them.", "quantifier": "all inputs", "why_tests_cant": "All client lists.", "anchors": ["src/clients.rs:clients", "src/clients.rs:player_clients", "src/clients.rs:spectator_clients", "src/client.rs:Client::from"]}
{"id": "C24", "title": "Name lists", "statement": "player_names() and spectator_names() are permutations of the names of the players and spectators; team_names() lists exactly the teams of the players, each once if the text library's sort puts equal names next to each other (for a sort that does not, an input with a repeated team is exhibited).", "quantifier": "all inputs, every permuting sort of the text library", "why_tests_cant": "All client lists.", "anchors": ["src/clients.rs:player_names", "src/clients.rs:spectator_names", "src/clients.rs:team_names"]}
{"id": "C25", "title": "Bot and human detection", "statement": "has_human_players() is true exactly when some non-spectator client is not a bot; has_bot_players() exactly when some non-spectator client is a bot or the stats text contains a bot entry; a demo with at least one player has humans or bots.", "quantifier": "all inputs", "why_tests_cant": "All client lists.", "anchors": ["src/clients.rs:has_bot_players", "src/clients.rs:has_human_players"]}
{"id": "C26", "title": "players lists every player once, best first", "statement": "Whenever clients(), ping_per_player_number() and frags_per_player_name() succeed and there are at most 256 client strings, players_from_parsing() returns one entry per non-spectator client (with its name, team, colour, bot flag, authentication fields, its score from the obituaries or 0, and its average ping or 0), ordered by score descending and, for equal scores, by name ascending. With more than 256 clients the last client with each number is listed. If one of the three fails or panics, so does players_from_parsing().", "quantifier": "all inputs, every hash map iteration order", "why_tests_cant": "All client lists and hash seeds.", "anchors": ["src/players.rs:players_from_parsing", "src/player.rs:sort"]}
{"id": "C27", "title": "players is deterministic up to ties", "statement": "Two calls of players() on the same data give the same outcome, whatever order the hash map iterates in, except that players with equal score and equal name may be swapped; if no two different players tie, the lists are equal. Two players with equal name and score in different teams can in fact appear in either order.", "quantifier": "all inputs, all pairs of hash map iteration orders", "why_tests_cant": "Hash seeds are random per run; a test sees only a few of them.", "anchors": ["src/players.rs:players_from_parsing", "src/player.rs:sort"]}
{"id": "C28", "title": "Player order is a total preorder", "statement": "The comparison used to order players is reflexive-consistent, antisymmetric and transitive, and two players compare equal exactly when score and name agree, so sorting cannot fail or depend on the algorithm.", "quantifier": "all players", "why_tests_cant": "Needs all triples.", "anchors": ["src/player.rs:sort"]}
{"id": "C29", "title": "Conversion of ktxstats players", "statement": "players_from_ktxstats() yields one entry per stats player with the same name, team and score, the low bytes of the colours and the ping modulo 2^32, marked as bot exactly when the stats mark it as bot or its ping is 10, with an auth name exactly when a login is present, best first and in stats order among ties. A negative ping is not preserved.", "quantifier": "all stats", "why_tests_cant": "All values, including narrowing casts.", "anchors": ["src/player.rs:Player::from", "src/players.rs:players_from_ktxstats"]}
{"id": "C30", "title": "players and teams source selection", "statement": "players() and teams() use the ktxstats whenever it is present and readable and the parsed network messages otherwise; teams() groups exactly what players() returns.", "quantifier": "all inputs", "why_tests_cant": "A decision rule over all inputs.", "anchors": ["src/players.rs:players", "src/teams.rs:teams"]}
{"id": "C31", "title": "teams partition the players", "statement": "teams_from_players() returns one team per distinct team name, ordered by lower-cased name, each holding exactly the players with that team name in their original order, with the sum of their scores; every player is in exactly one team.", "quantifier": "all player lists whose team sizes are below 256 and whose per-team sums of pings and partial sums of scores fit 32 bits, every hash map iteration order; overflowing lists are exhibited", "why_tests_cant": "All player lists and hash seeds.", "anchors": ["src/team.rs:teams_from_players", "src/team.rs:Team::from"]}
{"id": "C32", "title": "Team ping", "statement": "The ping of a team is the mean ping of its players rounded to the nearest integer, halves up.", "quantifier": "all non-empty teams whose total ping plus number of players is at most 2^23 (and whose sums fit); a larger ping for which it fails is exhibited", "why_tests_cant": "Single-precision rounding over all values.", "anchors": ["src/team.rs:Team::from"]}
{"id": "C33", "title": "Team colour", "statement": "The colour of a team is a colour worn by at least as many of its players as any other (for teams of three or more), and the colour of the first player for one or two players.", "quantifier": "all player lists with teams of fewer than 256 players, every hash map iteration order; a team of 257 for which it fails is exhibited", "why_tests_cant": "All colour distributions, team sizes beyond 255 and hash seeds.", "anchors": ["src/team.rs:majority_color"]}
{"id": "C34", "title": "teams is deterministic up to ties", "statement": "Two calls of teams_from_players() on the same players return teams with the same lower-cased names in the same order, whatever order the hash maps iterate in; they return the same list if no two team names differ only in case and every team of three or more has one most-worn colour. Without either condition the lists can differ.", "quantifier": "all player lists whose sums fit, all pairs of hash map iteration orders", "why_tests_cant": "Hash seeds are random per run.", "anchors": ["src/team.rs:teams_from_players", "src/team.rs:majority_color"]}
{"id": "C35", "title": "timestamp source selection", "statement": "timestamp() is the epoch of the serverinfo when present, and otherwise is exactly matchdate(); below 1280 bytes it panics.", "quantifier": "all inputs of at least 1280 bytes", "why_tests_cant": "A decision rule over all inputs.", "anchors": ["src/timestamp.rs:timestamp", "src/timestamp.rs:timestamp_from_epoch"]}
{"id": "C36", "title": "matchdate_string extraction", "statement": "matchdate_string() returns the text between the first matchdate print prefix and the next line feed when that text has 22 to 25 bytes and is UTF-8, and an error otherwise; it never panics.", "quantifier": "all byte slices", "why_tests_cant": "All positions and contents.", "anchors": ["src/matchdate.rs:matchdate_string"]}
{"id": "C37", "title": "Time zones are turned into numeric offsets", "statement": "For every known abbreviation, and for every numeric zone +hh, +hhmm or +hh:mm (or with -) up to 12:00, utc_offset() gives sign, two digits, colon, two digits of that distance from UTC; utc_offset() gives an offset exactly for these and for a sign followed by up to four characters that fill up with zeros to a number up to 1200 (where a second sign may take the place of the first digit), and never panics.", "quantifier": "all time zone texts", "why_tests_cant": "All texts up to the length limit, including malformed ones.", "anchors": ["src/timezone.rs:utc_offset", "src/timezone.rs:utc_offset_by_offset", "src/matchdate.rs:replace_tz_abbr_with_offset"]}
{"id": "C38", "title": "matchdate gives the UTC instant and never panics", "statement": "For every well-formed local date and time and every zone of at most five characters, matchdate() is the UTC instant local time minus offset, provided that the date library reads such a date; for every other input it returns an error or what the date library makes of it, except that it panics exactly when the text has a multi-byte character across byte 20, or across byte 19 with a readable zone after it.", "quantifier": "all byte slices; all valid dates, times and zones", "why_tests_cant": "All dates and zones; malformed UTF-8 text needs particular byte positions.", "anchors": ["src/matchdate.rs:matchdate", "src/matchdate.rs:replace_tz_abbr_with_offset"]}
{"id": "C39", "title": "filename and server pass through", "statement": "filename() is the serverdemo value of the serverinfo or an error; server() reports the host name, ip and port of the ktxstats and an address equal to ip, colon, decimal port without leading zeros, and passes on errors of the ktxstats.", "quantifier": "all inputs", "why_tests_cant": "All values of the settings.", "anchors": ["src/filename.rs:filename", "src/server.rs:server"]}
{"id": "C40", "title": "Data after the last complete frame does not influence the walkers", "statement": "Appending bytes that do not form a frame header (or form one that announces more than all the data) to a well-formed demo changes neither prints(), nor the flag table, nor the pings, nor - if the client list is not affected - the frag table. The client list is not affected if at least 13050 bytes follow the spawn command or if there is no spawn command. For two well-formed demos the prints of the concatenation are the prints of the first followed by those of the second, up to merging one equal print at the joint.", "quantifier": "all pairs of well-formed demos, all such tails", "why_tests_cant": "All demos.", "anchors": ["src/prints.rs:prints", "src/qw/frame.rs:Info::from_data_and_index"]}
{"id": "C41", "title": "Scored obituaries are visible prints", "statement": "Every message that frags_per_player_name() scores is in the list prints() returns for the same data.", "quantifier": "all inputs", "why_tests_cant": "Relates two independent walks over all inputs.", "anchors": ["src/frags.rs:frags_per_player_name", "src/prints.rs:prints"]}
{"id": "C42", "title": "Overflow-check profile does not matter on ordinary demos", "statement": "With overflow checks on, every public function gives the same outcome as with them off, or panics at an overflow. prints(), the client, serverinfo and time stamp functions give the same outcome for all data, frags_per_player_name() for data below 2 GiB, and the durations from frame times for data below 32 MiB; where results may differ (flag counters, ping sums, team sums, majority colour counts, stats at the start of the data) an input is exhibited.", "quantifier": "all byte slices below the bound, both profiles", "why_tests_cant": "Counters overflow only after long runs of events.", "anchors": ["src/duration.rs:duration_until_offset", "src/flags.rs:flag_events_per_player_name", "src/ping.rs:ping_per_player_number", "src/team.rs:majority_color"]}
{"id": "C43", "title": "Standard library version does not matter", "statement": "The results do not depend on where std::io::Cursor leaves its position after a failed read (unchanged in older, end of data in newer releases).", "quantifier": "all byte slices, both behaviours", "why_tests_cant": "Needs two toolchains and all truncated messages.", "anchors": ["src/qw/primitives.rs:ReadPrimitives", "src/ping.rs:ping_per_player_number"]}
{"id": "C44", "title": "offsets_between", "statement": "The search used for embedded texts returns offsets (from, to) with from < to exactly when the first start marker is followed by an end marker that is not immediately adjacent; then from is the end of the first start marker, to the start of the first end marker after it, and the text between contains no end marker.", "quantifier": "all byte slices and markers", "why_tests_cant": "All positions.", "anchors": ["src/bytesextra.rs:offsets_between"]}
{"id": "C45", "title": "Print size", "statement": "byte_size() of a print equals the number of bytes of its encoding after the message type byte, so advancing by it lands exactly after the message.", "quantifier": "all prints", "why_tests_cant": "All texts.", "anchors": ["src/qw/message/print.rs:Print::byte_size", "src/qw/message/print.rs:ReadPrint::read_print"]}
{"id": "C46", "title": "Frame header", "statement": "Info::from_data_and_index() at the start of an encoded frame returns that frame's duration, addressee, kind, header and body size and byte ranges, whatever precedes and follows it; for every byte string at the index it returns a record or one of three error texts, depending only on what the bytes announce and on the length of the whole data; an index past the end panics.", "quantifier": "all byte slices and indices", "why_tests_cant": "All 256 type bytes and all lengths.", "anchors": ["src/qw/frame.rs:Info::from_data_and_index"]}
{"id": "C47", "title": "Record decoders", "statement": "read_byte, read_u16, read_u32, read_bstring, and the TryFrom of UpdateFrags, UpdatePing and Print succeed exactly on the encodings of the records followed by anything, return the encoded values, and otherwise fail with the error text of the first field that is cut short.", "quantifier": "all byte slices", "why_tests_cant": "All values and truncations.", "anchors": ["src/qw/primitives.rs:ReadPrimitives", "src/qw/message/update_frags.rs:UpdateFrags", "src/qw/message/update_ping.rs:UpdatePing", "src/qw/message/print.rs:Print"]}
{"id": "C48", "title": "Protocol codes", "statement": "The conversions from bytes to message types, hidden message types, print levels, targets and commands agree with the discriminants declared in the enums, and every other value maps to the variant for unknown values. The declared codes are pairwise distinct; the ones of the unknown variants are 0xFF for messages and 0xDEAD for hidden messages and print levels.", "quantifier": "all bytes and all 16-bit codes", "why_tests_cant": "The declarations and the conversions are separate tables.", "anchors": ["src/qw/prot.rs:Target", "src/qw/prot.rs:Command", "src/qw/prot.rs:MessageType", "src/qw/prot.rs:HiddenMessage", "src/qw/prot.rs:PrintId"]}
{"id": "C49", "title": "Hidden block header", "statement": "A hidden block header of body size s, type t and number n is read as body size s - 2, type t, number n if s is at least 2; for smaller sizes the subtraction overflows (a panic with overflow checks, 2^64 + s - 2 without); a header cut short gives the error of the field cut.", "quantifier": "all sizes, types, numbers and following bytes, both profiles", "why_tests_cant": "All field values.", "anchors": ["src/qw/block.rs:Info"]}
{"id": "C50", "title": "Duration texts in the statistics", "statement": "If the statistics have a duration text (the non-empty text between the first '\"duration\": ' and the next comma), then: a decimal numeral with optional sign, point and exponent whose nearest double is in [0, 2^64) gives the nanoseconds nearest to that double; outside that range, and for infinities and NaN in any letter case, the call panics; any other text gives the error 'invalid float literal'. Here the number is the one written, for texts of up to 65000 bytes; in longer texts digits of the exponent behind a value of 65536 are not looked at, so that a text that says one second can give zero. Without a duration text the error is 'Duration not found in ktxstats'. match_duration() returns the duration, falls back to seeking on either error, and panics with the panic.", "quantifier": "all statistics texts", "why_tests_cant": "All numerals and all other texts.", "anchors": ["src/duration.rs:match_duration_from_ktxstats", "src/duration.rs:match_duration"]}
{"id": "C51", "title": "UTF-8 errors", "statement": "If the match date text or the embedded statistics are not UTF-8, the error text names the number of leading bytes that are text, and either the number of following bytes that can begin a character but do not complete one, or that a character is cut short by the end.", "quantifier": "all byte strings", "why_tests_cant": "All ways of breaking UTF-8 at all positions.", "anchors": ["src/matchdate.rs:matchdate_string", "src/ktxstats.rs:ktxstats_string"]}
{"id": "C52", "title": "Error texts", "statement": "The errors of matchdate_string, matchdate, serverinfo, timestamp_from_epoch, filename, countdown_duration, FragEvent::try_from and FlagEvent::try_from carry exactly the documented text for the condition that caused them; the event errors quote the message.", "quantifier": "all inputs on which these calls fail", "why_tests_cant": "All failing inputs.", "anchors": ["src/matchdate.rs", "src/timestamp.rs:timestamp_from_epoch", "src/filename.rs:filename", "src/serverinfo.rs:serverinfo_string", "src/duration.rs:countdown_duration", "src/qw/fragevent.rs:FragEvent", "src/qw/flagevent.rs:FlagEvent"]}
{"id": "C53", "title": "Joined demos", "statement": "When every obituary names its killer, the score of each player in two demos put one behind the other is the sum of the scores in the two demos, and a player without a row in one counts zero there. The flag counters add up the same way; if a counter exceeds 255 the checked build panics. The ping table of the joined demo is that of the first if it holds eight or more ping frames, and that of the second if the first holds none.", "quantifier": "all pairs of well-formed frame lists", "why_tests_cant": "Relates the outcomes of three runs on all pairs of inputs.", "anchors": ["src/frags.rs:frags_per_player_name", "src/flags.rs:flag_events_per_player_name", "src/ping.rs:ping_per_player_number"]}
{"id": "C54", "title": "Frame order", "statement": "Rearranging the frames of a demo changes neither which players have a row in the score table nor their scores, if every obituary names its killer; nor the flag table, nor whether it overflows.", "quantifier": "all well-formed frame lists and all permutations of them", "why_tests_cant": "All permutations.", "anchors": ["src/frags.rs:frags_per_player_name", "src/flags.rs:flag_events_per_player_name"]}
{"id": "C55", "title": "Only bodies count", "statement": "Two demos whose frames carry the same nonempty bodies in the same order have the same prints, flag table and ping table, and the same score table if the client list agrees or every obituary names its killer; times, frame types, target masks and frames without a body have no influence.", "quantifier": "all pairs of well-formed frame lists", "why_tests_cant": "All pairs of inputs.", "anchors": ["src/prints.rs:prints", "src/frags.rs:frags_per_player_name", "src/flags.rs:flag_events_per_player_name", "src/ping.rs:ping_per_player_number"]}
{"id": "C56", "title": "Totals", "statement": "The scores of a demo add up to the sum of what each obituary is worth (frag +1, suicide -2, any other death -1), if every obituary names its killer; no player's score exceeds the number of obituaries or falls below minus twice that number. The scores of the teams add up to the scores of the players.", "quantifier": "all well-formed frame lists; all player lists whose sums fit", "why_tests_cant": "All inputs.", "anchors": ["src/frags.rs:frags_per_player_name", "src/team.rs:teams_from_players"]}
{"id": "C57", "title": "Means lie between extremes", "statement": "The ping reported for a player lies between the smallest and largest sampled ping of that player, if the sum fits 16 bits; the ping of a team lies between the smallest and largest ping of its players, if they add up to at most 2^23.", "quantifier": "all well-formed frame lists; all player lists", "why_tests_cant": "All inputs, including rounding.", "anchors": ["src/ping.rs:ping_per_player_number", "src/team.rs:teams_from_players"]}
{"id": "C58", "title": "clientinfo_strings on any bytes", "statement": "If the data contains the spawn command, clientinfo_strings returns exactly the userinfo texts found by repeatedly taking the NUL-delimited stretch around the first \\name\\ within the next 512 bytes, starting at the spawn command and stopping after 12288 bytes or where there is no such stretch of 7 to 256 bytes; it panics exactly if one of the 512-byte windows it needs reaches beyond the end of the data.", "quantifier": "all byte strings", "why_tests_cant": "All inputs, including panics.", "anchors": ["src/clientinfo.rs:clientinfo_strings"]}
{"id": "C59", "title": "ktxstats_string on any bytes, without and with overflow checks", "statement": "Without overflow checks, ktxstats_string returns the contents of the chain of blocks whose first block header lies eight bytes before the last {\"version\": in the data (even where the frame header before it is cut off by the start of the data), or the UTF-8 error of these contents, and it panics with a slice error exactly if there is no such chain. With overflow checks it panics if no chain starts eighteen bytes before the mark.", "quantifier": "all byte strings shorter than 2^63", "why_tests_cant": "All inputs and both build profiles, including wrapped offsets.", "anchors": ["src/ktxstats.rs:ktxstats_string", "src/qw/block.rs:Info"]}
{"id": "C60", "title": "Durations on any bytes", "statement": "demo_duration, countdown_duration and match_duration_from_seeking on any bytes: the time of the complete frames before the marker, modulo 2^32 without overflow checks; an overflow panic with them; a slice panic if the walk needs a truncated frame that starts before the marker; a slice panic for countdown and seeking below 1280 bytes; the difference of the two times when seeking, or a panic if the start lies later than the end.", "quantifier": "all byte strings, both build profiles", "why_tests_cant": "All inputs, including truncation and overflow.", "anchors": ["src/duration.rs:demo_duration", "src/duration.rs:countdown_duration", "src/duration.rs:match_duration_from_seeking"]}
{"id": "C61", "title": "Kinds of panics", "statement": "is_valid, the serverinfo, client and print functions and timestamp_from_epoch panic by an out-of-range slice at most; scores, flags, pings, statistics, server, players, teams, demo_duration and countdown_duration by an out-of-range slice or an arithmetic overflow; seeking also by subtracting durations, the ktxstats duration by converting a number to a duration, matchdate by slicing inside a character, timestamp by a slice of either sort. No overflow panic happens in builds without overflow checks.", "quantifier": "all byte strings, both build profiles, every behaviour of the external text and statistics libraries", "why_tests_cant": "A test finds single panics; excluding a kind of panic needs all inputs.", "anchors": ["src/validate.rs:is_valid", "src/qw/frame.rs:from_data_and_index", "src/ktxstats.rs:ktxstats_string", "src/duration.rs:match_duration", "src/matchdate.rs:matchdate", "src/players.rs:players"]}
{"id": "C62", "title": "Exactly which inputs panic", "statement": "prints panics iff the last frame is truncated (and no larger than the demo); the client functions iff the search for userinfo records from the first 'cmd spawn' needs bytes beyond the end; the serverinfo functions iff there are fewer than 1280 bytes; is_valid iff the demo is finished, has 1024 bytes or more, and either fewer than 1280 or a serverinfo and a client search that runs out of bytes; timestamp iff there are fewer than 1280 bytes, or no epoch and matchdate panics; the scores iff the last frame is truncated or a team kill without named killer and with score updates nearby meets a client search that runs out of bytes; the flags iff truncated, or (with overflow checks) some count reaches 256; the pings iff truncated before eight ping frames, or (with overflow checks) some sum reaches 65536. A demo of 1280 bytes or more without truncated frame and client search makes none of 23 functions panic in builds without overflow checks.", "quantifier": "all byte strings, both build profiles; for the scores with overflow checks, demos below 2^31 bytes", "why_tests_cant": "Equivalences over all inputs.", "anchors": ["src/prints.rs:prints", "src/clientinfo.rs:clientinfo_strings", "src/serverinfo.rs:serverinfo_string", "src/validate.rs:is_valid", "src/timestamp.rs:timestamp", "src/frags.rs:frags_per_player_name", "src/flags.rs:flag_events_per_player_name", "src/ping.rs:ping_per_player_number"]}
{"id": "C63", "title": "A whole recording is read back", "statement": "Take any recording a server could write: a serverinfo, userinfo strings, a countdown and a match made of chat, notices, kills of every kind, flag deeds (in one print or two), ping updates and other messages in frames of any type and duration, a match date, the end of the match, numbered blocks of statistics and the end mark. Its encoding is valid and not paused; serverinfo, clients, matchdate_string and ktxstats_string return what was written; prints lists every message in order with neighbouring repetitions collapsed; the score, flag and ping tables hold exactly the totals, counts (below 256) and means of the first eight ping frames; demo_duration is the sum of all frame times to the end of the match, countdown_duration the sum through the date, match_duration_from_seeking their difference; and the list of players has one entry per non-spectator with that score and ping, in order of rank, whenever the statistics are not readable.", "quantifier": "all recordings of any length satisfying wf_recording: sizes within the fixed search windows, marks not repeated where they mislead, at most 256 clients, less than 2^31 bytes; the two durations that depend on the date: mode other than hoonymode", "why_tests_cant": "An unbounded space of demos; the claim joins every reader of the crate on the same input, so that one reader cannot be right at the expense of another.", "anchors": ["src/validate.rs:is_valid", "src/serverinfo.rs:serverinfo", "src/clients.rs:clients", "src/matchdate.rs:matchdate_string", "src/ktxstats.rs:ktxstats_string", "src/prints.rs:prints", "src/frags.rs:frags_per_player_name", "src/flags.rs:flag_events_per_player_name", "src/ping.rs:ping_per_player_number", "src/duration.rs:demo_duration", "src/duration.rs:countdown_duration", "src/duration.rs:match_duration_from_seeking", "src/players.rs:players"]}
{"id": "C64", "title": "What a growing demo cannot take back", "statement": "If bytes are appended to the data (a live stream, a longer prefix of a file): every answer of serverinfo and filename stays; a match date, its time stamp and an abort once found stay; clients once found keep their places and numbers, and none are added if the data ended with a NUL; has_human_players and has_bot_players never turn from true to false; prints only grows at its end; no player leaves the flag table and, with overflow checks, no flag count falls; the pings are settled after eight frames with ping updates. Errors about the date, pauses and durations, and the absence of a client whose userinfo string is not ended, are not final.", "quantifier": "all data, all appended bytes, whenever both calls return", "why_tests_cant": "A statement about every split of every demo; unit tests use complete files.", "anchors": ["src/serverinfo.rs:serverinfo", "src/filename.rs:filename", "src/matchdate.rs:matchdate", "src/timestamp.rs:timestamp", "src/clients.rs:clients", "src/prints.rs:prints", "src/flags.rs:flag_events_per_player_name", "src/ping.rs:ping_per_player_number", "src/aborted.rs:is_aborted", "src/paused.rs:is_paused", "src/clients.rs:has_human_players", "src/clients.rs:has_bot_players", "src/duration.rs:demo_duration"]}
{"id": "C65", "title": "Results are no larger than the demo", "statement": "The contents returned by prints, with three bytes for each print and two more, fit in the data; the statistics text is at least eight bytes shorter than the data; the raw serverinfo has 1 to 1263 bytes and occurs in the data; the raw userinfo strings have 7 to 256 bytes each, fit together in the data and in 13306 bytes, and there are at most 1663 clients; the ping table and the parsed player list have at most 256 entries; demo_duration, countdown_duration and match_duration_from_seeking are at most 255 ms for every two bytes of data and at most 4294967.5 s.", "quantifier": "all data and all environments, for every call that returns a value; the statistics text for data below 2^63 bytes, which Rust guarantees", "why_tests_cant": "Hostile input is unbounded; a few files cannot show that no input makes the parser copy data more than once.", "anchors": ["src/prints.rs:prints", "src/ktxstats.rs:ktxstats_string", "src/serverinfo.rs:serverinfo_string", "src/clientinfo.rs:clientinfo_strings", "src/clients.rs:clients", "src/ping.rs:ping_per_player_number", "src/players.rs:players_from_parsing", "src/duration.rs:demo_duration", "src/duration.rs:countdown_duration", "src/duration.rs:match_duration_from_seeking"]}
{"id": "C66", "title": "Every number fits its field", "statement": "In every returned value client numbers and colors are below 256, scores lie in the signed 32-bit range, flag counters are below 256, each player number occurs once in the ping table with a ping below 65536, and player and team pings are below 2^32, whether or not sums overflowed on the way.", "quantifier": "all data, all environments whose statistics parser stores 32-bit scores and whose map iteration yields the entries of the map, with and without overflow checks", "why_tests_cant": "The claim is about overflow in every position of every sum; it also shows that computing with unbounded integers in the model loses nothing.", "anchors": ["src/clients.rs:clients", "src/frags.rs:frags_per_player_name", "src/flags.rs:flag_events_per_player_name", "src/ping.rs:ping_per_player_number", "src/players.rs:players", "src/teams.rs:teams"]}
{"id": "C67", "title": "The lists of players, names and teams agree", "statement": "If players_from_parsing returns players for a demo with at most 256 clients, player_names returns exactly their names, team_names exactly their teams, has_human_players is true exactly when one of them is not a bot, and has_bot_players is true when one is a bot. Whenever teams_from_players returns, no two teams share a name, the team names are the teams of the players, each team lists its players in the given order, and every player is in exactly one team, even if a sum of scores wrapped. With more than 256 clients, or embedded statistics, the name list and the player list can differ.", "quantifier": "all data, all environments whose sort returns a permutation and whose map iteration yields the entries of the map", "why_tests_cant": "The functions scan the demo separately; a test compares them on a few files only.", "anchors": ["src/players.rs:players_from_parsing", "src/clients.rs:player_names", "src/clients.rs:team_names", "src/clients.rs:has_human_players", "src/clients.rs:has_bot_players", "src/team.rs:teams_from_players"]}
{"id": "C68", "title": "Pings, scores and teams whatever the size of their sums", "statement": "For pings, scores and teams, sums that leave the range of their integer type either panic or wrap, and the result is known in both cases. With overflow checks, ping_per_player_number panics exactly when the pings of some player sum to 65536 or more, frags_per_player_name exactly when the running score of some name leaves 32 bits, and teams_from_players exactly when a running frag sum, ping sum or colour count of a team leaves its type. In every other case each average ping is the sum modulo 65536 divided by the count, each score is the sum reduced to signed 32 bits, and each team has its reduced frag sum, the single-precision mean of its pings rounded half up, and a colour with the largest reduced count. The team ping is within 1/2 + mean/2^22 of the true mean.", "quantifier": "all demos and player lists, both build profiles, all environments whose sort returns a permutation and whose map iteration yields the entries of the map", "why_tests_cant": "The sums leave their range only on inputs far larger than any test file, or on adversarial ones.", "anchors": ["src/ping.rs:ping_per_player_number", "src/frags.rs:frags_per_player_name", "src/team.rs:teams_from_players"]}
{"id": "C69", "title": "Exactly which inputs panic: statistics, scores, players, teams and durations", "statement": "ktxstats_string, ktxstats_v3 and server panic exactly when the last version mark is too close to the start of the data, or the chain of blocks before it ends in an incomplete block (out of range) or in a block whose size is below two (overflow, with overflow checks); without checks exactly when no text can be collected. frags_per_player_name panics exactly when the last frame is cut off, when an obituary needs the client list and that list runs off the data, or when a running score leaves 32 bits under overflow checks, whichever comes first. players_from_parsing, players, teams_from_players and teams panic exactly when one of the readers they call does or a team sum leaves its range. demo_duration, countdown_duration, match_duration_from_seeking, match_duration_from_ktxstats and match_duration panic exactly when the clock runs into a cut-off frame or overflows, the data is shorter than 1280 bytes, the countdown is longer than the demo, or the statistics give a duration that is negative, infinite, not a number or at least 2^64 s.", "quantifier": "all data shorter than 2^63 bytes, all environments, both build profiles", "why_tests_cant": "Tests show that some inputs do not panic; that no other input panics needs a proof over all inputs.", "anchors": ["src/ktxstats.rs:ktxstats_string", "src/frags.rs:frags_per_player_name", "src/players.rs:players_from_parsing", "src/players.rs:players", "src/teams.rs:teams", "src/team.rs:teams_from_players", "src/duration.rs:demo_duration", "src/duration.rs:countdown_duration", "src/duration.rs:match_duration_from_seeking", "src/duration.rs:match_duration_from_ktxstats", "src/duration.rs:match_duration"]}
{"id": "C70", "title": "Which bytes of a demo matter", "statement": "serverinfo_string, serverinfo, filename and timestamp_from_epoch depend only on the first 1280 bytes of a demo. has_end_of_demo_print depends only on the last 13 bytes. clientinfo_strings, clients, the name lists and has_human_players depend only on the bytes from the last NUL before the spawn command to 13050 bytes after it. matchdate_string and matchdate depend only on the line after the first date mark. ktxstats_string, ktxstats_v3, server and match_duration_from_ktxstats depend only on the bytes from 18 before the last version mark on; 17 are not enough. Replacing everything between the client records and the last 13 bytes does not change is_valid.", "quantifier": "all demos (statistics: shorter than 2^63 bytes), all replacements of the other bytes, both build profiles", "why_tests_cant": "Independence of the rest of a demo is a statement about all pairs of demos that agree on a stretch.", "anchors": ["src/serverinfo.rs:serverinfo_string", "src/serverinfo.rs:serverinfo", "src/filename.rs:filename", "src/timestamp.rs:timestamp_from_epoch", "src/validate.rs:has_end_of_demo_print", "src/clientinfo.rs:clientinfo_strings", "src/clients.rs:clients", "src/matchdate.rs:matchdate_string", "src/ktxstats.rs:ktxstats_string", "src/validate.rs:is_valid"]}
{"id": "C71", "title": "What a valid demo guarantees", "statement": "If is_valid returns true, then the demo ends with the end-of-demo print, is_paused is false, serverinfo is Ok, has_clients is true and clients is Ok with at least one client. The player, spectator and team name lists and has_human_players and has_bot_players are then Ok as well; there is at least one name in total, team names exist exactly if there are players, and if there are players some player is a human or there are bots. Without overflow checks, filename, timestamp_from_epoch and the frame walkers panic on a valid demo only if its last frame lacks bytes. A valid demo need not have a file name, a date, statistics or a player list, and prints can panic on it.", "quantifier": "all bytes, all environments; for the name lists: whose sort is a permutation", "why_tests_cant": "The guarantee is about every valid demo, not about the sample demos.", "anchors": ["src/validate.rs:is_valid", "src/validate.rs:has_clients", "src/paused.rs:is_paused", "src/serverinfo.rs:serverinfo", "src/clients.rs:clients", "src/clients.rs:player_names", "src/clients.rs:has_human_players", "src/clients.rs:has_bot_players"]}
{"id": "C72", "title": "The order of the players does not matter to the teams", "statement": "players_from_ktxstats gives the same list for the players of the statistics in any order, up to ties. teams_from_players gives the same teams for two lists in which every team has the same players in the same order, and grouping the players of the returned teams again returns these teams (in the same order if no two team names differ only in case). For players in any order the teams have the same names, scores and pings, their players are rearranged, and the colour is the same for a team of three or more in which one colour is worn most; this holds across builds and hash map orders. The colour of a team of two, and under overflow checks whether a running sum overflows, do depend on the order.", "quantifier": "all lists of players shorter than 2^63, all iteration orders of the hash maps, both build profiles", "why_tests_cant": "All rearrangements of all player lists.", "anchors": ["src/players.rs:players_from_ktxstats", "src/team.rs:teams_from_players"]}
{"id": "C73", "title": "Texts are valid UTF-8 and are never cut inside a character", "statement": "If the other crates' functions return valid strings, then every string in the results of the public functions (names, teams, auth names, file name, info strings, statistics, server address, match date, names in frag and flag tables, players, teams) and every error message is valid UTF-8. Cutting a string where another non-empty string was found in it, in front of it or behind it, never hits the inside of a character, so parsing an obituary or flag message cannot panic and the names it yields are valid UTF-8.", "quantifier": "for all byte strings as demo, all valid UTF-8 messages, all needles and all behaviours of the other crates that return strings", "why_tests_cant": "Tests use a few mostly ASCII names; multi-byte characters next to any phrase, at any place of any demo, are unboundedly many.", "anchors": ["src/qw/fragevent.rs:18-70", "src/qw/flagevent.rs:16-49", "src/frags.rs", "src/flags.rs", "src/clients.rs", "src/ktxstats.rs:15-41", "src/matchdate.rs:14-46", "src/server.rs", "src/players.rs", "src/team.rs"]}
{"id": "C74", "title": "Printed results", "statement": "Printed with {:?}, a Client, Player, Team, Server, PlayerFlagEvents or Print shows its fields in order with the documented names; numbers are decimal without leading zeros; ASCII texts are quoted and escaped to one printable line. The counters of flag_events_per_player_name(), which are private, are seen in this way: each shows how often the player did the deed, modulo 256. Different values have different texts, and each value has one.", "quantifier": "all values with ASCII texts; all demos that end quietly (counters)", "why_tests_cant": "All texts, including quotes, commas and control characters in names, and all demos.", "anchors": ["src/flags.rs:PlayerFlagEvents", "src/qw/message/print.rs:Debug", "src/client.rs:Client", "src/player.rs:Player", "src/team.rs:Team", "src/server.rs:Server"]}
{"id": "C75", "title": "64-bit and 32-bit targets", "statement": "On 64-bit targets no sum of offsets overflows or wraps, in any function. On 32-bit targets all functions have the same outcomes as on 64-bit ones unless, after the complete frames, a frame header announces 4 GiB or more, or (with overflow checks only) a statistics block announces nearly 4 GiB, which may then end in an overflow panic. A frame of 4 GiB or more makes prints(), frags and flag events panic (overflow with checks, slice without), and pings unless eight ping frames precede it. demo_duration() is unaffected if a complete frame starts at or behind the end marker, or, without checks, if the marker lies before the large frame; with checks it panics otherwise. Without checks, a frame that announces exactly 4 GiB in front of the marker makes demo_duration(), or countdown_duration(), run forever on 32-bit targets; without such a frame, or with checks, every function terminates, and the functions other than durations always do.", "quantifier": "all byte strings whose doubled length fits the target, both build profiles", "why_tests_cant": "Tests run on one target with well-formed demos; the claim is about every possible offset sum, and one of its parts is non-termination.", "anchors": ["src/qw/frame.rs:from_data_and_index", "src/duration.rs:duration_until_offset", "src/prints.rs", "src/frags.rs", "src/flags.rs", "src/ping.rs", "src/ktxstats.rs:15-41", "src/qw/block.rs", "src/clientinfo.rs:13-52", "src/matchdate.rs:28-46", "src/bytesextra.rs"]}
{"id": "C76", "title": "The summary of a whole recording", "statement": "For every demo of the form of C63: the player and spectator lists and names, the team names, has_human_players() and has_bot_players() describe exactly the encoded clients (a bot entry in the statistics also counts as a bot); timestamp() is the epoch of the serverinfo, else the instant of the encoded date in its named or numeric zone; filename() is the serverdemo of the serverinfo, or an error; match_duration() is the exact decimal number of seconds in the statistics, else the milliseconds between the date and the end of the match, and in hoonymode those of the whole timeline; server() and players() are those of the statistics if they can be read; teams() are the teams of the players, whether those come from the statistics or from the events; and is_aborted() holds if a vote stopped the match.", "quantifier": "all recordings of any length with any clients, countdown, match and statistics; all behaviours of the external readers within their contracts", "why_tests_cant": "Tests compare a few demo files; this says that what a server wrote is what is read back, for all demos.", "anchors": ["src/clients.rs", "src/matchdate.rs", "src/timestamp.rs", "src/filename.rs", "src/duration.rs:35-41", "src/server.rs", "src/players.rs", "src/teams.rs", "src/aborted.rs"]}
{"id": "C77", "title": "A file with two demos", "statement": "If two demos stand one behind the other in a file, serverinfo, file name, epoch, clients, name lists and the match date (if it is found there) are those of the first, the statistics, server, and the players and teams taken from the statistics are those of the second, and the file is valid if the first is valid and the second has the end-of-demo print. demo_duration() is the time of all frames of the first plus the time of the frames of the second before the end of the match told there, countdown_duration() is that of the first, and the match duration from seeking is their difference. So durations of two demos do not add up.", "quantifier": "all pairs of byte strings (texts, statistics, validity) and all pairs of well-formed frame lists (durations), with serverinfo and client records inside the first part and the statistics inside the second", "why_tests_cant": "Relates the outcomes of three runs on all pairs of inputs.", "anchors": ["src/duration.rs:demo_duration", "src/duration.rs:countdown_duration", "src/duration.rs:match_duration_from_seeking", "src/serverinfo.rs:serverinfo_string", "src/clientinfo.rs:clientinfo_strings", "src/matchdate.rs:matchdate_string", "src/ktxstats.rs:ktxstats_string", "src/validate.rs:is_valid"]}
{"id": "C78", "title": "The public conversions", "statement": "Client::from(&Clientinfo) has number 0 and the fields of the client record, with the stated defaults for missing ones. Player::from(&ktxstats Player) has the fields of the statistics, with the casts stated in C29. Server::from(&KtxstatsV3) has host name, ip and port of the statistics and the address ip:port with the port in decimal. Team::from(&[Player]) of players of any teams has the name of the first player's team, the players in the given order, the sum of the frags, the mean ping rounded half up and the most frequent colour; sums that leave their types panic in a checked build and wrap otherwise. Of no players it is the default team.", "quantifier": "all client records, all statistics, all lists of players", "why_tests_cant": "The arguments are unbounded, and tests only convert lists with players of one team.", "anchors": ["src/client.rs:Client::from", "src/player.rs:Player::from", "src/server.rs:Server::from", "src/team.rs:Team::from"]}
{"id": "C79", "title": "Frames that can be left out", "statement": "Leaving out any frames that do not open with a print that has a text does not change prints(). Leaving out frames without the word flag in their body does not change flag_events_per_player_name(). Leaving out frames that do not open with a ping update does not change ping_per_player_number(). Leaving out frames that do not open with a medium-level print with a text does not change frags_per_player_name(), if every obituary names the killer or needs none; otherwise it can.", "quantifier": "all well-formed demos and all choices of such frames", "why_tests_cant": "Relates the outcomes on every demo and on each of its thinned versions.", "anchors": ["src/prints.rs:prints", "src/flags.rs:flag_events_per_player_name", "src/ping.rs:ping_per_player_number", "src/frags.rs:frags_per_player_name"]}
{"id": "C80", "title": "The standard library operations the code is built from", "statement": "Wherever the code searches bytes it gets the first (find, split_once) or last (rfind) occurrence and nothing only if there is none. A slice is the part between its offsets, and the program panics exactly if the offsets are not in order or outside; on text also if one is inside a character. Text is exactly the encodings of Unicode scalar values. Trimming removes exactly the white space, or the copies of a pattern, at the end. Strings are compared in dictionary order of their bytes; sorting gives the stable order and no other; dedup collapses runs. A map keeps one entry per key and the last value put there. Sums and differences of integers are exact if they fit; otherwise they panic in a checked build and wrap around in others; casts keep the low bits. A float cast to an integer is its integer part (or, after round(), the nearest integer, halves up), the largest number if it is too large, and 0 if it is negative or not a number.", "quantifier": "all byte strings, offsets, lists, keys and integers", "why_tests_cant": "Every other claim rests on these operations; no set of examples fixes them on all arguments.", "anchors": ["src/bytesextra.rs:offsets_between", "src/qw/fragevent.rs:pattern_match", "src/timezone.rs:utc_offset", "src/player.rs:sort", "src/ping.rs:ping_per_player_number", "src/team.rs:Team::from", "src/prints.rs:prints"]}
{"id": "C81", "title": "Names and numbers of players are labels", "statement": "If one demo has the obituaries of another with the players renamed, without giving two of them one name, with renamed clients and the same score updates near the obituaries, then frags_per_player_name() panics on both or on neither, and returns the same rows with the names replaced. The same holds for flag_events_per_player_name() and the flag messages, and for ping_per_player_number() if the players are renumbered. If two players get one name it is false.", "quantifier": "all injective maps of names or numbers, all pairs of demos that differ in that way (and in any frames the function does not read), with and without overflow checks", "why_tests_cant": "Relates two runs on all pairs of inputs and all renamings.", "anchors": ["src/frags.rs:frags_per_player_name", "src/flags.rs:flag_events_per_player_name", "src/ping.rs:ping_per_player_number", "src/qw/fragevent.rs:try_from"]}
{"id": "C82", "title": "Every loop ends, in one way, and gives what its rounds say", "statement": "Take each while loop of the parser as a sequence of rounds: a round goes on with new values, leaves the loop with a result, or panics. For every input each of the loops (over frames in prints, frags, team kills, flags, pings and durations, over messages inside a frame, over clientinfo strings, over statistics blocks) ends after at most two rounds more than the input has bytes, with exactly one outcome, and the function returns what its remaining code makes of that outcome.", "quantifier": "every input and every build; for the statistics every input shorter than 2^63 bytes", "why_tests_cant": "A test that hangs or returns shows it for one input; that every loop over arbitrary, also damaged, bytes leaves within a bound linear in the input needs a measure.", "anchors": ["src/prints.rs:prints", "src/ping.rs:ping_per_player_number", "src/flags.rs:flag_events_per_player_name", "src/frags.rs:frags_per_player_name", "src/frags.rs:find_team_killer", "src/duration.rs:duration_until_offset", "src/clientinfo.rs:clientinfo_strings", "src/ktxstats.rs:ktxstats_string"]}
{"id": "C83", "title": "Reading takes a number of rounds linear in the size of the demo", "statement": "A walk over the frames of n bytes takes at most n/2 + 1 rounds. prints, ping_per_player_number and flag_events_per_player_name take at most n + 2 rounds, those over the messages inside the frames included. Collecting the deaths and searching for a team killer from every one of them takes at most (n/2 + 1)^2 rounds. The search for clients takes at most 1538 rounds however long the demo, and reading the statistics at most n/18 + 2.", "quantifier": "every input; for the statistics every input shorter than 2^63 bytes", "why_tests_cant": "Running times on some demos say nothing about hostile input; a bound for every input needs a measure on the loops.", "anchors": ["src/prints.rs:prints", "src/ping.rs:ping_per_player_number", "src/flags.rs:flag_events_per_player_name", "src/frags.rs:frags_per_player_name", "src/frags.rs:find_team_killer", "src/clientinfo.rs:clientinfo_strings", "src/ktxstats.rs:ktxstats_string"]}
{"id": "C84", "title": "Results printed over several lines", "statement": "Printed with {:#?}, a Client, Player, Team, Server, PlayerFlagEvents or Print, and a list of clients, players or teams, is one line per field, number of a colour, optional text or bracket, each indented by four spaces per level and each but the first and the last ending in a comma or an opening bracket; an empty list of players stays on its line. No text breaks a line. Different values have different texts, and each value has one.", "quantifier": "all values with ASCII texts", "why_tests_cant": "All texts, including line breaks, brackets and leading spaces in names, and teams of any size.", "anchors": ["src/flags.rs:PlayerFlagEvents", "src/qw/message/print.rs:Debug", "src/client.rs:Client", "src/player.rs:Player", "src/team.rs:Team", "src/server.rs:Server"]}
{"id": "C85", "title": "What is read can be written and is read again", "statement": "Take any data. If prints() returns a list, every demo whose frames open with those messages, in whatever frames and with whatever behind them, gives the same list; one with each message in its own frame exists. The text of matchdate_string() between the match date marker and a line feed gives the same text and the same matchdate(). The raw serverinfo in a demo of its own gives the same serverinfo_string(). The raw client records behind a spawn command, if they fit into 12288 bytes, give the same clientinfo_strings(). The text of ktxstats_string() in one block gives the same text if it begins with {\"version\": and has this nowhere else; without that condition the statement is false and an input is given.", "quantifier": "all data on which the function returns", "why_tests_cant": "The data need not be a demo at all; every result of the functions on any bytes is covered.", "anchors": ["src/prints.rs:prints", "src/matchdate.rs:matchdate_string", "src/matchdate.rs:matchdate", "src/serverinfo.rs:serverinfo_string", "src/clientinfo.rs:clientinfo_strings", "src/ktxstats.rs:ktxstats_string"]}
{"id": "C86", "title": "Match dates in order", "statement": "For two demos whose match dates are in the same time zone, the earlier match has the smaller matchdate() and the matchdate_string() that comes first in dictionary order, and the dates are the same text exactly if the times are equal. For demos in different zones the times are equal exactly if the clocks differ by the distance between the zones. For every zone known by abbreviation or given as offset and every second of the years 0000 to 9999 on the clocks of that zone there is exactly one date text for which matchdate() is that time, and no other times come out of well-formed dates.", "quantifier": "all pairs of demos with well-formed match dates, all zones, all times", "why_tests_cant": "The demos used in tests have a few dates in two or three zones; order and uniqueness are statements about all pairs of dates, including ends of months, leap days and turns of centuries.", "anchors": ["src/matchdate.rs:matchdate", "src/matchdate.rs:matchdate_string", "src/matchdate.rs:replace_tz_abbr_with_offset", "src/timestamp.rs:timestamp"]}
{"id": "C87", "title": "Statistics and parsing agree", "statement": "If the embedded statistics list the same players as the clients of the demo, in any order and with pings that differ by at most d, and no two players have the same score and name, then players() (from the statistics) and players_from_parsing() agree place by place in name, team, colour, score and bot, and in ping up to d. The teams made from the two lists then agree one to one in name, colour, score and members, and in ping up to d; place by place if no team names differ only in case.", "quantifier": "all demos whose statistics match their clients, every d, every hash map order", "why_tests_cant": "The unit test compares the two sources in three demos with pings up to 5 apart; that sorting and averaging preserve agreement is a statement about all pairs of lists.", "anchors": ["src/players.rs:players", "src/players.rs:players_from_ktxstats", "src/players.rs:players_from_parsing", "src/player.rs:sort", "src/teams.rs:teams", "src/team.rs:teams_from_players"]}
{"id": "C88", "title": "Each result depends on exactly the listed libraries", "statement": "Besides the data, the result of each public function is settled by a fixed set of the external libraries, hash map orders and build settings, and by no smaller set. For example is_valid() and prints() depend on none of them; serverinfo() on the text decoding and the serverinfo parser; clients() on the text decoding and the userinfo parser; matchdate() on the date parser only; demo_duration() on the overflow checks only; teams() on the overflow checks, text decoding, userinfo parser, JSON parser, lowercasing and the three hash map orders, but on no serverinfo, date or sorting library.", "quantifier": "for all data and all pairs of environments that agree on the set; for every element of the set there are data and environments that differ in it alone with different results", "why_tests_cant": "A test runs with one version of every library and one build; independence is a statement about all versions, and the overflow cases need demos of 100 MB to 70 GB.", "anchors": ["src/validate.rs:is_valid", "src/prints.rs:prints", "src/serverinfo.rs:serverinfo", "src/clients.rs:clients", "src/matchdate.rs:matchdate", "src/timestamp.rs:timestamp", "src/duration.rs:match_duration", "src/players.rs:players", "src/teams.rs:teams"]}
{"id": "C89", "title": "A chat message changes nothing but prints() unless it quotes one of eight texts", "statement": "Inserting a chat message (a level 3 print to all, with no time of its own) between two frames of a demo leaves the results of is_valid(), is_paused(), is_aborted(), serverinfo(), filename(), timestamp(), clients() and the lists made from it, has_bot_players(), ktxstats, all durations, flags, pings, frags, players() and teams() as they were, provided that the text contains none of the eight texts the parser searches for in the whole file. A message that does quote one can forge a pause, the end of the match, bots or statistics; and any chat message between an anonymous team kill and the frag update after it can take the penalty off the killer.", "quantifier": "for all demos, all places between frames after the client list, and all texts", "why_tests_cant": "Demos in the test set contain a fixed chat; the claim is about every text at every place, and the failing cases need hostile or unlucky messages.", "anchors": ["src/paused.rs:is_paused", "src/aborted.rs:is_aborted", "src/duration.rs:demo_duration", "src/clients.rs:has_bot_players", "src/ktxstats.rs:ktxstats_string", "src/matchdate.rs:matchdate_string", "src/frags.rs:frags_per_player_name", "src/frags.rs:find_team_killer", "src/players.rs:players"]}
{"id": "C90", "title": "is_valid() rejects incomplete transfers", "statement": "If the text that ends a demo occurs only at its end, is_valid() is false for every shorter beginning of the file. A file without the part that holds its serverinfo or its spawn command is never accepted. A file with bytes in front that push the serverinfo past the first 1280 bytes is rejected. A finished file with bytes appended counts as finished exactly if nothing, the end text without its first byte, or something that ends with the end text was appended. A missing part between the clients and the end is not noticed.", "quantifier": "for all files and all places of the cut", "why_tests_cant": "A test can cut a few files at a few places; the claim is about every cut of every file, and it has exceptions that hang on single bytes.", "anchors": ["src/validate.rs:is_valid", "src/validate.rs:has_end_of_demo_print", "src/serverinfo.rs:serverinfo_string", "src/clientinfo.rs:clientinfo_strings"]}
{"id": "C91", "title": "Waiting changes only the durations", "statement": "Inserting an empty frame of t milliseconds between two frames of a demo changes none of prints(), is_valid(), is_paused(), is_aborted(), serverinfo(), filename(), timestamp(), clients() and its lists, ktxstats, flags, pings, frags, players() and teams(). demo_duration() grows by t if the frame stands before the end-of-match mark, countdown_duration() grows by t if it stands before the matchdate. The match duration found by seeking grows by t (within 1 ms) if the frame stands between the two, is the same within 2 ms if it stands before the matchdate, and exactly the same if it stands after the end of the match.", "quantifier": "for all demos, all places between frames after the client list, and all frame times", "why_tests_cant": "The claim compares pairs of demos that differ in one frame at an arbitrary place; the test set has no such pairs, and the rounding error depends on the absolute times.", "anchors": ["src/duration.rs:demo_duration", "src/duration.rs:countdown_duration", "src/duration.rs:match_duration_from_seeking", "src/frags.rs:frags_per_player_name", "src/prints.rs:prints", "src/ping.rs:ping_per_player_number", "src/validate.rs:is_valid"]}
{"id": "C92", "title": "Durations depend on a stretch without marks only through its total time", "statement": "Let a stretch of frames contain no 'The match is over', standby status or matchdate print, nor part of one. Replacing it by any other such stretch with the same sum of frame times leaves demo_duration(), countdown_duration() and the match duration found by seeking unchanged, whatever the frames contain and however many they are, also when the sum overflows. The condition is needed: a chat message that quotes the mark, or a text cut off inside it and completed by the time byte of the next frame, changes the result.", "quantifier": "for all demos and all pairs of stretches", "why_tests_cant": "Tests fix the frames of a handful of demos; the claim compares all demos that agree at the marks and in the sums of times.", "anchors": ["src/duration.rs:demo_duration", "src/duration.rs:countdown_duration", "src/duration.rs:match_duration_from_seeking", "src/duration.rs:duration_until_offset"]}
{"id": "C93", "title": "Damaged frames change few scores by little", "statement": "If two demos differ in k frames (changed, lost or added, at any places) and have the same clients, then frags_per_player_name() gives the same entries for all but at most 3k names, and no score differs by more than 3k. If every obituary in both names the killer, at most 2k names differ, whatever the clients. One lost frame can change three scores and one changed frame can change a score by three, so the bounds cannot be lowered. A lost frame that holds the client list can change a score by more, because team kills without a named killer are then not counted.", "quantifier": "for all pairs of demos, all numbers and places of edits", "why_tests_cant": "The claim is about every way to damage every demo; an anonymous team kill looks at the next two messages, so one frame can affect events in earlier frames.", "anchors": ["src/frags.rs:frags_per_player_name", "src/frags.rs:find_team_killer"]}
{"id": "C94", "title": "Replaced frames matter only to those they speak of", "statement": "Take some frames out of a demo and put others in, at any places. The prints() that occur neither in the old nor in the new frames stay the same and in the same order, equal neighbours counted once. Every name that is in the flag_events_per_player_name() of neither the old nor the new frames keeps its row, and the same holds for frags_per_player_name() if every obituary names the killer. Every player whose ping the old and new frames do not tell keeps the average ping if each demo has at most eight frames with pings. Without the conditions each claim is false.", "quantifier": "for all demos, all sets of frames taken out and put in, all places", "why_tests_cant": "The claim compares every demo with every edit of it; tests compare single demos with stored results.", "anchors": ["src/prints.rs:prints", "src/flags.rs:flag_events_per_player_name", "src/frags.rs:frags_per_player_name", "src/ping.rs:ping_per_player_number"]}
{"id": "C95", "title": "Obituaries of players with spaces in their names", "statement": "For all names, spaces and any other characters included: if the first name, followed by a space, contains no phrase of the obituary table and ends neither with ' suicides' nor with ' was', and the second name between spaces contains no phrase, contains no end of a phrase (such as \"'s rocket\") and does not begin with 'his teammate' or 'her teammate', then every obituary with these names is read as the event of its phrase with exactly these names in their roles. The condition on the first name is exact: every other first name is misread in some obituary. For the second name the exact condition is known phrase by phrase: with such a first name an obituary is read right exactly when no phrase that goes before in the table stands in the text behind the first name (the suicide phrase at its end, an end of a phrase anywhere behind its beginning) and the second name does not contain the end of the obituary's own phrase. A name that does quote a phrase can make another name, or a death, out of a kill.", "quantifier": "for all pairs of names and all phrases", "why_tests_cant": "The tests of the repository use the names FOO and BAR only; which names clash with which of 72 phrases depends on overlaps at both ends of both names.", "anchors": ["src/qw/fragevent.rs:try_from", "src/qw/fragevent.rs:pattern_match"]}
{"id": "C96", "title": "The frame times behind the durations", "statement": "Rounded to the nearest millisecond, demo_duration() is exactly the sum of the frame times before the end marker, for every demo whose sum is below 16384 s; two demos of 16384001 and 16384002 ms have the same duration. match_duration_from_seeking() is within one millisecond of the sum of the frame times between the matchdate and the end marker below 16384 s, and rounded to the nearest millisecond equal to it below 8192 s. Cut off to whole seconds it can be one second short: a match whose frame times add up to exactly 1000 ms lasts 0.999999974 s.", "quantifier": "all well-formed demos with times in the stated ranges, modes other than hoonymode for the match", "why_tests_cant": "the claim is about the rounding error for each of the sixteen million sums and for every demo that has such a sum; a test checks a few demos", "anchors": ["src/duration.rs:demo_duration", "src/duration.rs:match_duration_from_seeking", "src/duration.rs:duration_until_offset"]}
{"id": "C97", "title": "The score can be kept from the list of prints", "statement": "If no frame has a medium-level print behind another print, no medium-level print is repeated directly, and no team kill is anonymous, then adding up the medium-level entries of prints() (frag +1, suicide -2, other deaths -1) gives the table of frags_per_player_name(); two demos with the same prints() then have the same scores. An obituary printed twice in a row is one entry of prints() but is scored twice, and of two obituaries in a frame prints() lists both but only the first is scored.", "quantifier": "all well-formed demos below 2^31 bytes with these conditions, all names and texts", "why_tests_cant": "relates two results of the API for every demo; the known demos satisfy the conditions or not by chance", "anchors": ["src/frags.rs:frags_per_player_name", "src/prints.rs:prints"]}
{"id": "C98", "title": "The flag events can be counted from the list of prints", "statement": "If every frame begins with its prints, has no byte 8 behind them, and has of its high-level texts none, one that is not a second half, or two of which the second is the second half of the first (such as ' got the RED flag!'), and no high-level print is repeated directly, then putting the halves among the high-level entries of prints() together and counting what they tell gives the table of flag_events_per_player_name(); two demos with the same prints() then have the same flag events. Without these conditions not: a repeated message is one print but counts twice, of two messages in a frame only the first counts, and a message behind another byte counts but is not in prints().", "quantifier": "all well-formed demos with these conditions, all names and texts, all text conversions that do not bring up the word flag", "why_tests_cant": "relates two results of the API for every demo", "anchors": ["src/flags.rs:flag_events_per_player_name", "src/prints.rs:prints"]}
{"id": "C99", "title": "Scores, flag events and pings are reported independently and without restriction", "statement": "Take a whole recording in which nobody scores, no flag is touched and no ping is reported. Take any table of scores (distinct names that cannot be mistaken, any integers), any table of flag events (distinct names, counters below 256, at least one event per row) and any table of pings (distinct player numbers, 16-bit pings). Writing for each row the kill, death and flag messages and one frame of ping updates at the end of the match gives a demo for which frags_per_player_name, flag_events_per_player_name and ping_per_player_number return exactly these three tables at once; with an empty ping table the ping reader fails with its error. Validity, serverinfo, clients, date, statistics and durations are those of the recording before. If the statistics are unreadable, players lists every client that is no spectator with the score and ping of its rows, and 0 where there is none.", "quantifier": "for all environments, recordings, ways of writing texts in game bytes and all three tables of any size, as long as the demo is smaller than 2 GiB", "why_tests_cant": "the three tables range over an infinite product; independence of the readers is a statement about all combinations", "anchors": ["src/frags.rs:frags_per_player_name", "src/flags.rs:flag_events_per_player_name", "src/ping.rs:ping_per_player_number", "src/players.rs:players", "src/clients.rs:clients", "src/duration.rs:demo_duration"]}
{"id": "C100", "title": "Players of one name share one row", "statement": "Rename the players of a demo by any map, which may give several players one name. If every obituary of the second demo is the same obituary of the first with the names mapped (or both are no obituaries) and none is a team kill by an unnamed killer, then frags_per_player_name of the second demo has one row for each new name, and its score is the sum of the scores of all old names mapped to it. The same holds for flag_events_per_player_name counter by counter (modulo 256 without overflow checks). Neither extends: when killer and victim of an unnamed team kill get one name nobody is charged any more, and the ping of two players under one number is not determined by their two pings.", "quantifier": "for all environments, all maps of names, all pairs of demos so related, with any data after the last frame", "why_tests_cant": "the map of names and the demos are arbitrary; the statement is a homomorphism law over all of them", "anchors": ["src/frags.rs:frags_per_player_name", "src/flags.rs:flag_events_per_player_name", "src/ping.rs:ping_per_player_number", "src/frags.rs:find_team_killer"]}
{"id": "C101", "title": "Giving teams other names, or several teams one name", "statement": "Give every player's team another name by any fixed rule, and compute the teams again. Each new team name appears once, and the new names are exactly the images of the old ones. A new team has all players of the old teams its name comes from, its frags are the sum of theirs, and its ping lies between the least and the greatest of theirs. If the rule gives different names to different teams, each team reappears with its new name and otherwise the same players, frags, ping and colour. A demo whose team names are changed by such a rule also gives the same table of scores, so the same players are charged with team kills.", "quantifier": "all lists of players, all maps on team names, all iteration orders of the hash maps, as long as the sums fit their types; for the pings of joined teams, a sum plus count of at most 8388608; for colours of teams of three or more, one colour worn most", "why_tests_cant": "The relation is between two runs for every renaming of every list of players; tests check single lists with fixed names.", "anchors": ["src/team.rs:teams_from_players", "src/team.rs:Team::from", "src/team.rs:majority_color", "src/teams.rs:teams", "src/players.rs:players_from_parsing", "src/frags.rs:find_team_killer"]}
{"id": "C102", "title": "Each field of a team comes from that field of its own players", "statement": "Take two lists of players in the same teams, place by place, that may differ in names, scores, pings and colours. The teams of the two lists then correspond one to one by name (place by place if no team names differ only in case), with corresponding members. A team keeps its frags if its members keep theirs, its ping if they keep theirs, its colour if they keep theirs, whatever happens to the other fields and to other teams; recolouring its members one to one recolours it the same way. Two lists with the same members of a team have the same team, whoever else plays; so a player who leaves or joins changes no other team. If no member's score drops the team's score does not, and if no member's ping drops the team's ping does not. Two recordings of the same events in which the same people have other teams, colours or logins list the same players in the same order with the same scores and pings; with other colours only, they give the same teams in the other colours.", "quantifier": "all pairs of lists of players paired by any relation that keeps the team, all hash map orders, as long as the sums fit their types; for recolouring a team of three or more, one colour worn most; for recordings, distinct names of players", "why_tests_cant": "It compares two runs for every change of any field of any player; tests check single lists.", "anchors": ["src/team.rs:teams_from_players", "src/team.rs:Team::from", "src/team.rs:majority_color", "src/teams.rs:teams", "src/players.rs:players_from_parsing"]}
{"id": "C103", "title": "One more player is one more row", "statement": "If one statistics text lists one player more than another, at any place, players() of the first demo is players() of the second with one row more, the row of that player, and the other rows unchanged and in the same order. If one recording has one client more than another with the same events: when that client is a spectator, players() and teams() are the same; otherwise players() has exactly one row more, with that client's name, team, colours, score, ping and logins, the other rows are unchanged and in the same order, and no team but that client's own is changed, added or removed.", "quantifier": "all demos with readable statistics that differ by one player; all pairs of byte strings with at most 256 clients that have the same score and ping tables and differ by one player; all well-formed recordings that differ by one client; with distinct names of the players both share, and all hash map orders", "why_tests_cant": "It compares two runs for every list of players, every extra player and every place; tests check single demos.", "anchors": ["src/players.rs:players", "src/players.rs:players_from_ktxstats", "src/players.rs:players_from_parsing", "src/teams.rs:teams", "src/team.rs:teams_from_players"]}
{"id": "C104", "title": "The results are the only ones that fit their descriptions", "statement": "A userinfo text and a slot number fit one client; a client with a score table and a ping table, or a player of the statistics, fits one player. A message has at most one reading as an obituary or a flag message and makes one list of score entries. A list of score entries, pings or flag events fits one table. A damaged text has one error message. A list of players fits one list of teams, which is what teams() returns, unless two colours are worn equally often in a team of three or more or two team names differ only in case; in those two cases more than one list fits.", "quantifier": "all userinfo texts, clients, statistics, messages, tables and lists of players; for teams, no two most worn colours and no names that differ only in case", "why_tests_cant": "A test compares one result with one expected value; that no other value would be right is a statement about all values.", "anchors": ["src/client.rs:Client::from", "src/players.rs:players_from_parsing", "src/players.rs:players_from_ktxstats", "src/frags.rs:frags_per_player_name", "src/flags.rs:flag_events_per_player_name", "src/ping.rs:ping_per_player_number", "src/team.rs:teams_from_players"]}
{"id": "C105", "title": "Scoring moves a player up and nobody else", "statement": "When one player has d > 0 points more and everything else is equal, players() returns the same list with that player's frags raised by d and the player moved up past zero or more players, who keep their order; all other rows stay as they are. In teams() the player's team has d points more, the same ping and its members reordered in the same way, and every other team is the same. The colour of a team of two may change, since it is the colour of its first player.", "quantifier": "all statistics with one score raised; all pairs of byte strings with the same clients (at most 256, with distinct names) and pings whose score tables differ in one player; all pairs of well-formed recordings with the same clients and pings that differ in one total; all lists of players whose sums fit", "why_tests_cant": "It compares two runs for every list of players, every place in it and every gain; a test fixes one pair.", "anchors": ["src/players.rs:players", "src/players.rs:players_from_ktxstats", "src/players.rs:players_from_parsing", "src/team.rs:teams_from_players", "src/teams.rs:teams"]}
{"id": "C106", "title": "The order of the players depends on names and scores only", "statement": "If two statistics have the same names with the same scores, in any order, players() returns two lists with the same name and score at every place, whatever the teams, colours, pings and logins. The same holds for two demos read by parsing, in which the players have the same names, in any order, and the score tables agree on these names. On any bytes, frags_per_player_name() and flag_events_per_player_name() return one row per name. Only players with the same name and score may change places.", "quantifier": "all pairs of statistics and all pairs of demos with at most 256 clients and reported pings; all bytes for the tables", "why_tests_cant": "It relates two inputs that may differ in everything except names and scores; a test has one input.", "anchors": ["src/players.rs:players", "src/players.rs:players_from_ktxstats", "src/players.rs:players_from_parsing", "src/frags.rs:frags_per_player_name", "src/flags.rs:flag_events_per_player_name"]}
