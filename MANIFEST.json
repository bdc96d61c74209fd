{
 "claims": [
  {
   "property": "C01",
   "status": "proved",
   "theorems": [
    "C01_returns"
   ],
   "note": "all URLs, options, tries (not only those of rule lists) and IDNA behaviours; Go panics are the Panic outcome of the model"
  },
  {
   "property": "C02",
   "status": "proved",
   "theorems": [
    "C02_whitespace"
   ],
   "note": "all URLs and all sequences of the whitespace characters"
  },
  {
   "property": "C03",
   "status": "proved",
   "theorems": [
    "C03_scheme",
    "C03_no_scheme"
   ],
   "note": "longest match and emptiness, all byte strings"
  },
  {
   "property": "C04",
   "status": "partial",
   "theorems": [
    "C04_refuted",
    "C04_partial"
   ],
   "note": "false as stated (C04_refuted: example.com//path has Scheme example.com//); C04_partial: Scheme is empty when the first run of slashes has length one. Missing: the claim for a colon-less name before //, where it fails; C70 says exactly when it holds"
  },
  {
   "property": "C05",
   "status": "proved",
   "theorems": [
    "C05_parts",
    "C05_user_info",
    "C05_front"
   ],
   "note": "the decomposition is unique and total (C05_front)"
  },
  {
   "property": "C06",
   "status": "partial",
   "theorems": [
    "C06_partial",
    "C06_refuted"
   ],
   "note": "false as stated (C06_refuted: rule co.za without za); C06_partial: holds when the TLD of the host is a suffix or unknown and no rule of several labels ends in a number; C71 says exactly when it holds"
  },
  {
   "property": "C07",
   "status": "proved",
   "theorems": [
    "C07_accepted_port",
    "C07_plain_host",
    "C07_bracketed_host"
   ],
   "note": "plain and bracketed hosts; for a bracketed host whose port text contains brackets the error is another one"
  },
  {
   "property": "C08",
   "status": "partial",
   "theorems": [
    "C08_refuted",
    "C08_partial"
   ],
   "note": "false as stated (C08_refuted: port +80); C08_partial: digits only, value <= 65535, when the port has no sign. Missing: ports with a sign, where it fails; C72 says exactly when it holds"
  },
  {
   "property": "C09",
   "status": "proved",
   "theorems": [
    "C09_path_independent"
   ],
   "note": "when the port is invalid or the brackets are, Path is empty for both"
  },
  {
   "property": "C10",
   "status": "proved",
   "theorems": [
    "C10_bracketed"
   ],
   "note": ""
  },
  {
   "property": "C11",
   "status": "partial",
   "theorems": [
    "C11_refuted_zeros",
    "C11_refuted_trailing",
    "C11_partial",
    "C11_complete"
   ],
   "note": "false as stated (C11_refuted_zeros, C11_refuted_trailing); C11_partial: RFC 4291 literal unless it has five hex digits in a row, non-ASCII separators or a trailing dot; C11_complete: every RFC 4291 literal is accepted; C73 says exactly when it holds"
  },
  {
   "property": "C12",
   "status": "proved",
   "theorems": [
    "C12_digit_classes",
    "C12_ipv4_exact"
   ],
   "note": "about isIPv4 itself; see C13 for Extract"
  },
  {
   "property": "C13",
   "status": "proved",
   "theorems": [
    "C13_ipv4_hosts",
    "C13_ipv4_only"
   ],
   "note": ""
  },
  {
   "property": "C14",
   "status": "partial",
   "theorems": [
    "C14_partial",
    "C14_refuted"
   ],
   "note": "false as stated (C14_refuted: rule 0.1); C14_partial: holds for every list without a rule of several labels ending in a number; C74 says exactly when it holds"
  },
  {
   "property": "C15",
   "status": "proved",
   "theorems": [
    "C15_success_has_host"
   ],
   "note": ""
  },
  {
   "property": "C16",
   "status": "proved",
   "theorems": [
    "C16_registered_domain"
   ],
   "note": ""
  },
  {
   "property": "C17",
   "status": "proved",
   "theorems": [
    "C17_domain_is_label"
   ],
   "note": ""
  },
  {
   "property": "C18",
   "status": "proved",
   "theorems": [
    "C18_ignore_sub_domains"
   ],
   "note": ""
  },
  {
   "property": "C19",
   "status": "partial",
   "theorems": [
    "C19_tld_partial",
    "C19_refuted_runes",
    "C19_refuted_no_suffix",
    "C19_partial"
   ],
   "note": "false as stated (C19_refuted_runes, C19_refuted_no_suffix); C19_partial: holds for all forbidden characters but U+0378, U+206B, U+2A74 when there is a suffix; C19_tld_partial: also without a suffix if the TLD of the host is itself a suffix or unknown; C75 says exactly when it holds"
  },
  {
   "property": "C20",
   "status": "partial",
   "theorems": [
    "C20_tld_partial",
    "C20_refuted_separator",
    "C20_refuted_no_suffix",
    "C20_partial"
   ],
   "note": "false as stated (C20_refuted_separator, C20_refuted_no_suffix); C20_partial: holds when the host has no U+FF61 and there is a suffix; C20_tld_partial: also without a suffix if the TLD of the host is itself a suffix or unknown; C76 says which labels can be empty"
  },
  {
   "property": "C21",
   "status": "proved",
   "theorems": [
    "C21_walk",
    "C21_complete",
    "C21_labels"
   ],
   "note": "every rule list; C21_complete: LDH hosts are accepted iff the walk leaves a label"
  },
  {
   "property": "C22",
   "status": "proved",
   "theorems": [
    "C22_regular",
    "C22_unique",
    "C22_total",
    "C22_regular_list"
   ],
   "note": "with the regularity conditions spelled out in RuleSpec.regular; C22_regular_list: a check that a list is regular for every host; C22_unique: the algorithm has one answer there; C22_total: it has an answer on every list"
  },
  {
   "property": "C23",
   "status": "partial",
   "theorems": [
    "C23_refuted"
   ],
   "note": "false as stated (C23_refuted: rule co.za without za); C22 is the part that holds; C82 says for which hosts it holds, C53 with the built-in list"
  },
  {
   "property": "C24",
   "status": "proved",
   "theorems": [
    "C24_escaped_labels"
   ],
   "note": "for labels not named by an exception rule (see C25)"
  },
  {
   "property": "C25",
   "status": "partial",
   "theorems": [
    "C25_refuted",
    "C25_partial"
   ],
   "note": "false as stated (C25_refuted: a.%77ww.ck); C25_partial: holds for a label written literally; C83 is the exact condition"
  },
  {
   "property": "C26",
   "status": "proved",
   "theorems": [
    "C26_separators"
   ],
   "note": ""
  },
  {
   "property": "C27",
   "status": "proved",
   "theorems": [
    "C27_escapes"
   ],
   "note": ""
  },
  {
   "property": "C28",
   "status": "proved",
   "theorems": [
    "C28_converted_host",
    "C28_rejected_host",
    "C28_other_components"
   ],
   "note": ""
  },
  {
   "property": "C29",
   "status": "proved",
   "theorems": [
    "C29_order_irrelevant"
   ],
   "note": ""
  },
  {
   "property": "C30",
   "status": "proved",
   "theorems": [
    "C30_trie_is_rules",
    "C30_monotone",
    "C30_rules"
   ],
   "note": ""
  },
  {
   "property": "C31",
   "status": "proved",
   "theorems": [
    "C31_sections"
   ],
   "note": "every file content and every IDNA behaviour"
  },
  {
   "property": "C32",
   "status": "proved",
   "theorems": [
    "C32_private_invisible",
    "C32_public"
   ],
   "note": "for the tries trieConstruct makes from two files, and for the rules"
  },
  {
   "property": "C33",
   "status": "proved",
   "theorems": [
    "C33_comments",
    "C33_parse"
   ],
   "note": "for the tries trieConstruct makes from two files, and for the rules"
  },
  {
   "property": "C34",
   "status": "proved",
   "theorems": [
    "C34_extractor",
    "C34_total"
   ],
   "note": "in any environment: nothing is assumed about the answers of file system, network and clock; C34_total: New returns if its operations do"
  },
  {
   "property": "C35",
   "status": "partial",
   "theorems": [
    "C35_partial",
    "C35_refuted"
   ],
   "note": "false as stated (C35_refuted: path with leading blank); C35_partial: holds for paths without surrounding white space. Missing: padded paths, where it fails; C91 says exactly when the file is used"
  },
  {
   "property": "C36",
   "status": "partial",
   "theorems": [
    "C36_stored_new",
    "C36_stored_update",
    "C36_used_partial",
    "C36_used_refuted"
   ],
   "note": "storing: proved in any environment (C36_stored_new, C36_stored_update); using: false as stated (C36_used_refuted: path with leading blank), C36_used_partial: holds for paths without surrounding white space; C91_markers covers all paths"
  },
  {
   "property": "C37",
   "status": "proved",
   "theorems": [
    "C37_refresh",
    "C37_fresh"
   ],
   "note": "on a file system without other users, with a moving clock"
  },
  {
   "property": "C38",
   "status": "proved",
   "theorems": [
    "C38_no_op",
    "C38_built_in",
    "C38_fallback"
   ],
   "note": "C38_built_in, C38_fallback: over all histories of New and Update in any environment"
  },
  {
   "property": "C39",
   "status": "proved",
   "theorems": [
    "C39_failed_update",
    "C39_others"
   ],
   "note": "in any environment; C39_others: nor does Update ever affect another extractor"
  },
  {
   "property": "C40",
   "status": "partial",
   "theorems": [
    "C40_partial",
    "C40_stored",
    "C40_refuted"
   ],
   "note": "false as stated (C40_refuted: a longer old file keeps its end, since the file is opened without O_TRUNC); C40_partial: holds if no write failed and nothing shorter than the old file was written; C40_stored: the file always is the body followed by what was there beyond its length; C77 says exactly when it holds"
  },
  {
   "property": "C41",
   "status": "partial",
   "theorems": [
    "C41_partial",
    "C41_refuted"
   ],
   "note": "false as stated (C41_refuted: the next New uses a mixture); C41_partial: the file is the old text with its beginning overwritten by pieces of downloaded lists, other files are unchanged; C92 says exactly which texts can be left"
  },
  {
   "property": "C42",
   "status": "proved",
   "theorems": [
    "C42_sources",
    "C42_update"
   ],
   "note": "in any environment; any source list, and the two sources of the code"
  },
  {
   "property": "C43",
   "status": "proved",
   "theorems": [
    "C43_read_only",
    "C43_isolated",
    "C43_installed"
   ],
   "note": "every interleaving of any number of New, Update and Extract calls with sequentially consistent memory, in any environment"
  },
  {
   "property": "C44",
   "status": "proved",
   "theorems": [
    "C44_ascii_set_exact"
   ],
   "note": "for every character string and every byte"
  },
  {
   "property": "C45",
   "status": "proved",
   "theorems": [
    "C45_trim_both",
    "C45_trim_left",
    "C45_trim_right",
    "C45_trim_returns"
   ],
   "note": "for every string, every set of proper characters (valid runes other than U+FFFD, as all sets of the code are) and all three modes"
  },
  {
   "property": "C46",
   "status": "proved",
   "theorems": [
    "C46_table",
    "C46_recover"
   ],
   "note": "every url, result and host type number; C46_recover: the text determines url and result if no component contains a line feed"
  },
  {
   "property": "C47",
   "status": "proved",
   "theorems": [
    "C47_command",
    "C47_cached_list"
   ],
   "note": "in any environment; C47_cached_list: which list is used when the cache file is fresh"
  },
  {
   "property": "C48",
   "status": "partial",
   "theorems": [
    "C48_refuted",
    "C48_partial"
   ],
   "note": "false as stated (C48_refuted: example.COM); C48_partial: holds for the letters of SubDomain, which can be replaced by any text; C84 is the exact condition"
  },
  {
   "property": "C49",
   "status": "proved",
   "theorems": [
    "C49_unknown_tld"
   ],
   "note": ""
  },
  {
   "property": "C50",
   "status": "proved",
   "theorems": [
    "C50_errors_without_domain"
   ],
   "note": ""
  },
  {
   "property": "C51",
   "status": "proved",
   "theorems": [
    "C51_new_separate"
   ],
   "note": "in any environment"
  },
  {
   "property": "C52",
   "status": "proved",
   "theorems": [
    "C52_unchanged",
    "C52_extract"
   ],
   "note": "every interleaving of any number of New, Update and Extract calls with sequentially consistent memory, in any environment"
  },
  {
   "property": "C53",
   "status": "proved",
   "theorems": [
    "C53_gaps",
    "C53_exact",
    "C53_at_gap",
    "C53_za",
    "C53_hidden"
   ],
   "note": "for labels without %, + and rule syntax; for every idna.ToASCII that leaves the ASCII lines of the list alone and converts the 457 others as listed in Builtin.v (idna_on_builtin); the library as modelled does (C61_builtin)"
  },
  {
   "property": "C54",
   "status": "proved",
   "theorems": [
    "C54_other_tlds"
   ],
   "note": ""
  },
  {
   "property": "C55",
   "status": "proved",
   "theorems": [
    "C55_ipv4",
    "C55_lossless",
    "C55_characters",
    "C55_labels",
    "C55_refuted_za"
   ],
   "note": "under idna_on_builtin as for C53; C55_refuted_za: the condition on za is needed; empty labels: unless the host contains U+FF61, as in C20"
  },
  {
   "property": "C56",
   "status": "proved",
   "theorems": [
    "C56_host_decides"
   ],
   "note": ""
  },
  {
   "property": "C57",
   "status": "proved",
   "theorems": [
    "C57_trailing",
    "C57_errors_differ"
   ],
   "note": "for rejected hosts the kind of error can change (C57_errors_differ)"
  },
  {
   "property": "C58",
   "status": "proved",
   "theorems": [
    "C58_again",
    "C58_builtin",
    "C58_refuted_hyphen",
    "C58_refuted_ipv4",
    "C58_refuted_tld"
   ],
   "note": "C58_refuted_hyphen, C58_refuted_ipv4, C58_refuted_tld: each condition is needed; C58_builtin under idna_on_builtin as for C53"
  },
  {
   "property": "C59",
   "status": "proved",
   "theorems": [
    "C59_offline",
    "C59_offline_suffix"
   ],
   "note": "in any environment; C59_offline_suffix under idna_on_builtin as for C53"
  },
  {
   "property": "C60",
   "status": "proved",
   "theorems": [
    "C60_new_after_update"
   ],
   "note": "on a file system without other users, with a moving clock; the temporary folder's path is assumed to have no surrounding white space"
  },
  {
   "property": "C61",
   "status": "proved",
   "theorems": [
    "C61_roundtrip",
    "C61_injective",
    "C61_case",
    "C61_builtin"
   ],
   "note": "of the model of x/net/idna in Idna.v, for both variants of its treatment of ACE labels that decode to ASCII"
  },
  {
   "property": "C62",
   "status": "proved",
   "theorems": [
    "C62_ascii",
    "C62_accepted",
    "C62_builtin",
    "C62_refuted_converse",
    "C62_refuted_mixed",
    "C62_refuted_exception"
   ],
   "note": "of the model of x/net/idna in Idna.v; C62_refuted_mixed, C62_refuted_exception: each condition is needed; C62_refuted_converse: acceptance does not carry over to the Unicode form"
  },
  {
   "property": "C63",
   "status": "proved",
   "theorems": [
    "C63_errors",
    "C63_accepted",
    "C63_rejected",
    "C63_case"
   ],
   "note": "C63_errors for every IDNA library, C63_accepted and C63_rejected for the model of x/net/idna in Idna.v"
  },
  {
   "property": "C64",
   "status": "proved",
   "theorems": [
    "C64_generated",
    "C64_only",
    "C64_kept",
    "C64_unique",
    "C64_rules",
    "C64_offline",
    "C64_refuted_status",
    "C64_quote"
   ],
   "note": "of the model of data/gen.go in Gen.v; time stamps without line feed; C64_refuted_status: an error page becomes the built-in list; C64_quote: a back quote leaves a file that is no Go"
  },
  {
   "property": "C65",
   "status": "proved",
   "theorems": [
    "C65_errors",
    "C65_check"
   ],
   "note": ""
  },
  {
   "property": "C66",
   "status": "proved",
   "theorems": [
    "C66_brackets"
   ],
   "note": ""
  },
  {
   "property": "C67",
   "status": "proved",
   "theorems": [
    "C67_complete",
    "C67_consistent"
   ],
   "note": "an equivalence with the inductive description extracts of ErrSpec.v"
  },
  {
   "property": "C68",
   "status": "proved",
   "theorems": [
    "C68_new",
    "C68_update",
    "C68_unique",
    "C68_unique_refresh",
    "C68_possible"
   ],
   "note": "runs in which no seek or write fails; failing writes are covered by C40 and C41"
  },
  {
   "property": "C69",
   "status": "proved",
   "theorems": [
    "C69_machine",
    "C69_answers"
   ],
   "note": "sequential histories in which no seek or write fails; concurrent calls are the subject of C43 and C52"
  },
  {
   "property": "C70",
   "status": "proved",
   "theorems": [
    "C70_scheme"
   ],
   "note": "the exact condition for C04"
  },
  {
   "property": "C71",
   "status": "proved",
   "theorems": [
    "C71_lossless",
    "C71_ipv6"
   ],
   "note": "the exact condition for C06"
  },
  {
   "property": "C72",
   "status": "proved",
   "theorems": [
    "C72_port"
   ],
   "note": "the exact condition for C08"
  },
  {
   "property": "C73",
   "status": "proved",
   "theorems": [
    "C73_literal"
   ],
   "note": "the exact condition for C11"
  },
  {
   "property": "C74",
   "status": "proved",
   "theorems": [
    "C74_ipv4"
   ],
   "note": "the exact condition for C14"
  },
  {
   "property": "C75",
   "status": "proved",
   "theorems": [
    "C75_characters"
   ],
   "note": "the exact condition for C19"
  },
  {
   "property": "C76",
   "status": "proved",
   "theorems": [
    "C76_empty"
   ],
   "note": "the only ways in which C20 fails; both occur (C20_refuted_separator, C20_refuted_no_suffix)"
  },
  {
   "property": "C77",
   "status": "proved",
   "theorems": [
    "C77_stored",
    "C77_crash"
   ],
   "note": "the exact condition for C40, and the extent to which C41 fails"
  },
  {
   "property": "C78",
   "status": "proved",
   "theorems": [
    "C78_races",
    "C78_extract_races",
    "C78_update_races"
   ],
   "note": "operations on shared memory are those of Calls.v and Update.v; that Update races is shown by two reachable states"
  },
  {
   "property": "C79",
   "status": "proved",
   "theorems": [
    "C79_update",
    "C79_new"
   ],
   "note": "for an arbitrary relation as environment"
  },
  {
   "property": "C80",
   "status": "proved",
   "theorems": [
    "C80_labels",
    "C80_rules"
   ],
   "note": "look-ups are the ReadNode operations of the model, two per iteration at fasttld.go:306-327"
  },
  {
   "property": "C81",
   "status": "proved",
   "theorems": [
    "C81_answers",
    "C81_fresh",
    "C81_finite",
    "C81_progress"
   ],
   "note": "a request that never returns is not modelled (http.Get has no timeout): a source answers or fails"
  },
  {
   "property": "C82",
   "status": "proved",
   "theorems": [
    "C82_exact",
    "C82_well_formed",
    "C82_builtin"
   ],
   "note": "the exact condition for C23; C82_builtin under idna_on_builtin as for C53"
  },
  {
   "property": "C83",
   "status": "proved",
   "theorems": [
    "C83_exact"
   ],
   "note": "the exact condition for C25, and for C24 with any exceptions"
  },
  {
   "property": "C84",
   "status": "proved",
   "theorems": [
    "C84_exact",
    "C84_builtin"
   ],
   "note": "the exact condition for C48; C84_builtin under idna_on_builtin as for C53"
  },
  {
   "property": "C85",
   "status": "proved",
   "theorems": [
    "C85_atomic",
    "C85_all",
    "C85_trace",
    "C85_determined"
   ],
   "note": "steps of the memory are those of Calls.v and Update.v, in the order in which they happen; that Update races (C78) is a matter of the Go memory model, which is not modelled"
  },
  {
   "property": "C86",
   "status": "proved",
   "theorems": [
    "C86_exact"
   ],
   "note": "the exact condition for C23, for escaped hosts too"
  },
  {
   "property": "C87",
   "status": "proved",
   "theorems": [
    "C87_order",
    "C87_after",
    "C87_unchanged"
   ],
   "note": "order of beginnings and ends as in C85; that Update races (C78) is a matter of the Go memory model, which is not modelled"
  },
  {
   "property": "C88",
   "status": "proved",
   "theorems": [
    "C88_browser",
    "C88_no_scheme",
    "C88_no_scheme_refuted",
    "C88_tabs",
    "C88_builtin"
   ],
   "note": "the states of the URL Standard's parser up to the path, transcribed in BrowserSpec.v; host parsing (IDNA, IPv4 numbers) is not compared; C88_no_scheme_refuted is the excepted case"
  },
  {
   "property": "C89",
   "status": "proved",
   "theorems": [
    "C89_net_url"
   ],
   "note": "net/url.Parse up to the path, transcribed in BrowserSpec.v; unescaping is not compared"
  },
  {
   "property": "C90",
   "status": "proved",
   "theorems": [
    "C90_forbidden_in_rule",
    "C90_byte"
   ],
   "note": "C90_byte is the consequence for single bytes; which labels are checked exactly is C65"
  },
  {
   "property": "C91",
   "status": "proved",
   "theorems": [
    "C91_used",
    "C91_markers"
   ],
   "note": "on a file system without other users, with a moving clock and any network"
  },
  {
   "property": "C92",
   "status": "proved",
   "theorems": [
    "C92_texts",
    "C92_not_shorter"
   ],
   "note": "writes at the beginning of the file only, since the code seeks there; blocks reach the disk in order"
  },
  {
   "property": "C93",
   "status": "proved",
   "theorems": [
    "C93_rule",
    "C93_whole",
    "C93_new_part",
    "C93_more_rules",
    "C93_matching_refuted",
    "C93_numeric_refuted"
   ],
   "note": "C93_matching_refuted and C93_numeric_refuted show that the conditions are needed; a result that is not successful stays so by the same equivalence, but its error may differ"
  },
  {
   "property": "C94",
   "status": "proved",
   "theorems": [
    "C94_text",
    "C94_builtin"
   ],
   "note": "C94_builtin under idna_on_builtin as for C53; private_gaps is the list of names"
  },
  {
   "property": "C95",
   "status": "proved",
   "theorems": [
    "C95_refines",
    "C95_complete",
    "C95_tree",
    "C95_extract",
    "C95_races"
   ],
   "note": "sequentially consistent memory; a map access is one step; nodes are named by the trie they are allocated for"
  },
  {
   "property": "C96",
   "status": "proved",
   "theorems": [
    "C96_extract",
    "C96_one_reading",
    "C96_on_or_off",
    "C96_unreadable",
    "C96_iff",
    "C96_swap",
    "C96_end",
    "C96_plain",
    "C96_dash",
    "C96_unknown",
    "C96_before_refuted"
   ],
   "note": "cobra and pflag modelled from knowledge of their code; C96_before_refuted shows that options before the name of the command are not read like those behind it"
  },
  {
   "property": "C97",
   "status": "proved",
   "theorems": [
    "C97_extract",
    "C97_fails",
    "C97_otherwise",
    "C97_status"
   ],
   "note": "texts of cobra (help, version, usage) and what is written to standard error are not modelled"
  },
  {
   "property": "C98",
   "status": "proved",
   "theorems": [
    "C98_process",
    "C98_file",
    "C98_other_files",
    "C98_read",
    "C98_serves",
    "C98_one_list",
    "C98_file_exact",
    "C98_read_exact",
    "C98_used_exact",
    "C98_mixture_refuted"
   ],
   "note": "operations other than reading and writing a file happen at once; no other program touches the files, and none is removed; C98_mixture_refuted: a New may use a rule that is in neither the old nor the new list"
  },
  {
   "property": "C99",
   "status": "proved",
   "theorems": [
    "C99_new_same",
    "C99_update_same",
    "C99_new",
    "C99_update",
    "C99_unique"
   ],
   "note": "errors of Close are ignored, as in the code; reading the body is part of the download, so that the body is in use only while it is open"
  },
  {
   "property": "C100",
   "status": "proved",
   "theorems": [
    "C100_update",
    "C100_new",
    "C100_new_lines",
    "C100_update_unique",
    "C100_new_unique",
    "C100_extract",
    "C100_reason_refuted",
    "C100_updated_refuted",
    "C100_silent_refuted"
   ],
   "note": "the texts of errors and the time stamps are not modelled; C100_reason_refuted: after a failed Update the line about falling back says <nil>; C100_updated_refuted: Update logs success and returns an error; C100_silent_refuted: a download that is no list is not logged"
  },
  {
   "property": "C101",
   "status": "proved",
   "theorems": [
    "C101_refines",
    "C101_complete",
    "C101_latest",
    "C101_extract",
    "C101_overlap_refuted"
   ],
   "note": "a map access is one access, which makes no difference here by C101_latest; the allocator orders itself; includePrivateSuffix is written once; C101_overlap_refuted is the overlapping case"
  },
  {
   "property": "C102",
   "status": "proved",
   "theorems": [
    "C102_torn_refuted",
    "C102_returns",
    "C102_some_trie",
    "C102_star_refuted"
   ],
   "note": "the trie need not be one of a list of rules; C102_star_refuted shows that the condition on '*' is needed; C102_torn_refuted shows that it is needed to see a map as a whole"
  },
  {
   "property": "C103",
   "status": "proved",
   "theorems": [
    "C103_refines",
    "C103_writes",
    "C103_lists",
    "C103_extract",
    "C103_answers",
    "C103_fresh"
   ],
   "note": "a map access is one access, which matters only for Extracts that an Update overlaps (C102_torn_refuted); C101_overlap_refuted and the Example show that an Extract that an Update overlaps may answer by no list"
  },
  {
   "property": "C104",
   "status": "proved",
   "theorems": [
    "C104_map",
    "C104_build",
    "C104_limit_refuted"
   ],
   "note": "the library hashmap is written down from knowledge of its code; the hash function is a parameter; C104_limit_refuted: 65536 labels below one node with one hash make New crash"
  },
  {
   "property": "C105",
   "status": "proved",
   "theorems": [
    "C105_demo",
    "C105_text"
   ],
   "note": "what is written to the log is not modelled; the answers of the IDNA library for the hosts of the program are assumed in C105_text"
  },
  {
   "property": "C106",
   "status": "proved",
   "theorems": [
    "C106_pointers",
    "C106_pointers_all",
    "C106_weak",
    "C106_calm",
    "C106_all",
    "C106_pointers_same",
    "C106_weak_more",
    "C106_weak_same",
    "C106_overlaps"
   ],
   "note": "a map of a node is read and written as a whole; the Extracts left out are those of C101_overlap_refuted"
  },
  {
   "property": "C107",
   "status": "proved",
   "theorems": [
    "C107_set",
    "C107_bytes",
    "C107_package"
   ],
   "note": "the library intset is written down from knowledge of its code; the bucket size is a parameter"
  },
  {
   "property": "C108",
   "status": "proved",
   "theorems": [
    "C108_extract",
    "C108_widths",
    "C108_digits",
    "C108_atoi"
   ],
   "note": "positions handed out by range loops are not computed by the code; IDNA results are strings, shorter than the largest int"
  },
  {
   "property": "C109",
   "status": "proved",
   "theorems": [
    "C109_table",
    "C109_extract",
    "C109_pieces",
    "C109_plain",
    "C109_escape_refuted"
   ],
   "note": "the library fatih/color is written down from knowledge of its code; C109_escape_refuted shows that the condition on ESC is needed"
  },
  {
   "property": "C110",
   "status": "proved",
   "theorems": [
    "C110_same",
    "C110_linear",
    "C110_punycode",
    "C110_walk"
   ],
   "note": "the counter is part of the model (Steps.v); C110_same ties it to Extract; the IDNA library is not counted"
  },
  {
   "property": "C111",
   "status": "proved",
   "theorems": [
    "C111_nodes",
    "C111_labels",
    "C111_file"
   ],
   "note": "nodes are counted in the model of the trie (C95 relates it to the memory of the program)"
  },
  {
   "property": "C112",
   "status": "proved",
   "theorems": [
    "C112_load",
    "C112_library"
   ],
   "note": "the counter is part of the model (LoadSteps.v); reading the file and the IDNA library are not counted"
  }
 ]
}