STATUS = {
 "C44": ("proved", "for every character string and every byte"),
 "C45": ("proved", "for every string, every set of proper characters (valid runes other than U+FFFD, as all sets of the code are) and all three modes"),

 "C01": ("proved", "all URLs, options, tries (not only those of rule lists) and IDNA behaviours; Go panics are the Panic outcome of the model"),
 "C02": ("proved", "all URLs and all sequences of the whitespace characters"),
 "C03": ("proved", "longest match and emptiness, all byte strings"),
 "C04": ("partial", "false as stated (C04_refuted: example.com//path has Scheme example.com//); C04_partial: Scheme is empty when the first run of slashes has length one. Missing: the claim for a colon-less name before //, where it fails; C70 says exactly when it holds"),
 "C05": ("proved", "the decomposition is unique and total (C05_front)"),
 "C07": ("proved", "plain and bracketed hosts; for a bracketed host whose port text contains brackets the error is another one"),
 "C08": ("partial", "false as stated (C08_refuted: port +80); C08_partial: digits only, value <= 65535, when the port has no sign. Missing: ports with a sign, where it fails; C72 says exactly when it holds"),
 "C09": ("proved", "when the port is invalid or the brackets are, Path is empty for both"),
 "C10": ("proved", ""),
 "C11": ("partial", "false as stated (C11_refuted_zeros, C11_refuted_trailing); C11_partial: RFC 4291 literal unless it has five hex digits in a row, non-ASCII separators or a trailing dot; C11_complete: every RFC 4291 literal is accepted; C73 says exactly when it holds"),
 "C12": ("proved", "about isIPv4 itself; see C13 for Extract"),
 "C13": ("proved", ""),
 "C15": ("proved", ""),
 "C16": ("proved", ""),
 "C17": ("proved", ""),
 "C18": ("proved", ""),
 "C19": ("partial", "false as stated (C19_refuted_runes, C19_refuted_no_suffix); C19_partial: holds for all forbidden characters but U+0378, U+206B, U+2A74 when there is a suffix; C19_tld_partial: also without a suffix if the TLD of the host is itself a suffix or unknown; C75 says exactly when it holds"),
 "C20": ("partial", "false as stated (C20_refuted_separator, C20_refuted_no_suffix); C20_partial: holds when the host has no U+FF61 and there is a suffix; C20_tld_partial: also without a suffix if the TLD of the host is itself a suffix or unknown; C76 says which labels can be empty"),
 "C27": ("proved", ""),
 "C28": ("proved", ""),
 "C50": ("proved", ""),
 "C06": ("partial", "false as stated (C06_refuted: rule co.za without za); C06_partial: holds when the TLD of the host is a suffix or unknown and no rule of several labels ends in a number; C71 says exactly when it holds"),
 "C14": ("partial", "false as stated (C14_refuted: rule 0.1); C14_partial: holds for every list without a rule of several labels ending in a number; C74 says exactly when it holds"),
 "C21": ("proved", "every rule list; C21_complete: LDH hosts are accepted iff the walk leaves a label"),
 "C22": ("proved", "with the regularity conditions spelled out in RuleSpec.regular; C22_regular_list: a check that a list is regular for every host; C22_unique: the algorithm has one answer there; C22_total: it has an answer on every list"),
 "C23": ("partial", "false as stated (C23_refuted: rule co.za without za); C22 is the part that holds; C82 says for which hosts it holds, C53 with the built-in list"),
 "C24": ("proved", "for labels not named by an exception rule (see C25)"),
 "C25": ("partial", "false as stated (C25_refuted: a.%77ww.ck); C25_partial: holds for a label written literally; C83 is the exact condition"),
 "C26": ("proved", ""),
 "C29": ("proved", ""),
 "C30": ("proved", ""),
 "C48": ("partial", "false as stated (C48_refuted: example.COM); C48_partial: holds for the letters of SubDomain, which can be replaced by any text; C84 is the exact condition"),
 "C49": ("proved", ""),
 "C31": ("proved", "every file content and every IDNA behaviour"),
 "C32": ("proved", "for the tries trieConstruct makes from two files, and for the rules"),
 "C33": ("proved", "for the tries trieConstruct makes from two files, and for the rules"),
 "C34": ("proved", "in any environment: nothing is assumed about the answers of file system, network and clock; C34_total: New returns if its operations do"),
 "C35": ("partial", "false as stated (C35_refuted: path with leading blank); C35_partial: holds for paths without surrounding white space. Missing: padded paths, where it fails; C91 says exactly when the file is used"),
 "C36": ("partial", "storing: proved in any environment (C36_stored_new, C36_stored_update); using: false as stated (C36_used_refuted: path with leading blank), C36_used_partial: holds for paths without surrounding white space; C91_markers covers all paths"),
 "C37": ("proved", "on a file system without other users, with a moving clock"),
 "C38": ("proved", "C38_built_in, C38_fallback: over all histories of New and Update in any environment"),
 "C39": ("proved", "in any environment; C39_others: nor does Update ever affect another extractor"),
 "C40": ("partial", "false as stated (C40_refuted: a longer old file keeps its end, since the file is opened without O_TRUNC); C40_partial: holds if no write failed and nothing shorter than the old file was written; C40_stored: the file always is the body followed by what was there beyond its length; C77 says exactly when it holds"),
 "C41": ("partial", "false as stated (C41_refuted: the next New uses a mixture); C41_partial: the file is the old text with its beginning overwritten by pieces of downloaded lists, other files are unchanged; C92 says exactly which texts can be left"),
 "C42": ("proved", "in any environment; any source list, and the two sources of the code"),
 "C43": ("proved", "every interleaving of any number of New, Update and Extract calls with sequentially consistent memory, in any environment"),
 "C51": ("proved", "in any environment"),
 "C52": ("proved", "every interleaving of any number of New, Update and Extract calls with sequentially consistent memory, in any environment"),
 "C46": ("proved", "every url, result and host type number; C46_recover: the text determines url and result if no component contains a line feed"),
 "C47": ("proved", "in any environment; C47_cached_list: which list is used when the cache file is fresh"),
 "C53": ("proved", "for labels without %, + and rule syntax; for every idna.ToASCII that leaves the ASCII lines of the list alone and converts the 457 others as listed in Builtin.v (idna_on_builtin); the library as modelled does (C61_builtin)"),
 "C54": ("proved", ""),
 "C55": ("proved", "under idna_on_builtin as for C53; C55_refuted_za: the condition on za is needed; empty labels: unless the host contains U+FF61, as in C20"),
 "C56": ("proved", ""),
 "C57": ("proved", "for rejected hosts the kind of error can change (C57_errors_differ)"),
 "C58": ("proved", "C58_refuted_hyphen, C58_refuted_ipv4, C58_refuted_tld: each condition is needed; C58_builtin under idna_on_builtin as for C53"),
 "C59": ("proved", "in any environment; C59_offline_suffix under idna_on_builtin as for C53"),
 "C60": ("proved", "on a file system without other users, with a moving clock; the temporary folder's path is assumed to have no surrounding white space"),
 "C61": ("proved", "of the model of x/net/idna in Idna.v, for both variants of its treatment of ACE labels that decode to ASCII"),
 "C62": ("proved", "of the model of x/net/idna in Idna.v; C62_refuted_mixed, C62_refuted_exception: each condition is needed; C62_refuted_converse: acceptance does not carry over to the Unicode form"),
 "C63": ("proved", "C63_errors for every IDNA library, C63_accepted and C63_rejected for the model of x/net/idna in Idna.v"),
 "C64": ("proved", "of the model of data/gen.go in Gen.v; time stamps without line feed; C64_refuted_status: an error page becomes the built-in list; C64_quote: a back quote leaves a file that is no Go"),
 "C65": ("proved", ""),
 "C66": ("proved", ""),
 "C67": ("proved", "an equivalence with the inductive description extracts of ErrSpec.v"),
 "C68": ("proved", "runs in which no seek or write fails; failing writes are covered by C40 and C41"),
 "C69": ("proved", "sequential histories in which no seek or write fails; concurrent calls are the subject of C43 and C52"),
 "C70": ("proved", "the exact condition for C04"),
 "C71": ("proved", "the exact condition for C06"),
 "C72": ("proved", "the exact condition for C08"),
 "C73": ("proved", "the exact condition for C11"),
 "C74": ("proved", "the exact condition for C14"),
 "C75": ("proved", "the exact condition for C19"),
 "C76": ("proved", "the only ways in which C20 fails; both occur (C20_refuted_separator, C20_refuted_no_suffix)"),
 "C77": ("proved", "the exact condition for C40, and the extent to which C41 fails"),
 "C78": ("proved", "operations on shared memory are those of Calls.v and Update.v; that Update races is shown by two reachable states"),
 "C79": ("proved", "for an arbitrary relation as environment"),
 "C80": ("proved", "look-ups are the ReadNode operations of the model, two per iteration at fasttld.go:306-327"),
 "C81": ("proved", "a request that never returns is not modelled (http.Get has no timeout): a source answers or fails"),
 "C82": ("proved", "the exact condition for C23; C82_builtin under idna_on_builtin as for C53"),
 "C83": ("proved", "the exact condition for C25, and for C24 with any exceptions"),
 "C84": ("proved", "the exact condition for C48; C84_builtin under idna_on_builtin as for C53"),
 "C85": ("proved", "steps of the memory are those of Calls.v and Update.v, in the order in which they happen; that Update races (C78) is a matter of the Go memory model, which is not modelled"),
 "C86": ("proved", "the exact condition for C23, for escaped hosts too"),
 "C87": ("proved", "order of beginnings and ends as in C85; that Update races (C78) is a matter of the Go memory model, which is not modelled"),
 "C88": ("proved", "the states of the URL Standard's parser up to the path, transcribed in BrowserSpec.v; host parsing (IDNA, IPv4 numbers) is not compared; C88_no_scheme_refuted is the excepted case"),
 "C89": ("proved", "net/url.Parse up to the path, transcribed in BrowserSpec.v; unescaping is not compared"),
 "C90": ("proved", "C90_byte is the consequence for single bytes; which labels are checked exactly is C65"),
 "C91": ("proved", "on a file system without other users, with a moving clock and any network"),
 "C92": ("proved", "writes at the beginning of the file only, since the code seeks there; blocks reach the disk in order"),
 "C93": ("proved", "C93_matching_refuted and C93_numeric_refuted show that the conditions are needed; a result that is not successful stays so by the same equivalence, but its error may differ"),
 "C94": ("proved", "C94_builtin under idna_on_builtin as for C53; private_gaps is the list of names"),
 "C95": ("proved", "sequentially consistent memory; a map access is one step; nodes are named by the trie they are allocated for"),
 "C96": ("proved", "cobra and pflag modelled from knowledge of their code; C96_before_refuted shows that options before the name of the command are not read like those behind it"),
 "C97": ("proved", "texts of cobra (help, version, usage) and what is written to standard error are not modelled"),
 "C98": ("proved", "operations other than reading and writing a file happen at once; no other program touches the files, and none is removed; C98_mixture_refuted: a New may use a rule that is in neither the old nor the new list"),
 "C99": ("proved", "errors of Close are ignored, as in the code; reading the body is part of the download, so that the body is in use only while it is open"),
 "C100": ("proved", "the texts of errors and the time stamps are not modelled; C100_reason_refuted: after a failed Update the line about falling back says <nil>; C100_updated_refuted: Update logs success and returns an error; C100_silent_refuted: a download that is no list is not logged"),
 "C101": ("proved", "a map access is one access, which makes no difference here by C101_latest; the allocator orders itself; includePrivateSuffix is written once; C101_overlap_refuted is the overlapping case"),
 "C102": ("proved", "the trie need not be one of a list of rules; C102_star_refuted shows that the condition on '*' is needed; C102_torn_refuted shows that it is needed to see a map as a whole"),
 "C103": ("proved", "a map access is one access, which matters only for Extracts that an Update overlaps (C102_torn_refuted); C101_overlap_refuted and the Example show that an Extract that an Update overlaps may answer by no list"),
 "C104": ("proved", "the library hashmap is written down from knowledge of its code; the hash function is a parameter; C104_limit_refuted: 65536 labels below one node with one hash make New crash"),
 "C105": ("proved", "what is written to the log is not modelled; the answers of the IDNA library for the hosts of the program are assumed in C105_text"),
 "C106": ("proved", "a map of a node is read and written as a whole; the Extracts left out are those of C101_overlap_refuted"),
 "C107": ("proved", "the library intset is written down from knowledge of its code; the bucket size is a parameter"),
 "C108": ("proved", "positions handed out by range loops are not computed by the code; IDNA results are strings, shorter than the largest int"),
 "C109": ("proved", "the library fatih/color is written down from knowledge of its code; C109_escape_refuted shows that the condition on ESC is needed"),
 "C110": ("proved", "the counter is part of the model (Steps.v); C110_same ties it to Extract; the IDNA library is not counted"),
 "C111": ("proved", "nodes are counted in the model of the trie (C95 relates it to the memory of the program)"),
 "C112": ("proved", "the counter is part of the model (LoadSteps.v); reading the file and the IDNA library are not counted"),
}
