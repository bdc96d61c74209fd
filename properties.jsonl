{"id": "C01", "title": "Extract always returns", "statement": "Extract never panics (no slice or index is ever out of range) and always terminates, returning a result and possibly an error.", "quantifier": "every URL byte string (valid UTF-8 or not), every option combination, every suffix trie and every behaviour of the IDNA library", "why_tests_cant": "The input space is all byte strings; the code slices by byte index in a dozen places after decoding runes forwards and backwards, so one malformed UTF-8 prefix could break an index.", "anchors": ["fasttld.go:Extract", "strings.go:fastTrim", "strings.go:lastIndexAny", "net.go:isIPv4", "net.go:isIPv6"]}
{"id": "C02", "title": "Surrounding whitespace is irrelevant", "statement": "Adding any sequence of the library's whitespace characters before and/or after a URL does not change the result or the error of Extract.", "quantifier": "every URL, every sequence of whitespace runes on either side", "why_tests_cant": "Unbounded number of whitespace sequences; interacts with malformed UTF-8 at the ends of the URL.", "anchors": ["fasttld.go:Extract", "strings.go:fastTrim", "strings.go:whitespace"]}
{"id": "C03", "title": "Scheme is recognised exactly", "statement": "Scheme is the maximal prefix of the trimmed URL that matches ([A-Za-z][A-Za-z0-9+.-]*:?)?[/\\\\]{2,}, and empty exactly when no prefix matches.", "quantifier": "every byte string", "why_tests_cant": "A scanner over arbitrary length strings with three state variables; needs induction over the string.", "anchors": ["strings.go:getSchemeEndIndex", "fasttld.go:Extract"]}
{"id": "C04", "title": "Only a real scheme is consumed", "statement": "A URL without 'scheme:' or leading '//' keeps its host: text before a '//' that has no colon is not taken for a scheme (e.g. 'example.com//path').", "quantifier": "every URL", "why_tests_cant": "A universally quantified negative; one counterexample refutes it.", "anchors": ["strings.go:getSchemeEndIndex"]}
{"id": "C05", "title": "UserInfo is recognised exactly", "statement": "UserInfo is everything, after the scheme, before the last '@' that precedes the first of / \\ ? # [ ]; it is empty if there is no such '@'; UserInfo never contains one of / \\ ? # [ ] and no '@' is left in the authority after it.", "quantifier": "every URL", "why_tests_cant": "Needs a statement about the last occurrence before a first occurrence in arbitrary strings.", "anchors": ["strings.go:indexLastByteBefore", "fasttld.go:Extract"]}
{"id": "C06", "title": "Extraction is lossless", "statement": "When Extract succeeds without Punycode conversion, the trimmed URL is exactly Scheme, then UserInfo and '@' (if there was one), then the host, then ':' and Port (if there was a port), then Path; the host is '[' Domain ']' for IPv6, Domain and trailing label separators for IPv4, and SubDomain sep Domain sep Suffix with trailing separators for host names. No byte is lost, duplicated or altered.", "quantifier": "every URL for which Extract succeeds", "why_tests_cant": "Reassembly has to hold for every accepted string, not for a sample.", "anchors": ["fasttld.go:Extract"]}
{"id": "C07", "title": "Ports are validated", "statement": "If Extract succeeds and Port is not empty then Port is what strconv.Atoi accepts as an integer in 0..65535; a host followed by ':' and anything else is rejected with 'invalid port' (including the empty port).", "quantifier": "every URL", "why_tests_cant": "Every port text of any length, including overflow-sized ones.", "anchors": ["fasttld.go:Extract"]}
{"id": "C08", "title": "Port is a plain decimal number", "statement": "If Extract succeeds and Port is not empty then Port consists of decimal digits only.", "quantifier": "every URL", "why_tests_cant": "Universal statement over accepted URLs; a sign character is a counterexample.", "anchors": ["fasttld.go:Extract"]}
{"id": "C09", "title": "The path never influences the other components", "statement": "Once the authority is complete, replacing the path/query/fragment (anything from the first / \\ ? #) by any other one changes only Path: the error and every other field stay the same, and Path is the replaced text verbatim.", "quantifier": "every authority, every two paths", "why_tests_cant": "Relates two runs of the program over all pairs of inputs; paths may contain '@', brackets, ':' and malformed bytes.", "anchors": ["fasttld.go:Extract"]}
{"id": "C10", "title": "Bracketed hosts are exactly IPv6 literals", "statement": "When the host starts with '[', Extract succeeds iff the brackets contain a literal accepted by the library's IPv6 grammar (groups of hex digits with value <= 0xFFFF, at most one '::' standing for at least one group, optional trailing IPv4) and a valid port/path or nothing follows; then HostType is IPv6 and Domain and RegisteredDomain are the bracket contents.", "quantifier": "every URL", "why_tests_cant": "The grammar is infinite (unbounded leading zeros) and the recogniser is a hand written loop with seven exits.", "anchors": ["net.go:isIPv6", "net.go:xtoi", "fasttld.go:Extract"]}
{"id": "C11", "title": "IPv6 groups follow RFC 4291", "statement": "Every IPv6 literal accepted has groups of one to four hexadecimal digits, and an embedded IPv4 address ends the literal.", "quantifier": "every accepted IPv6 literal", "why_tests_cant": "Universal over accepted strings.", "anchors": ["net.go:isIPv6", "net.go:xtoi", "net.go:isIPv4"]}
{"id": "C12", "title": "IPv4 recogniser is exact", "statement": "A string is recognised as IPv4 iff it is four decimal numbers 0..255 without superfluous leading zeros, separated by single label separators (. U+3002 U+FF0E U+FF61), followed by any number of trailing label separators.", "quantifier": "every byte string", "why_tests_cant": "Infinite language (trailing separators), overflow guard in the digit loop.", "anchors": ["net.go:isIPv4", "net.go:dtoi"]}
{"id": "C13", "title": "IPv4 hosts are classified as IPv4", "statement": "Extract reports HostType IPv4 iff it succeeds and the (converted) host satisfies the IPv4 recogniser; a host that satisfies it is never reported as HostName and never rejected by the host name checks.", "quantifier": "every URL", "why_tests_cant": "Depends on the interplay with the suffix walk, which runs before the IPv4 test.", "anchors": ["fasttld.go:Extract", "net.go:isIPv4"]}
{"id": "C14", "title": "An IPv4 result carries the whole address", "statement": "For an IPv4 host, Domain and RegisteredDomain are the complete address (without trailing separators), SubDomain and Suffix are empty, whatever the suffix list contains.", "quantifier": "every IPv4 URL and every suffix list", "why_tests_cant": "Quantifies over suffix lists as well as URLs.", "anchors": ["fasttld.go:Extract"]}
{"id": "C15", "title": "Success means a host was found", "statement": "If Extract returns no error then HostType is HostName, IPv4 or IPv6 and Domain is not empty; if it returns an error then HostType is None, except that a bracketed IPv6 host with an invalid port keeps HostType IPv6.", "quantifier": "every URL byte string (valid UTF-8 or not), every option combination, every suffix trie and every behaviour of the IDNA library", "why_tests_cant": "Every control path has to be covered.", "anchors": ["fasttld.go:Extract"]}
{"id": "C16", "title": "RegisteredDomain is Domain plus Suffix", "statement": "For a successful host name extraction, RegisteredDomain = Domain + separator + Suffix when Suffix is non-empty (separator being one of the four label separators), and is empty when Suffix is empty.", "quantifier": "every URL byte string (valid UTF-8 or not), every option combination, every suffix trie and every behaviour of the IDNA library", "why_tests_cant": "Index arithmetic over three moving indices, all byte strings.", "anchors": ["fasttld.go:Extract"]}
{"id": "C17", "title": "Domain is a single label", "statement": "For a successful host name extraction Domain is one label: it is non-empty, contains none of the four label separators, and is delimited by separators or the ends of the host.", "quantifier": "every URL byte string (valid UTF-8 or not), every option combination, every suffix trie and every behaviour of the IDNA library", "why_tests_cant": "Multi-byte separators found by decoding backwards in possibly malformed text.", "anchors": ["fasttld.go:Extract", "strings.go:lastIndexAny"]}
{"id": "C18", "title": "IgnoreSubDomains only clears SubDomain", "statement": "Extract with IgnoreSubDomains=true returns the same error and the same result as with false, except that SubDomain is empty.", "quantifier": "every URL byte string (valid UTF-8 or not), every option combination, every suffix trie and every behaviour of the IDNA library", "why_tests_cant": "Relates two runs on all inputs.", "anchors": ["fasttld.go:Extract"]}
{"id": "C19", "title": "No forbidden character in an accepted host name", "statement": "In a successful host name extraction neither Domain nor SubDomain contains a character of the library's invalid host name character list.", "quantifier": "every URL byte string (valid UTF-8 or not), every option combination, every suffix trie and every behaviour of the IDNA library", "why_tests_cant": "Must hold for each of ~80 characters at each position of every string.", "anchors": ["strings.go:hasInvalidChars", "strings.go:invalidHostNameChars"]}
{"id": "C20", "title": "No empty labels in an accepted host name", "statement": "A successfully extracted host name does not start with a label separator and has no two consecutive label separators except at its end, whichever of the four separators are used.", "quantifier": "every URL byte string (valid UTF-8 or not), every option combination, every suffix trie and every behaviour of the IDNA library", "why_tests_cant": "Quantifies over positions and over mixes of four separators.", "anchors": ["strings.go:hasInvalidChars", "fasttld.go:Extract"]}
{"id": "C21", "title": "Suffix is the right-to-left rule walk", "statement": "For every suffix list the suffix is exactly what the walk documented in the README yields on the label list: labels are consumed from the right while the path is a prefix of some rule, stopping at a leaf, at an unknown label or at a wildcard node (whose label is consumed unless an exception rule names it).", "quantifier": "every rule list and every host", "why_tests_cant": "Joint induction over the list of labels and the rule set.", "anchors": ["fasttld.go:Extract", "fasttld.go:trieConstruct", "fasttld.go:nestedDict"]}
{"id": "C22", "title": "Suffix agrees with the Public Suffix List algorithm on regular lists", "statement": "If along the host's labels the rule list is regular (the TLD is a rule or has a wildcard, the walk does not dead-end inside a longer rule, wildcard nodes have only exception siblings), Suffix is the one the publicsuffix.org algorithm prescribes (longest matching rule, exception rules win).", "quantifier": "every rule list and host meeting the regularity condition", "why_tests_cant": "Compares two algorithms on all rule lists and hosts.", "anchors": ["fasttld.go:Extract", "fasttld.go:trieConstruct"]}
{"id": "C23", "title": "Suffix agrees with the Public Suffix List algorithm on every list", "statement": "For every rule list (e.g. one with co.za but no za rule, as the real list) Suffix is the one the publicsuffix.org algorithm prescribes.", "quantifier": "every rule list and every host", "why_tests_cant": "Universal over rule lists; counterexamples exist in the shipped list.", "anchors": ["fasttld.go:Extract", "fasttld.go:trieConstruct"]}
{"id": "C24", "title": "Percent-encoding does not hide a suffix", "statement": "Replacing bytes of the labels of a host by percent-escapes does not change which labels form the suffix, for non-wildcard rules.", "quantifier": "every host, every choice of escaped bytes", "why_tests_cant": "Relates infinitely many encodings of the same host.", "anchors": ["fasttld.go:Extract"]}
{"id": "C25", "title": "Percent-encoding does not hide an exception rule", "statement": "A label that an exception rule names is recognised as such also when it is percent-encoded.", "quantifier": "every host", "why_tests_cant": "Universal; counterexample exists.", "anchors": ["fasttld.go:Extract"]}
{"id": "C26", "title": "Label separators are interchangeable for suffix detection", "statement": "Replacing label separators by other ones of the four does not change the labels reported in Suffix and Domain nor, up to the separators, SubDomain, whenever both forms are accepted.", "quantifier": "every host, every assignment of separators", "why_tests_cant": "4^n assignments for n separators.", "anchors": ["fasttld.go:Extract", "strings.go:lastIndexAny", "strings.go:sepSize"]}
{"id": "C27", "title": "Malformed percent escapes are rejected", "statement": "A host (not IPv6) containing a '%' that is not followed by two hexadecimal digits makes Extract fail, without Domain or Suffix; a host in which every '%' is followed by two hex digits is never rejected for that reason.", "quantifier": "every URL", "why_tests_cant": "Every position of every string.", "anchors": ["fasttld.go:Extract"]}
{"id": "C28", "title": "Punycode conversion equals extracting the converted host", "statement": "With ConvertURLToPunyCode the host components are those of the host that the IDNA library returns for the percent-decoded host; if the library rejects it, Extract fails with 'empty domain'. The other components are unaffected by the option.", "quantifier": "every URL byte string (valid UTF-8 or not), every option combination, every suffix trie and every behaviour of the IDNA library", "why_tests_cant": "The IDNA library's result is arbitrary.", "anchors": ["fasttld.go:Extract", "strings.go:formatAsPunycode"]}
{"id": "C29", "title": "Rule order and duplicates are irrelevant", "statement": "Two rule lists with the same set of rules give extractors with identical behaviour on every URL.", "quantifier": "every two rule lists with equal sets, every URL", "why_tests_cant": "n! orders; trie construction mutates nodes in place.", "anchors": ["fasttld.go:nestedDict", "fasttld.go:trieConstruct"]}
{"id": "C30", "title": "The trie stores exactly the rules", "statement": "A label path exists in the trie iff it is a prefix (from the TLD) of some rule; it is marked as a suffix iff it is a rule, or a TLD with a wildcard directly below it. Adding rules never unmarks or removes a path.", "quantifier": "every rule list", "why_tests_cant": "Induction over insertion sequences.", "anchors": ["fasttld.go:nestedDict", "fasttld.go:trieConstruct"]}
{"id": "C31", "title": "The list file is split into sections correctly", "statement": "Rules after the '// ===BEGIN PRIVATE DOMAINS===' line are private, all others public; the list of all rules is the public rules followed by the private ones; every non-comment non-blank line contributes its ASCII form, and its Unicode form too if different; lines the IDNA library rejects contribute nothing.", "quantifier": "every file content", "why_tests_cant": "Induction over the lines of arbitrary files.", "anchors": ["psl.go:processLine", "psl.go:getPublicSuffixList"]}
{"id": "C32", "title": "Private rules are invisible unless requested", "statement": "With IncludePrivateSuffix=false the behaviour of the extractor depends only on the part of the file before the private section marker.", "quantifier": "every two files that agree up to the marker, every URL", "why_tests_cant": "Relates pairs of files and all URLs.", "anchors": ["psl.go:processLine", "fasttld.go:trieConstruct"]}
{"id": "C33", "title": "Comments and blank lines are ignored", "statement": "Inserting or removing blank lines and '//' comment lines (other than the private section marker) anywhere in the file does not change the extractor.", "quantifier": "every file, every position", "why_tests_cant": "Unbounded.", "anchors": ["psl.go:processLine"]}
{"id": "C34", "title": "New always yields an extractor", "statement": "New never returns an error: whatever the state of the file system and of the network it returns an extractor built from a readable list or from the built-in list.", "quantifier": "every file system state, every network behaviour", "why_tests_cant": "Every combination of environment failures.", "anchors": ["fasttld.go:New", "psl.go:newHardcodedPSL"]}
{"id": "C35", "title": "A valid custom list file is used", "statement": "If CacheFilePath names a readable file with the four section markers, New's extractor is built from exactly that file's rules and nothing is downloaded.", "quantifier": "every path and file content", "why_tests_cant": "Universal over paths and contents; a path with surrounding blanks is a counterexample for the full statement.", "anchors": ["fasttld.go:New", "psl.go:checkCacheFile"]}
{"id": "C36", "title": "Lists without the section markers are never used or stored", "statement": "A downloaded body or a cache file lacking one of the four section marker texts is never written to the cache nor used to build the extractor that New returns.", "quantifier": "every body and file content", "why_tests_cant": "Substring search over arbitrary contents.", "anchors": ["psl.go:validPSLDelimiters", "psl.go:update", "psl.go:checkCacheFile"]}
{"id": "C37", "title": "The cache is refreshed exactly when stale", "statement": "With no valid custom file, New downloads a list iff the temporary folder can be opened, the default cache file in it can be opened for writing, and this file is invalid or older than 72 hours; a fresh valid cache file is used and causes no network access. (The path of the temporary folder is assumed to have no leading white space.)", "quantifier": "every age and file system state", "why_tests_cant": "Boundary over a continuous quantity, every environment.", "anchors": ["fasttld.go:New", "psl.go:checkCacheFile"]}
{"id": "C38", "title": "Update is a no-op on custom lists", "statement": "Update on an extractor whose list is not the default cache file returns an error and changes neither the extractor nor any file, and performs no download; in particular an extractor that fell back to the built-in list can never be updated.", "quantifier": "every extractor state and environment, every history of operations", "why_tests_cant": "Histories.", "anchors": ["psl.go:Update"]}
{"id": "C39", "title": "A failed Update leaves the extractor working as before", "statement": "If Update returns an error, every later Extract on that extractor behaves as it did before the call.", "quantifier": "every environment, every URL", "why_tests_cant": "Every failure point of the update.", "anchors": ["psl.go:Update", "psl.go:update"]}
{"id": "C40", "title": "A successful Update installs exactly the downloaded list", "statement": "After a successful Update the cache file content is exactly the downloaded body and the extractor is built from exactly its rules.", "quantifier": "every old file content and downloaded body", "why_tests_cant": "Quantifies over pairs of old and new contents.", "anchors": ["psl.go:Update", "psl.go:update"]}
{"id": "C41", "title": "A crash during Update leaves an old or a new list", "statement": "If the process stops at any point during Update, the cache file afterwards contains the complete old or the complete new list, so that the next New is not built from a mixture.", "quantifier": "every crash point", "why_tests_cant": "Crash points cannot be enumerated by unit tests.", "anchors": ["psl.go:Update", "psl.go:update"]}
{"id": "C42", "title": "Mirrors are tried in order", "statement": "Update uses the first source, in order, whose download succeeds with the section markers and can be written; it fails iff there is none.", "quantifier": "every outcome of every source", "why_tests_cant": "All outcome sequences.", "anchors": ["psl.go:update", "psl.go:downloadFile"]}
{"id": "C43", "title": "Extract is read-only and isolated from Update", "statement": "Extract never changes the extractor; in any interleaving of Extract and Update calls each Extract behaves as with the list installed at one moment during the call; this is always the complete list of a text that is built in or was read before, never a half-built one.", "quantifier": "every interleaving", "why_tests_cant": "Schedules.", "anchors": ["fasttld.go:Extract", "psl.go:Update"]}
{"id": "C44", "title": "ASCII sets are exact", "statement": "For every string of characters, the set built from it contains a byte iff that byte is an ASCII character of the string; bytes >= 0x80 are never contained.", "quantifier": "every character string, every byte", "why_tests_cant": "All sets and bytes, bit-level arithmetic.", "anchors": ["strings.go:makeASCIISet", "strings.go:asciiSet.contains"]}
{"id": "C45", "title": "Trimming removes exactly the surrounding set characters", "statement": "fastTrim removes the maximal prefix and/or suffix consisting of characters of the set (according to the mode) and nothing else.", "quantifier": "every string, set and mode", "why_tests_cant": "Forward and backward decoding of arbitrary bytes have to agree.", "anchors": ["strings.go:fastTrim"]}
{"id": "C46", "title": "PrintRes shows every component verbatim", "statement": "The text printed by PrintRes is the url and the nine components, each verbatim on its own labelled line in fixed order, with the label highlighted iff the component is non-empty.", "quantifier": "every result value", "why_tests_cant": "All strings.", "anchors": ["print.go:PrintRes"]}
{"id": "C47", "title": "The CLI prints the partial result also on errors", "statement": "The extract command prints exactly Extract's result for the argument, preceded by the error line iff Extract failed.", "quantifier": "every argument, every environment", "why_tests_cant": "All inputs.", "anchors": ["cmd/fasttld/extract.go:extractCmd"]}
{"id": "C48", "title": "Suffix detection ignores letter case", "statement": "Changing the case of ASCII letters of a host does not change which labels form the suffix.", "quantifier": "every host", "why_tests_cant": "Universal; counterexample exists.", "anchors": ["fasttld.go:Extract"]}
{"id": "C49", "title": "Hosts outside the list have no suffix", "statement": "If the last label of a host is not the TLD of any rule (and there is no bare wildcard rule), Suffix and RegisteredDomain are empty and Domain is the last label.", "quantifier": "every rule list and host", "why_tests_cant": "All lists and hosts.", "anchors": ["fasttld.go:Extract"]}
{"id": "C50", "title": "Errors never carry a host name", "statement": "If Extract returns an error, then Domain is empty unless the host was a bracketed IPv6 literal with an invalid port.", "quantifier": "every URL byte string (valid UTF-8 or not), every option combination, every suffix trie and every behaviour of the IDNA library", "why_tests_cant": "Every exit.", "anchors": ["fasttld.go:Extract"]}
{"id": "C51", "title": "New leaves existing extractors alone", "statement": "New returns an extractor different from all existing ones, and every later Extract on an existing extractor behaves as before the call.", "quantifier": "every state of the program, every environment", "why_tests_cant": "All states and environments.", "anchors": ["fasttld.go:New", "psl.go:Update"]}
{"id": "C52", "title": "Only Update of an extractor changes its list", "statement": "In any interleaving of calls of New, Update and Extract, while no Update of an extractor is running nothing changes this extractor or its list, and an Extract on it behaves as with the list it had when the call started.", "quantifier": "every interleaving", "why_tests_cant": "Schedules.", "anchors": ["fasttld.go:Extract", "fasttld.go:New", "psl.go:Update"]}
{"id": "C53", "title": "The built-in list against the Public Suffix List algorithm", "statement": "With the list built into the library, Suffix is the one the publicsuffix.org algorithm prescribes for every accepted host, except exactly: hosts ending in a name that is not a rule though longer rules end in it (13 names under no, more with private suffixes), which get that name as suffix; hosts under za, whose Suffix lacks za; and hosts below eight private names beside a wildcard, whose Suffix is one label short unless an exception names the next label.", "quantifier": "every host written without escapes, both sections of the list", "why_tests_cant": "All hosts against all 9700 rules.", "anchors": ["fallback.go:hardcodedPSL", "fasttld.go:Extract", "psl.go:getHardcodedPublicSuffixList"]}
{"id": "C54", "title": "Rules of other TLDs do not matter", "statement": "The result of Extract depends only on the rules whose last label is the TLD of the host, a wildcard or an exception for the TLD: lists that agree on these rules give equal results.", "quantifier": "every two rule lists and every URL", "why_tests_cant": "All lists.", "anchors": ["fasttld.go:Extract", "fasttld.go:trieConstruct"]}
{"id": "C55", "title": "Guarantees with the built-in list", "statement": "With the list built into the library IPv4 results always carry the whole address, and for all hosts whose TLD is not za extraction is lossless, accepted host names without U+FF61 have no empty labels, and Domain and SubDomain have none of the forbidden characters but U+0378, U+206B and U+2A74.", "quantifier": "every URL, both sections of the list", "why_tests_cant": "All URLs.", "anchors": ["fallback.go:hardcodedPSL", "fasttld.go:Extract"]}
{"id": "C56", "title": "The host alone decides", "statement": "Error, SubDomain, Domain, Suffix, RegisteredDomain and HostType are determined by the converted host and IgnoreSubDomains: URLs with other scheme, user information, port (accepted), path, escapes or ConvertURLToPunyCode flag but the same converted host agree on them.", "quantifier": "every two URLs with the same converted unbracketed host, every trie", "why_tests_cant": "Relates pairs of URLs.", "anchors": ["fasttld.go:Extract"]}
{"id": "C57", "title": "Trailing label separators do not matter", "statement": "If a host is accepted, it is accepted with any other number of label separators of any kind at its end, with the same SubDomain, Domain, Suffix, RegisteredDomain and HostType.", "quantifier": "every host and every two runs of separators, every trie", "why_tests_cant": "Relates pairs of URLs.", "anchors": ["fasttld.go:Extract", "net.go:isIPv4"]}
{"id": "C58", "title": "Extracting a registered domain again", "statement": "A URL whose host is the RegisteredDomain of an accepted host name with a suffix is accepted with the same Domain, Suffix and RegisteredDomain and without SubDomain, provided the TLD is a suffix itself, the RegisteredDomain is not an IPv4 address and the Domain does not begin with a hyphen. With the built-in list: provided the TLD is not za and the Domain does not begin with a hyphen.", "quantifier": "every rule list and host", "why_tests_cant": "Relates pairs of URLs.", "anchors": ["fasttld.go:Extract", "strings.go:hasInvalidChars"]}
{"id": "C59", "title": "An extractor made offline uses the built-in list for ever", "statement": "If New could read no file, its extractor has exactly the rules of the built-in list, and every Extract on it behaves according to them whatever New and Update calls happen later, so that its suffixes are those of C53.", "quantifier": "every environment, every history of calls, every URL", "why_tests_cant": "All environments and histories.", "anchors": ["fasttld.go:New", "psl.go:newHardcodedPSL", "psl.go:Update"]}
{"id": "C60", "title": "New after Update gives the same list", "statement": "After a successful Update of an extractor, a New with the same IncludePrivateSuffix and without a usable custom file returns, within 72 hours and without any download, an extractor that behaves like the updated one on every URL.", "quantifier": "every state of the disk and of the program, every URL", "why_tests_cant": "All disk contents, including those left by a longer old file.", "anchors": ["fasttld.go:New", "psl.go:Update", "psl.go:checkCacheFile"]}
{"id": "C61", "title": "Rules and their ASCII forms", "statement": "Every rule with Unicode labels of at most 1024 characters has an ASCII form, which determines the rule and decodes to it, whatever the case of its Punycode digits; those of the rules of the built-in list are the ones C53 supposes.", "quantifier": "every rule in Unicode form", "why_tests_cant": "All characters; Punycode is an adaptive variable-length code.", "anchors": ["psl.go:processLine", "fallback.go:hardcodedPSL"]}
{"id": "C62", "title": "Unicode and Punycode spelling agree", "statement": "With a list file whose labels are in Unicode form and whose exceptions are for ASCII labels (such as the built-in list), if a host in Unicode form is accepted as a host name, then so is its ASCII form, and Suffix, Domain and SubDomain of the second are the ASCII forms of those of the first. The ASCII form may be accepted though the Unicode form is not. It fails for hosts that mix the two forms and for exceptions outside ASCII.", "quantifier": "every such list, every host with dots as separators", "why_tests_cant": "Relates pairs of hosts; all lists.", "anchors": ["psl.go:processLine", "fasttld.go:Extract"]}
{"id": "C63", "title": "When Extract reports an IDNA error", "statement": "For an unbracketed host with accepted port, Extract reports an IDNA error iff ConvertURLToPunyCode is off and idna.ToUnicode rejects the percent-decoded host; never for hosts without a label beginning with xn-- nor for ASCII forms of Unicode hosts, always if a label beginning with xn-- has a byte that is no letter or digit after its last hyphen; the case of Punycode digits does not matter.", "quantifier": "every URL with an unbracketed host, every trie", "why_tests_cant": "All hosts.", "anchors": ["fasttld.go:Extract"]}
{"id": "C64", "title": "go generate builds in the downloaded list", "statement": "If the download succeeds, fallback.go can be written and the text is UTF-8 without back quotes, go generate leaves a Go file declaring hardcodedPSL to be the downloaded text without carriage returns; in no case does it leave a Go file with another value, and it leaves the old file alone iff the download fails or the file cannot be created. An extractor made offline with this file has exactly the rules of the downloaded text if carriage returns are at ends of lines. Neither the HTTP status nor the section markers are checked, and with a back quote in the text the file is no Go file.", "quantifier": "every answer of the network, time stamp and number of bytes written", "why_tests_cant": "All downloaded texts.", "anchors": ["data/gen.go:main", "data/gen.go:pslTemplate", "fallback.go:hardcodedPSL"]}
{"id": "C65", "title": "Which error a host name leads to", "statement": "A host that is no IPv4 address is rejected for consecutive separators iff a label that is looked at, other than the leftmost, is empty; else for invalid characters iff the text left of the looked-up rule has a forbidden character (but U+0378, U+206B, U+2A74), begins with a hyphen or separator, ends with a hyphen or has two separators in a row (U+FF61 never counting as one); else for an empty domain iff no label is left for Domain; else it is accepted.", "quantifier": "every rule list, every unbracketed host with accepted port", "why_tests_cant": "All hosts and lists; which labels are looked at depends on the rules.", "anchors": ["fasttld.go:Extract", "strings.go:hasInvalidChars"]}
{"id": "C66", "title": "Which errors brackets lead to", "statement": "The errors for square brackets occur exactly for: an opening bracket that is not first, repeated or after the closing one; a closing bracket without opening one; an opening bracket without closing one; a text in brackets that is no IPv6 literal or another closing bracket after it; something other than a port or a path after the brackets. Only Scheme and UserInfo are then reported.", "quantifier": "every URL byte string (valid UTF-8 or not), every option combination, every suffix trie and every behaviour of the IDNA library", "why_tests_cant": "All texts, with brackets at any place.", "anchors": ["fasttld.go:Extract"]}
{"id": "C67", "title": "What Extract returns, completely", "statement": "Every field and the error that Extract returns are exactly those of a description in terms of the rule list, the flags, the IDNA library and the parts of the URL, for accepted and rejected URLs; there is exactly one outcome for each URL.", "quantifier": "every rule list, URL, flags and IDNA library", "why_tests_cant": "A functional specification of all outcomes.", "anchors": ["fasttld.go:Extract", "fasttld.go:trieConstruct", "net.go:isIPv4", "net.go:isIPv6", "strings.go:hasInvalidChars"]}
{"id": "C68", "title": "What New and Update do, completely", "statement": "If seeking and writing do not fail, the list New uses, the URLs it asks and the files it leaves are exactly those of a description in terms of the files, the answers of the network and the time: a custom list if the path without surrounding white space leads to one and the path itself can be read, else the cache if it is at most 72 hours old, else the first list offered by a source, written over the beginning of the cache file, else the built-in list. Update likewise, with one error for each way to fail.", "quantifier": "every disk content, path, time and network", "why_tests_cant": "A functional specification of all outcomes.", "anchors": ["fasttld.go:New", "psl.go:Update", "psl.go:update", "psl.go:checkCacheFile", "psl.go:newHardcodedPSL"]}
{"id": "C69", "title": "The library as a whole", "statement": "Every history of calls of New, Update and Extract is one of a machine without tries and memory, in which an extractor is a path, a flag and the text of a list, New and Update act as in C68 and Extract on the rules of the text as in C67. Every call comes to an end with an answer, and New returns extractors that were not returned before.", "quantifier": "every history of calls, with any changes of the files between them", "why_tests_cant": "A refinement, over all histories.", "anchors": ["fasttld.go:New", "fasttld.go:Extract", "psl.go:Update"]}
{"id": "C70", "title": "Which URLs get a Scheme without a colon", "statement": "Scheme is a text that has no colon and does not start with a slash exactly if the URL, without surrounding white space, starts with a name directly followed by two or more slashes; Scheme then is the name with all these slashes.", "quantifier": "every URL byte string (valid UTF-8 or not), every option combination, every suffix trie and every behaviour of the IDNA library", "why_tests_cant": "All URLs; both directions.", "anchors": ["fasttld.go:Extract", "strings.go:getSchemeEndIndex"]}
{"id": "C71", "title": "Which URLs are not recovered from their parts", "statement": "Without Punycode conversion and with subdomains, the URL of a successful extraction can be put together from the reported components exactly if no label at the right end of the host was dropped: for an IPv4 address, its last octet is not the beginning of a rule, for a host name, its first label from the right that completes a suffix is the TLD or there is none. With an IPv6 literal it always can.", "quantifier": "every rule list, URL and IDNA library", "why_tests_cant": "All URLs and lists; both directions.", "anchors": ["fasttld.go:Extract"]}
{"id": "C72", "title": "Which ports are not numbers", "statement": "The Port of a successful extraction consists of digits exactly if it does not start with a sign.", "quantifier": "every URL byte string (valid UTF-8 or not), every option combination, every suffix trie and every behaviour of the IDNA library", "why_tests_cant": "All URLs; both directions.", "anchors": ["fasttld.go:Extract"]}
{"id": "C73", "title": "Which IPv6 literals are not those of RFC 4291", "statement": "The text of an accepted IPv6 literal is one of RFC 4291 exactly if it has no five hexadecimal digits in a row, only ASCII characters, and no dot at its end.", "quantifier": "every URL byte string (valid UTF-8 or not), every option combination, every suffix trie and every behaviour of the IDNA library", "why_tests_cant": "All literals; both directions.", "anchors": ["net.go:isIPv6", "net.go:isIPv4"]}
{"id": "C74", "title": "Which IPv4 addresses are truncated", "statement": "The Domain of an accepted IPv4 address is all of it, up to separators at its end, exactly if its last octet is not the beginning of a rule.", "quantifier": "every rule list and URL", "why_tests_cant": "All addresses and lists; both directions.", "anchors": ["fasttld.go:Extract"]}
{"id": "C75", "title": "Where forbidden characters get through", "statement": "A forbidden character other than U+0378, U+206B and U+2A74 is in the Domain or SubDomain of an accepted host name exactly if there is no suffix and it is in a label to the right of the last one looked at (the rightmost one if subdomains are ignored).", "quantifier": "every rule list, host and character", "why_tests_cant": "All hosts and lists; both directions.", "anchors": ["fasttld.go:Extract", "strings.go:hasInvalidChars"]}
{"id": "C76", "title": "Which labels of an accepted host name are empty", "statement": "Trailing separators apart, an empty label of an accepted host name is beside the separator U+FF61, or it is the leftmost one, was looked at, and there is no suffix.", "quantifier": "every rule list and host", "why_tests_cant": "All hosts and lists.", "anchors": ["fasttld.go:Extract", "strings.go:hasInvalidChars"]}
{"id": "C77", "title": "When the cache file is the downloaded list", "statement": "After a successful Update in which seeking and writing did not fail, the cache file is the first list offered exactly if this is not shorter than the old file. A crash during Update can leave every beginning of every list over the old text.", "quantifier": "every disk content, list and number of bytes", "why_tests_cant": "All lengths and crash points.", "anchors": ["psl.go:Update", "psl.go:update"]}
{"id": "C78", "title": "Which calls race", "statement": "Whatever calls of New, Update and Extract run at the same time, two of them are about to use the same part of the memory, one of them writing it, only if both are calls on the same extractor, one of them is Update, and the part is the path or the list field of this extractor; the nodes of a list are never raced for. Update does race with Extract and with another Update of the same extractor.", "quantifier": "every interleaving of calls on the extractors New has returned", "why_tests_cant": "All schedules; the race detector sees only the ones that happen.", "anchors": ["fasttld.go:Extract", "fasttld.go:New", "psl.go:Update"]}
{"id": "C79", "title": "What New and Update touch", "statement": "In any environment, New and Update ask the two sources at most once each and in order, open at most one file for writing, public_suffix_list.dat in the temporary folder, seek and write only there, and write only bodies that were downloaded in this run and have the section markers; Update reads no other file, and New only the given path, the cache file and their absolute paths.", "quantifier": "every environment, whatever it answers", "why_tests_cant": "All answers of disk, clock and network, including ones that change between operations.", "anchors": ["fasttld.go:New", "psl.go:Update", "psl.go:update", "psl.go:checkCacheFile"]}
{"id": "C80", "title": "How many nodes Extract looks up", "statement": "Extract looks up at most two nodes of the list for every label of the host, trailing separators not counting, and, whatever the URL, at most two for every label of the longest rule (two if there are no rules).", "quantifier": "every URL, list and memory", "why_tests_cant": "A bound for all inputs.", "anchors": ["fasttld.go:Extract"]}
{"id": "C81", "title": "Calls running at the same time come to an end", "statement": "Whatever calls of New, Update and Extract run at the same time and whatever disk and network do, every call that ends has an answer and has not panicked, New an extractor and no error. The extractor is neither one that is known already nor one that another New returns. While a call is running it can take a step, and no sequence of steps is infinite unless new calls are started again and again.", "quantifier": "every interleaving of calls, every behaviour of disk, network and clock", "why_tests_cant": "All interleavings of any number of calls.", "anchors": ["fasttld.go:New", "fasttld.go:Extract", "psl.go:Update"]}
{"id": "C82", "title": "Where Extract departs from the algorithm of publicsuffix.org", "statement": "On a list of well-formed rules, as the built-in one is, the components of an accepted host name are those of the published algorithm exactly if the host is in none of three situations: its TLD is not a rule itself though a rule ending in it matches (TLD missing), its labels follow the beginning of a rule, which is no rule itself, and then leave it (dead end), or at a wildcard a longer matching rule is passed over.", "quantifier": "every well-formed rule list, every host without % and +", "why_tests_cant": "All hosts and lists; both directions.", "anchors": ["fasttld.go:Extract", "fasttld.go:nestedDict"]}
{"id": "C83", "title": "Where percent-encoding matters", "statement": "Two accepted host names whose labels are the same up to percent-encoding are divided into subdomain, domain and suffix at the same places exactly if there is no suffix or the label beside the first wildcard of the list is named by an exception in both spellings or in neither.", "quantifier": "every rule list and pair of hosts", "why_tests_cant": "All hosts and lists; both directions.", "anchors": ["fasttld.go:Extract"]}
{"id": "C84", "title": "Where letter case matters", "statement": "On a list in lower case, as the built-in one is, an accepted host name and the same with all labels in lower case are divided at the same places exactly if the latter has no suffix, or the first label from the right with an upper-case letter is not one that, in lower case, continues a rule or is named by an exception beside a wildcard.", "quantifier": "every lower-case rule list, every host without % and +", "why_tests_cant": "All hosts and lists; both directions.", "anchors": ["fasttld.go:Extract"]}
{"id": "C85", "title": "Calls running at the same time take effect one after the other", "statement": "Whatever calls of New, Update and Extract run at the same time and whatever disk, network and clock answer each of their requests, the order in which calls begin, ask and end, with the answers, is one of a machine without tries and memory in which every call takes effect at one moment between its beginning and its end: New makes an extractor of a path, a flag and the text of a list, Update replaces the text or fails and changes nothing, Extract answers by the rules of the text at that moment. What a call has been answered determines its own answer and effect, except for the number of the extractor that New returns.", "quantifier": "every interleaving of calls, every behaviour of disk, network and clock", "why_tests_cant": "All interleavings of any number of calls; a refinement.", "anchors": ["fasttld.go:New", "fasttld.go:Extract", "psl.go:Update"]}
{"id": "C86", "title": "Percent-encoded hosts and the algorithm of publicsuffix.org", "statement": "On a list of well-formed rules, as the built-in one is, an accepted host name in any percent-encoding is divided where the published algorithm divides the decoded host exactly if the decoded host is in none of the three situations of C82 and the label beside the first wildcard is named by an exception as it is spelled exactly if it is named by one when decoded (or, if only when decoded, a longer exception matches as well).", "quantifier": "every well-formed rule list, every host whose decoded labels have no % and + and no rule syntax", "why_tests_cant": "All hosts, spellings and lists; both directions.", "anchors": ["fasttld.go:Extract", "fasttld.go:nestedDict"]}
{"id": "C87", "title": "Whose list Extract uses", "statement": "Whatever calls run at the same time, a call of Extract answers by the rules of the text that one call of New or Update left; this call did not begin after Extract ended, and no Update of the same extractor both began after it had ended and succeeded before Extract began. So Extract after an Update that overlaps no other Update uses the text this Update has read, and before any Update that of New.", "quantifier": "every interleaving of calls, every behaviour of disk, network and clock", "why_tests_cant": "All interleavings of any number of calls.", "anchors": ["fasttld.go:New", "fasttld.go:Extract", "psl.go:Update"]}
{"id": "C88", "title": "The host a browser finds", "statement": "If Extract returns no error and a scheme, and a browser accepts the URL (URL Standard, schemes ftp, http, https, ws and wss), both find the same host, port, path and user information, unless the URL contains tabs or newlines or is surrounded by characters that only Extract strips. Tabs and newlines, which a browser removes, make no difference for host and port without ToPunycode if no rule contains one, as with the built-in list; path and user information are then the same after their removal. If Extract finds no scheme, host, port and path are the same, unless the URL is host:port, optionally with a path, where a browser takes the host for the scheme and the port for the host.", "quantifier": "every URL, list and option", "why_tests_cant": "All URLs; parsers that disagree about the host are found by chance only.", "anchors": ["fasttld.go:Extract", "strings.go:getSchemeEndIndex"]}
{"id": "C89", "title": "The host net/url finds", "statement": "If Extract returns no error for a URL without surrounding whitespace and Go's net/url.Parse finds a non-empty host in it, the host, the port and the user information are the same.", "quantifier": "every URL, list and option", "why_tests_cant": "All URLs; parsers that disagree about the host are found by chance only.", "anchors": ["fasttld.go:Extract", "strings.go:getSchemeEndIndex"]}
{"id": "C90", "title": "Forbidden characters in accepted hosts", "statement": "A label of an accepted host name that contains one of the forbidden characters (but U+0378, U+206B and U+2A74) belongs, with the labels on the right of it, to the beginning of a rule, and no wildcard stands for one of them. So, without ToPunycode, a forbidden ASCII character below '%' occurs in an accepted host name only if it occurs in a rule.", "quantifier": "every URL, list and option", "why_tests_cant": "All hosts and lists.", "anchors": ["fasttld.go:Extract", "strings.go:hasInvalidChars"]}
{"id": "C91", "title": "Which file New uses, for every path", "statement": "New uses the file at a given custom path exactly if a list with all markers is at that path without the white space around it and the file at the path as given can be read; it then uses the contents of the latter, downloads nothing and changes no file. A text without the markers is used only if white space surrounds the path.", "quantifier": "every path, disk, run of New", "why_tests_cant": "All paths and disks; the tests use paths without white space.", "anchors": ["fasttld.go:New", "psl.go:checkCacheFile"]}
{"id": "C92", "title": "What a crash during Update leaves", "statement": "The texts the cache file can have at some moment of an Update are exactly those made from the old text by writing at most two lists over its beginning, each of them in part, except that the last may be written whole. In particular the file never gets shorter.", "quantifier": "every disk with a writable cache file, network and moment of a run of Update", "why_tests_cant": "All moments at which the process can stop and all ways in which writes can fail.", "anchors": ["psl.go:update", "psl.go:Update"]}
{"id": "C93", "title": "A rule changes nothing for hosts it does not concern", "statement": "Adding a rule to a list changes no successful result of a URL whose host is not matched by what the rule adds to the list: the shortest beginning of the rule, from the TLD, that begins no other rule, or else the whole rule (a wildcard below a TLD also concerns the TLD, and rules below numbers concern IPv4 addresses). The whole rule is not enough if a beginning of it is new, since Extract then stops there.", "quantifier": "every list, rule, URL and option", "why_tests_cant": "All lists and URLs; tests use one list.", "anchors": ["fasttld.go:Extract", "fasttld.go:nestedDict"]}
{"id": "C94", "title": "What IncludePrivateSuffix changes", "statement": "With any list, IncludePrivateSuffix makes no difference for successful results unless a private rule, or what it adds to the public rules, concerns the host. With the built-in list it makes none for hosts which no private rule matches, which are no private wildcard rule without its wildcard, and which do not end in one of the listed names that begin private rules without being rules.", "quantifier": "every list, URL and option", "why_tests_cant": "All URLs.", "anchors": ["fasttld.go:New", "fasttld.go:Extract", "psl.go:getPublicSuffixList"]}
{"id": "C95", "title": "Tries in memory", "statement": "Building a list node by node in place and following its pointers in Extract, while other calls run between any two accesses to nodes, has exactly the answers and effects it has when lists are values that are extended at once. At every moment the nodes an extractor points to form a tree, the list of the extractor; Extract answers by the rules of one complete list text; and while one call is about to write a node of a list, no other is about to use a node of that list.", "quantifier": "every interleaving of the accesses of calls to New, Update and Extract, every order in which maps are visited", "why_tests_cant": "All interleavings of single accesses; a race or a shared node shows rarely.", "anchors": ["fasttld.go:nestedDict", "fasttld.go:trieConstruct", "fasttld.go:Extract"]}
{"id": "C96", "title": "How the command line is read", "statement": "fasttld extract (or ext) runs Extract iff its arguments are options of the documented names and letters, possibly grouped or with a boolean value, and exactly one URL, and help is not asked for. An option is on iff the last argument that sets it says so; options may stand before and after the URL; behind -- every text is a URL, elsewhere it must not begin with a dash. Before the name of the command only arguments that begin with a dash may stand, and those of the form -x or --name hide the argument that follows.", "quantifier": "every list of arguments", "why_tests_cant": "All spellings, groupings and orders of options.", "anchors": ["cmd/fasttld/extract.go:init", "cmd/fasttld/extract.go:extractCmd", "cmd/fasttld/root.go:rootCmd"]}
{"id": "C97", "title": "What the program does", "statement": "fasttld extract with options and a URL prints the result of Extract for exactly this URL and these options, in front of it the error if there is one, and exits with status 0. If the arguments cannot be read or are not one URL, it uses no file and no network, prints no result and exits with status 1. Other command lines use no file and no network either.", "quantifier": "every list of arguments, every environment", "why_tests_cant": "All arguments and environments.", "anchors": ["cmd/main.go:main", "cmd/fasttld/root.go:Execute", "cmd/fasttld/extract.go:extractCmd"]}
{"id": "C98", "title": "Several processes and the cache file", "statement": "Whatever processes use the package on one machine, however their pieces of reading and writing are interleaved and whenever they are killed, the text of the cache file is at any moment made from its first text by covering a beginning of it with bytes of lists that sources have sent, each at its own position; the other files stay as they are. What New or Update read from the cache file, and what extractors use, has at each position the byte of the first text or of such a list, and is no shorter than the first text. If the cache file is a list with all markers that can be read and written, all these texts occur. If the sources always send the list the file holds or holds a beginning of, everyone reads a beginning of this list, no shorter than the file was at first.", "quantifier": "every number of processes and goroutines, every interleaving, every moment of a crash", "why_tests_cant": "All interleavings of pieces of reads and writes of several processes.", "anchors": ["psl.go:update", "psl.go:Update", "psl.go:checkCacheFile", "psl.go:getPublicSuffixList", "fasttld.go:New"]}
{"id": "C99", "title": "Files and connections are closed", "statement": "Every file, folder and response body that New or Update opens is closed when the call returns, whatever fails on the way; none is closed twice or used after it was closed, what was opened last is closed first, and no more than three (New) or two (Update) are open at a time.", "quantifier": "every run of New and Update in every environment", "why_tests_cant": "All combinations of failures; a leaked handle does not show in a result.", "anchors": ["fasttld.go:New", "psl.go:Update", "psl.go:update", "psl.go:downloadFile"]}
{"id": "C100", "title": "What is logged", "statement": "The log of New, Update and Extract is determined by what they do. New logs that it falls back to the built-in list exactly if it does. New and Update log 'Public Suffix List updated.' exactly if a list was written to the cache file; a successful Update always does. Each rule of a list that has no ASCII form, and each failed download, is logged. Extract logs at most one line, exactly if the IDNA library rejects the host, and then returns an error.", "quantifier": "every run of New, Update and Extract in every environment", "why_tests_cant": "All combinations of failures.", "anchors": ["fasttld.go:New", "psl.go:newHardcodedPSL", "psl.go:processLine", "psl.go:update", "psl.go:Update", "fasttld.go:Extract", "strings.go:formatAsPunycode"]}
{"id": "C101", "title": "Calls on memory that orders nothing", "statement": "As long as no Update runs at the same time as another call on the same extractor, New, Update and Extract need no order of memory accesses: on a memory where a goroutine may see any value that was not overwritten before its call began, calls have exactly the answers and effects they have when every access sees the previous one, everything a call looks at is as it was last written, and Extract answers by the rules of one complete list text. This is false if Update and Extract of one extractor overlap: Extract may then answer by no list at all.", "quantifier": "every interleaving of the accesses of calls, every choice of the values that are seen", "why_tests_cant": "All interleavings and all reorderings; hardware shows few of them.", "anchors": ["fasttld.go:New", "fasttld.go:Extract", "fasttld.go:nestedDict", "psl.go:Update"]}
{"id": "C102", "title": "Extract during Update", "statement": "Even if Update and Extract of one extractor overlap on such a memory, Extract returns, without panic or endless loop, as long as it sees each map as it was at one time, and if no part of the host decodes to '*', its answer is the one with some trie of labels, so that whatever holds for Extract with every list of labels holds for it. If the fields of a map are seen as they were at different times, looking up a key may panic or never end.", "quantifier": "every interleaving of the accesses of calls, every choice of the values that are seen", "why_tests_cant": "All interleavings and all reorderings; hardware shows few of them.", "anchors": ["fasttld.go:Extract", "psl.go:Update"]}
{"id": "C103", "title": "Races do no lasting harm", "statement": "Whatever calls overlap on such a memory, New and Update do exactly what they do when every access sees the previous one: the extractors and nodes are last written with complete lists, built in or read from a file, every New gives a new extractor, and every call that ends has an answer of its kind. Once no Update of its extractor overlaps it any more, an Extract answers by one complete list again, whichever Updates and Extracts raced before.", "quantifier": "every interleaving of the accesses of calls, every choice of the values that are seen", "why_tests_cant": "All interleavings and all reorderings; hardware shows few of them.", "anchors": ["fasttld.go:New", "fasttld.go:Extract", "psl.go:Update"]}
{"id": "C104", "title": "The hash tables of the trie are maps", "statement": "A hashmap.Map gives for every key the value that was set last, says of other keys that they are absent, visits every key once and counts them correctly, whichever keys collide and however often the table grows, as long as there are no more than 65535 keys. Tries made of such tables by New from no more than 65535 rules give the same answers as tries made of perfect maps: no rule is lost, and Extract always returns.", "quantifier": "all hash functions, all sequences of assignments, all rule lists of up to 65535 rules, all parameters", "why_tests_cant": "Collisions of 48-bit hashes and wrapped distances do not turn up in tests; which keys collide depends on the hash function.", "anchors": ["fasttld.go:nestedDict", "fasttld.go:trieConstruct", "fasttld.go:Extract", "go.mod:15"]}
{"id": "C105", "title": "What the example program prints", "statement": "The program examples/demo.go neither crashes nor stops early, whatever files and network do. It prints ten sections, each with a heading, the URL and what Extract says about it by a complete list, the built-in one or one that was read; only the section about private domains uses private rules. If no file can be read, its output is exactly the text given in DemoSpec.v, and the last section shows an error.", "quantifier": "every environment, every content of the cache file and the sources", "why_tests_cant": "The test suite does not run the example; its output depends on the cache and the network.", "anchors": ["examples/demo.go:main"]}
{"id": "C106", "title": "Calls take effect one after the other also on memory that orders nothing", "statement": "Whatever can be seen of calls of New, Update and Extract that build and read tries pointer by pointer - when they begin, what they ask of files and network and are told, what they answer - can be seen when each call takes effect at one moment between its beginning and its end. On memory that orders nothing by itself the same holds, but for the answers of Extracts that an Update of their extractor overlaps; without such Extracts exactly the same can be seen as when tries are values that change at once.", "quantifier": "every interleaving of any number of calls, every value the memory model allows to be read, every environment", "why_tests_cant": "Tests see few interleavings, and only those of the memory of the machine they run on.", "anchors": ["fasttld.go:New", "fasttld.go:Extract", "psl.go:Update"]}
{"id": "C107", "title": "The sets of runes are sets", "statement": "Set and Exists of a set made by makeRuneSet never index a bucket out of range. For every text, Exists of a rune is true iff the rune occurs in the text, whatever other runes share its bucket and however often and in whatever order they were set, and each rune is counted once. So labelSeparatorsRuneSet, whitespaceRuneSet and invalidHostNameCharsRuneSet hold the characters of their strings and no others.", "quantifier": "every string, every rune asked for, every bucket size", "why_tests_cant": "All strings and runes, masks and buckets of all sizes.", "anchors": ["strings.go:makeRuneSet", "strings.go:labelSeparatorsRuneSet", "strings.go:whitespaceRuneSet"]}
{"id": "C108", "title": "No integer overflows", "statement": "With ints of 32 or 64 bits Extract answers as with integers of any size: no addition, subtraction or multiplication of positions, counts and digits goes beyond the range of an int, however long the numbers in addresses and ports are. So the answers on 32-bit and 64-bit machines are the same. strconv.Atoi accepts exactly the decimal numbers that an int of the machine can hold.", "quantifier": "every URL, list and option, ints of 32 and 64 bits", "why_tests_cant": "Overflows need numbers and strings of extreme length, on machines of both kinds.", "anchors": ["fasttld.go:Extract", "net.go:dtoi", "net.go:xtoi", "strings.go:getSchemeEndIndex"]}
{"id": "C109", "title": "What is seen on a terminal", "statement": "PrintRes shows the table of C46 on a terminal with colours: headings of components that are there in bold bright yellow, of missing ones in bright black, of the host type in bold bright blue, values in bright white. After every call the terminal is in its default style. Without colours the bytes written are the texts alone. This holds if no component contains the character ESC, as is the case for results of Extract if the URL contains none. Otherwise escape sequences of the URL reach the terminal, even if colours are off.", "quantifier": "every URL and result, every list of printed pieces, with and without colours", "why_tests_cant": "All texts and attributes, and the state of the terminal after all of them.", "anchors": ["print.go:PrintRes", "cmd/fasttld/extract.go:extractCmd"]}
{"id": "C110", "title": "Extract takes linear time", "statement": "The number of steps of Extract (iterations of its loops, with library functions that go through a string counted by its length) is at most 45 times the length of the URL plus 20, whatever the suffix list; with ToPunycode too, up to the factor by which the IDNA library makes the host longer. Looking for the separators of a host from the right, once for each label, goes through the host once in total.", "quantifier": "every URL, every suffix list, every IDNA library, both options", "why_tests_cant": "A slow input is found by a test only if somebody thinks of it; the bound is for all inputs and lists.", "anchors": ["fasttld.go:Extract", "strings.go:lastIndexAny", "net.go:isIPv6"]}
{"id": "C111", "title": "The size of a suffix list in memory", "statement": "The trie built from a list of rules has, besides its root, exactly one node for each distinct sequence of labels that a rule ends in: nothing is stored twice and no node is superfluous. There are at most as many nodes as labels in the rules. For a list file, with and without its private section, the number of nodes is at most linear in the size of the file, whatever it contains.", "quantifier": "every list of rules, every file, every IDNA library that makes lines longer by at most a constant factor", "why_tests_cant": "All lists and files; a test measures some.", "anchors": ["fasttld.go:nestedDict", "fasttld.go:trieConstruct", "psl.go:processLine"]}
{"id": "C112", "title": "Building the list takes linear time", "statement": "Reading the rules of a list file and building the trie, with and without the private section, takes a number of steps that is at most linear in the size of the file, whatever it contains, and gives the trie of all other properties. Steps are counted as in C110; it is enough that the IDNA library makes lines longer by at most a constant factor, and the library does so.", "quantifier": "every file, both settings, every IDNA library", "why_tests_cant": "A file that makes the program slow is found by a test only if somebody thinks of it.", "anchors": ["fasttld.go:trieConstruct", "fasttld.go:nestedDict", "psl.go:processLine", "psl.go:getPublicSuffixList"]}
