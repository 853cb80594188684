{
 "C03": {
  "note": "C03_argument_kept (model with memory, Share.v) is the part about the argument."
 },
 "C06": {
  "note": "C06_refuted and C06_contains_allones are the finding (NextIP of the all-ones end wraps to zero)."
 },
 "C07": {
  "note": "C07_join_allones_refuted shows the proviso is needed."
 },
 "C11": {
  "note": "json_ok says encoding/json reads back the metadata written; C54_json_ok proves it for the modelled encoding/json and UTF-8 names (C54_pack_query has no JSON premise). File below 4 GiB; rows in row_ok (no ::/0, no tabs, record < 64 KiB); columns not spelled Continent/CONTINENT. Rows shorter than the column list give an error (see C12_pack_query / answer)."
 },
 "C12": {
  "note": "Same premises as C11; C12_pack_query is the full refinement to the prefix-free map, for any rows."
 },
 "C13": {
  "note": "The one-field case is a finding."
 },
 "C17": {
  "note": "Truncation of records >= 65536 bytes is a finding."
 },
 "C18": {
  "note": "C18_short_file_crashes is a finding."
 },
 "C26": {
  "note": "MergeNearNetwork and memip pack; for memip the precondition (one value per column, IPv4 networks in a dataset declared IPv4) is needed: the code indexes values and calls IPv4ToUint32, both of which panic otherwise."
 },
 "C31": {
  "note": "encoding/json enters as a pair of functions whose round trip on the version is a hypothesis (sc_json), discharged by C54_scannable. C31_empty_rule_drops_values, C31_long_line_truncates and C31_short_file_crashes are findings."
 },
 "C32": {
  "note": "Finding: packing is not read-only."
 },
 "C33": {
  "note": "C33_city_refuted and C33_colon_refuted are the findings. The clock is an argument of the model."
 },
 "C43": {
  "note": "Rust transcription, 32-bit arithmetic, 12-bit cache. Premises as C12 plus files below 2 GiB and UTF-8 values; C43_C44_premises shows a dataset that satisfies them. The theorems about addresses without a record are findings."
 },
 "C44": {
  "note": "Java transcription. The asn case falls through to line: finding, stated exactly by java_answer. Cache transparency is C44_java_cache_transparent."
 },
 "C45": {
  "note": "Finding: IpAll is dumped as IPv4 only."
 },
 "C46": {
  "note": "Finding: error at ::ffff:0:0."
 },
 "C48": {
  "note": "Finding: AttachLineByAsn reads column 0 when there is no line column."
 },
 "C54": {
  "note": "encoding/json is modelled concretely (Json.v: string escapes as Go 1.19, number syntax, case-folded keys, nil slices as null). Not modelled: number targets other than integers. encoding/json is library code: its model is part of the trusted base. C54_any_metadata covers files written by other programs (JSON grammar in SpecJson.v; lone surrogates and bytes that are not UTF-8 are left out)."
 },
 "C55": {
  "note": "net/http itself is not modelled (path cleaning, methods, recovery from a handler panic)."
 },
 "C56": {
  "note": "C56_first_refuted is a finding; the functions have no caller in the repository outside tests."
 },
 "C57": {
  "note": "C57_copy and C57_default are the two halves; premises on the dumped columns: no duplicates; for the default operations province, isp and asn present and isp, asn not first (the operations take column 0 for missing: C28, C29). C57_other_family_lost and C57_whole_ipv6_crashes are findings. The --line and --asn options of the converter are not in C57 (see C30, C48)."
 },
 "C24": {
  "note": "C24_merge_partition: the merged networks are the coarsest aligned blocks of each run (with C02_ipnets_coarsest)."
 },
 "C25": {
  "note": "Statements over the modelled heap: rows that share a slice are covered."
 },
 "C27": {
  "note": "Offset 0 counts as a missing column (finding)."
 },
 "C28": {
  "note": "Over every iteration order of the Go map (the order is a parameter)."
 },
 "C29": {
  "note": "Over every growth policy of append (the policy is a parameter)."
 },
 "C30": {
  "note": "Over every line database; C30 in the converter is C63."
 },
 "C36": {
  "note": "C36_within_ipv4 is a finding: NetworksWithin of an IPv4 network searches below ::ffff:0:0/96 while lookups use ::/96."
 },
 "C40": {
  "note": "Crashes on empty records and on records that are not maps are findings."
 },
 "C41": {
  "note": "Finding: dump and Query read different keys for the AS number."
 },
 "C42": {
  "note": "Registries are values: package init order is modelled as the order of the registrations."
 },
 "C47": {
  "note": "All spellings net.ParseIP accepts; ParseIP is modelled in NetText.v."
 },
 "C49": {
  "note": "Any search tree without cycles of an IPv4 database."
 },
 "C50": {
  "note": "The IPv6 dump that reaches ::ffff:0:0 stops or loops (finding)."
 },
 "C51": {
  "note": "The crash of short files is a finding."
 },
 "C52": {
  "note": "Independence needs values without commas; C52_text_first_changes_the_next shows why."
 },
 "C53": {
  "note": "Finding: a column spelled Continent is converted in place while packing."
 },
 "C58": {
  "note": "ipdb files, IPv4 awdb files, IPv6 awdb files whose dump never asks for an IPv4 address (the others stop or loop, C50); empty rule and default rule."
 },
 "C59": {
  "note": "Moments inside a run and full disks are C70; the exit status is always 0 (read off main.go)."
 },
 "C60": {
  "note": "The writer of awdb files is not in the repository: the format is specified in SpecAw.v and SpecAwTree.v."
 },
 "C61": {
  "note": "C61 covers version texts in Go, Rust and Java; the default texts differ (finding)."
 },
 "C62": {
  "note": "The Java facade; build:int overflows after 2038 and texts starting with ':' are rejected (findings)."
 },
 "C63": {
  "note": "C63_no_rule_refuted: without a rule (and with -line-replace, C63_replace_shared_case) rows sharing a slice get the last row's line."
 },
 "C64": {
  "note": "Go slices are bounded by capacity, and os.ReadFile leaves spare capacity: a crash of the model (capacity = length) may be ErrDatabaseError when the record ends inside the spare capacity."
 },
 "C65": {
  "note": "Alias.v models pointers and string windows; C65_spoiled and C65_data_case are the findings that make the two premises necessary."
 },
 "C66": {
  "note": "fmt's %+v is modelled for this one structure; C66_ambiguous_refuted is a finding (texts with spaces)."
 },
 "C70": {
  "note": "C70_memip_silent and C70_scan_cut are findings. A file grows byte by byte in the order it is written (no reordering by the kernel after a power failure)."
 },
 "C71": {
  "note": "C71_ipnets_stores, first part, is a finding."
 },
 "C72": {
  "note": "C72_sizes_not_checked and C72_exponential are findings. Requests are counted in elements and bytes, not in the allocator's units."
 },
 "C73": {
  "note": "The count and build time shown by a packed output are a finding (C73_written, C73_case)."
 },
 "C74": {
  "note": "The two crashes are findings. A dot is one byte in UTF-8 and one unit in UTF-16, so names are compared as bytes."
 },
 "C75": {
  "note": "The debug form of argument lists and of errors, and the Rust address parser (it reads the usual texts), are arguments. C75_ambiguous_refuted and the crash in C75_packed are findings."
 },
 "C76": {
  "note": "Package flag of Go is modelled from its source text as the standard library documents it; usage texts on stderr are not. C76_separate_truth is a finding."
 },
 "C77": {
  "note": "The JSON library and the text decoder are parameters."
 },
 "C78": {
  "note": "Counted in entries (16 bytes a line, 32 a row in 64-bit Go); the memory allocator is not modelled. C78_short_files is the finding. The reservation of export.BuildIPData, with the node count that an ipdb or awdb description claims, is not stated."
 }
}
