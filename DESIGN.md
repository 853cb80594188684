# Formal model of qiniu/uip in Rocq (Coq 8.16.1)

## Approach

The Go code (and the ipdb readers in Rust and Java) is read as text and
transcribed function by function into total, computable Gallina functions; each
definition of a model file cites the file and lines it models, or, for a model of
a library function, the lines that call it.  Conventions:

* bytes are `Coq.Init.Byte.byte`; a Go `string`, `[]byte` and `net.IP` is a
  `list byte` (`bytes`); `nil` and the empty slice are both `[]` unless said
  otherwise at the definition.
* Go `int`/`uint` are `Z`/`N`/`nat` without wrap, except where wrap is
  observable (`IntToBinaryBE`, `uint8` arithmetic in NextIP, node records,
  `uint` arithmetic of awdb, 32-bit arithmetic of Rust and Java): there the
  `mod 2^k` or the overflow panic is written out.
* a call that can fail is a `res A := Ok a | Err e | Panic | OutOfFuel`;
  index out of range, nil dereference, failed type assertions are `Panic`.
* loops are structural recursion, or recursion on explicit fuel that returns
  `OutOfFuel`; a theorem either shows some fuel suffices and that more does not
  change the result, or (C39, C50) that no fuel suffices: the code loops forever.
* slices shared between rows are modelled with an explicit heap of arrays in the
  files about `operate` and the packers that write into their argument.
* map iteration order, where it can be observed, is an arbitrary permutation
  (C28: the order is an argument of the model).
* clock, JSON, slice growth and file system enter as the record `env` and as
  functions `path -> option bytes`; JSON is then instantiated with a model (C54).

## Files (rocq/theories)

Models (definitions only):

| file | models |
|---|---|
| Base.v, NetIP.v, NetText.v, Json.v, Date.v | bytes, result type; Go `net` (To4, To16, CIDRMask, Mask, Size, ParseIP, ParseCIDR, String), `strconv.ParseUint`, `encoding/json` for the two structures and the server's answers, `time` Format("2006-01-02") |
| IpNet.v, IpNetStr.v | ipnet/ip.go, ipnet.go, range.go |
| Inf.v | db/inf/*.go, db/errors.go, db/field/fields.go, strings.go |
| Ipdb.v | db/format/ipdb/*.go |
| Export.v | db/field/export/export.go and the dumpers built on it |
| Tables.v, Operate.v | db/field/data/*.go, db/field/operate/*.go |
| Plain.v, Memip.v | db/format/plain, db/format/memip |
| AwDecode.v, AwTree.v | db/format/awdb |
| Facade.v | db/format/formats.go, db/*/init.go, db/query/query.go, db/convert/*.go |
| Convert.v, Server.v, Cmd.v | cmd/converter/main.go, cmd/server, cmd/simple |
| Alias.v | db/format/ipdb/querier.go, reader.go once more: results as pointers, texts as windows |
| Conc.v | cmd/server/server.go and the same functions once more: every access to shared memory explicit, many threads |
| Writes.v | cmd/converter/main.go:20-66, db/convert/packer.go:15-42 and the three packers once more: every write of a file explicit, with a limit on what fits |
| Share.v | ipnet/ip.go, ipnet.go, range.go once more: slices of arrays, allocation, stores of single bytes |
| AwCost.v | db/format/awdb/decoder.go: requests for memory |
| ForeignFile.v | opening by file name: java Query.create, File.readAll; rust query::from_file |
| Flags.v | cmd/converter/main.go from its arguments on, with Go's package flag |
| Reserve.v | capacities passed to make in db/format/plain/dumper.go |
| ForeignCmd.v | rust bin/query.rs, data.rs Display of IpInfo; java IpInfo.toString |
| Foreign.v, ForeignApi.v | rust/src (lib, query, data, formats/ipdb), java/src/main (Query, Reader, MetaData, VersionInfo, IPAddress); the address parsers of the two libraries are arguments |

Specifications (small, independent of the models' helpers): Spec.v (addresses as
numbers, blocks, tilings), SpecIpdb.v (prefix-free map, legal rows),
SpecExport.v (rule syntax), SpecOperate.v, SpecText.v, SpecMemip.v, SpecAw.v (an
encoder for the awdb value format), SpecAwTree.v (trees, reachable nodes),
SpecForeign.v.

`*Proofs*.v`, Bits.v, FastOpen.v hold lemmas.  `Props*.v` hold the theorems of
the properties (`Theorem Cnn_...`), each followed by a concrete case that meets
its hypotheses.

## Trusted base

* Coq 8.16.1's kernel (with `vm_compute`, used in concrete cases and table
  facts; vcheck replays everything with coqchk, which does not use the VM).
* Only Coq's standard library is imported.  No axioms: `python3
  tools/assumptions.py` runs Print Assumptions on every theorem of MANIFEST.json;
  the answer is "Closed under the global context" for all of them.  (The axioms
  that a checker lists for the whole library closure, `Coq.ssr.ssrunder.*`, are
  module-type fields of the standard library's ssreflect support; no theorem
  depends on them.)
* The transcription itself: that the models say what the Go/Rust/Java text says,
  and that NetIP.v, NetText.v, Json.v and Date.v say what the libraries do.
* UpstreamTests.v computes the assertions of the repository's own Go unit tests in the
  models; all hold, except that export_test.go is stale (it does not compile, and
  expects five columns of the default rule, which has seven).
* No `Variable`/`Hypothesis` outside sections, no functors, no plugins.

### Modelled

Every exported function of ipnet; ipdb writer, packer, reader, querier, dumper;
awdb decoder, node readers, reader, iterator, querier, dumper; plain and memip
packer and dumper; the export rule language; every operation of
db/field/operate with the tables of db/field/data; format registry, query
facade, convert facade; converter, simple and server programs; Rust and Java ipdb
readers, opening by name, texts of answers, the Rust tool.

### Not modelled

* sockets and HTTP framing (`http_get` maps a path to status and body),
  usage texts of package flag, logging;
* file system beyond "what a path holds" and running full (Writes.v: a file grows
  byte by byte, in the order it is written; no reordering by a crashing kernel, no
  other process writing the same file); concurrency of other
  programs than the server over an .ipdb file (C69; the code starts no goroutines
  of its own besides net/http's) and Go's scheduler (any interleaving of memory
  accesses is allowed, sequentially consistent: C69_no_race is what the Go memory
  model asks for that);
* `reflect` targets other than `interface{}` and the metadata structure; floats
  of awdb values (decoded as their bits); `big.Int` is `N`;
* time and memory use, except what the awdb decoder asks for (C72); the text of `time.Now()` (an argument);
* db/field/data/asn2isp.go (a constant nobody reads), the constants of
  db/query/cache.go (C15 holds for every list), db/format/generate (unused; it returns
  a structure where a function type is expected, so it does not even compile),
  db/format/qnip (documentation only);
* Java's JSON library and Gson classes, Rust's serde: functions with the
  premise that they read back the metadata (as in C43/C44).

## Plan per property

| id | model | how it is proved |
|---|---|---|
| C01, C02 | IPNets with fuel 257 | one greedy step takes the largest aligned block that fits (PrefixSameLength, SuffixZeroLength as divisions by powers of two); induction; bound on steps; minimality by partitioning an arbitrary cover at the greedy block; C02_ipnets_coarsest: every aligned block inside the range lies inside an output block |
| C03-C10, C56 | byte functions of ipnet | against the number the bytes spell |
| C04 (NewRange), C02 (one network) | ipnet; PropsTight4.v | NewRange_spec, C01 and C02 |
| C02 (bounds) | Spec.v only; PropsTight3.v | an explicit tiling of any interval inside a block, by induction on its size, and C02_ipnets_shortest |
| C08 (ends at all ones), C17 (accepted rows) | as above; PropsTight2.v | cases on the spelled ends; the record table only grows by accepted rows |
| C11-C13, C17 | writer state machine (nodes, records, hash) and reader over bytes | ghost path of every node; invariant of insert; refinement to a prefix-free map; byte-level round trip of Save and open |
| C14-C16, C18 | reader over arbitrary bytes | walk over any node table, split at depth 14; node determines record |
| C19-C21, C45, C46 | BuildIPData over an arbitrary finder | loop invariant "rows tile from the first address to the cursor"; instantiated with packed files |
| C22, C23 | rule parser, filters | printer for documented rules as specification, parser inverts it |
| C24-C26 | MergeNearNetwork | fold over runs of equal rows; relation address/values; runs split by C01 |
| C27-C30, C48 | heap of arrays | frame lemma for each_row; aliasing explicit in the hypotheses |
| C31-C33 | text formats | split/join, decimal and address printing against parsing |
| C34-C36 | node table, walks, iterator | reachability relation; stack invariant |
| C37-C39 | decoder | independent encoder (every size form, pointers) and structural induction; termination by a measure, divergence for key cycles exactly characterised |
| C40, C41, C49-C51, C60 | querier, dumper, open | on top of the former; C60 writes a whole file with the encoder and opens it |
| C42, C47, C52, C53 | registry, query, convert | decision logic, heap frame lemmas |
| C43, C44 | Rust, Java readers over the same bytes | simulation against the packed map |
| C54 | encoding/json | encoder/decoder round trip for UTF-8 |
| C55 | server | C11-C13 + C47 + JSON text |
| C61 | version(), Go's calendar | a year starts at 365y + y/4 - y/100 + y/400; months by exhaustive computation over one year; then opening as in C12/C43/C44 |
| C62 | query by text | canonical text of an address; C43, C44, C47 |
| C63 | converter with a line database | the steps of C58 with the line operation in between; rows of a dump with a rule own full slices, so appending a column copies |
| C64 | reader and querier over arbitrary bytes | declarative file format (links, records, columns); walk = link relation by induction; totality from the node table fitting the body |
| C65 | Alias.v: results as pointers, their texts as windows on the caller's bytes | simulation of the value-level querier; frame lemma over histories |
| C66 | Cmd.v: cmd/simple, start of cmd/server | C47, C55; cutting the line at spaces |
| C67 | no new model: Facade, Plain, Ipdb | C31, C23, C47 and the row description of a dump; what a rule shows of a row is no longer than the row |
| C68 | no new model: Facade, Memip, Ipdb | C33 (extended: disjoint rows stay disjoint), C47 and the row description of a dump |
| C69 | Conc.v: the query path of Ipdb/Alias with every access to shared memory explicit, threads, any schedule | predicate transformer for one thread (access budget, one owned object, everything else frozen) related to QueryW/http_get; invariant with owners of results over all histories |
| C70 | Writes.v: the packers with a sink of bounded room, the run as a list of single effects (create, one byte) | every packer leaves firstn room of what PackBytes gives, and reports as described; prefix of the effects = done outputs, one begun output, untouched outputs; .ipdb prefixes by C18 (truncated files do not open) |
| C71 | Share.v: memory of byte arrays; every function of ipnet as a state transformer | each function appends arrays and leaves the old ones, answers what IpNet.v says (loops of NextIP and LastIP by invariants on the array written); identity or freshness of every returned slice; effect of a store into a result |
| C72 | AwCost.v: the decoder of AwDecode.v with a record of the maps, slices and copies it asks for and the pointers it follows | erasing the record gives AwDecode.v's decoder (C72_same_decoder); bounds and counts by induction on the depth limit; the two findings by explicit data for every n |
| C73, C48 (no asn column) | Operate.v, Facade.v, Convert.v: version information, columns, networks; PropsConvert10.v | each operation by cases on its loop (networks kept by induction over rows), composed over converterOps; output through open_packed (C11, C61) |
| C74 | ForeignFile.v next to Facade.v's NewDb; PropsForeign3.v | the two extension functions against one specification (name = stem ++ suffix without a dot); readAll by induction over the reads; opening through open_all (C43, C44, C61) and C47_packed |
| C75 | ForeignCmd.v next to Cmd.v; PropsForeign4.v | texts as a list of names and values, injective by induction over the list when no value has a comma; runs by cases; packed databases through C66_packed (Go) and C43 (Rust) |
| C76 | Flags.v before Convert.v; PropsFlags.v | settings and their spellings specified apart; one step of the parser by cases on the word, the whole list by induction on its length, both directions |
| C77 | Foreign.v readers over arbitrary bytes; PropsForeign5.v | file format of C64; the walk of either reader = link relation by induction, signed links followed by a separate induction; offsets and wrap-around by linear arithmetic; columns via C43/C44 lemmas |
| C78 | Reserve.v beside Plain.v; PropsReserve.v | lines of the text as in C31, count + 1 in 32 bits specified as an alternative; small files by packing an empty dataset with any count and the JSON round trip of C54 |
| C28, C29, C30, C48: rows that are too short | Operate.v; PropsTight6.v | a loop with one row whose body crashes on every heap crashes; legal slices kept by every loop |
| C59 (repeated outputs), C06, C23, C56, C62 (small functions) | PropsTight5.v | induction over the outputs; the rest from C06, C23 and C47 |
| C54, C55 (any bytes) | Json.v; PropsJson3.v, PropsServer2.v | relation repaired (total, functional, identity exactly on UTF-8); Marshal's output is an RFC 8259 text (SpecJson.v) of the repaired value, so C54_any_text reads it back |
| C54 (accepted) | Json.v; PropsJson4.v | which values fit which Go type is specified on JSON values and on digits; one member by cases on its name, all members by induction, both directions |
| C57-C59 | whole converter | compositions: open, dump, export, operations, pack, open again, query |

No property of the list is considered inexpressible.  Where the code does not do
what its name says, the property is stated for the exact behaviour and the
difference is a theorem too (suffix `_refuted`, `_crashes`, ... and the notes of
MANIFEST.json).  Theorems with such names are proved facts about the model, not
open statements; none is partial.

## Findings (each is a theorem)

* ipnet: Contains is false for every address once the end is all-ones
  (C06_refuted), Join with an all-ones end (C07_join_allones_refuted),
  IsFirstIP of a mapped address (C56_first_refuted).
* ipdb: rows rejected by insert are silently dropped (C12), one-field databases
  report no error for absent addresses (C13), records of 64 KiB and more are
  cut (C17), files under 4 bytes crash (C18_short_file_crashes), packing
  converts continent names to codes in the caller's dataset (C53), ::/0 crashes
  (C57_whole_ipv6_crashes).
* ipdb results: cached results are shared objects and texts are windows on the
  caller's slice (C65_spoiled, C65_spoiled_case, C65_data_case).
* dump: mixed databases lose IPv6 (C45, C57_other_family_lost), IPv6 databases
  with a network at ::ffff:0:0 cannot be dumped (C46) or loop (C50_loops).
* operate: empty dataset crashes merge and memip (C26); map order decides
  (C28_order_matters_refuted); column 0 counts as missing (C28_first_column);
  AttachDistrict without province (C29_no_province_pack); shared rows
  (C30_merged_rows_refuted); AttachLineByAsn (C48); rows without AS number count
  as one AS (C58_operator_abroad).
* plain: rules drop values (C31_empty_rule_drops_values), long lines end the
  dump (C31_long_line_truncates), short files crash (C31_short_file_crashes,
  C31_header), packing replaces commas in the dataset (C32, C52).
* memip: city of the neighbour (C33_city_refuted), colon (C33_colon_refuted).
* awdb: no data crashes (C40), asn keys differ (C41), cyclic keys
  (C39_cyclic_key_diverges), shallow IPv4 networks (C35_shallow_ipv4), files
  under 2000 bytes (C51_short), IPv4 networks asked of an IPv6 database are
  searched below ::ffff:0:0/96, not where lookups go (C36_within_ipv4); sizes
  are not checked before memory is asked for (C72_sizes_not_checked), pointers
  multiply values (C72_exponential).
* converter: an unsupported output format empties the file
  (C59_awdb_output_lost), errors exit with 0 (C59_failed); the output's build
  time is that of the conversion and its count is the number of nodes, not of
  rows (C73_written, C73_case).
* texts of answers: commas (Rust), commas and null (Java) make them ambiguous
  (C75_ambiguous_refuted).
* `converter -line-replace true -o out.ipdb` ignores everything from `true` on:
  the switch takes no separate value and a plain word ends the options; nothing
  is written and the status is 0 (C76_separate_truth).
* C54: a description in which arrays and objects are nested more than 10000 deep is refused
  whatever the name of the member is (C54_too_deep_refuted).
* C77: in files not written by this library (or damaged ones), Java takes the sign bit of a link
  into the node number, whose multiplication by 8 wraps around: the link 0x80000000 is node 0
  again, and an address below it is answered with the record of another address
  (C77_wrapped_case), where Rust panics. An address whose bits end inside the tree is answered by
  Java with what stands at offset 7 * nodes. Rust ignores the offset of the language.
* C78: a .scan file of 200 bytes without rows makes the reader reserve room for up to 2^32 - 1
  lines and as many rows: the Count of its header is trusted (C78_short_files).
* by file name: Java crashes for a name without a dot (C74_java), Go for a
  file that cannot be read (C74_go); `dir.d/name` has an extension in Java only.
* rows that AttachLineByAsn leaves short make AttachLineByCidr crash
  (C48_then_by_network).
* Rust/Java: absent addresses read the end of the node table
  (C43_rust_no_record, C44_java_no_record), Java's asn falls through to line
  (C44_java_answers).

## Testing the theorems against wrong programs

`tools/mutate.py` applies one edit to a scratch copy of the model, recompiles,
replaces failing proofs by Admitted and reports through Print Assumptions which
property theorems are lost; results in seeded/LOG.jsonl, edits in
seeded/mutants*.json.  Edits that no property theorem noticed led to new or
stronger theorems (field `tightened`), e.g. C31_header, C36_within_ipv4,
C60_skip, C60_lookup.
