#!/usr/bin/env python3
"""Writes /verif/properties.jsonl (kept as a script so that the list is easy to extend)."""
import json
P=[]
def p(id,title,statement,quantifier,why,anchors):
    P.append(dict(id=id,title=title,statement=statement,quantifier=quantifier,why_tests_cant=why,anchors=anchors))

p("C01","A range is split into CIDRs that cover it exactly",
 "For a range whose Start is not above its End, Range.IPNets terminates and returns CIDR blocks, each aligned on its own mask, in ascending address order, pairwise disjoint and gap free, whose union is exactly the addresses from Start to End (both 4-byte and 16-byte addresses, including ranges that end at the all-ones address).",
 "all pairs of addresses Start <= End over the whole 128-bit space (and IPv4 written in 4 bytes or 16 bytes)",
 "there are 2^255 ranges; the interesting ones (carry over many bytes, wrap at the last address) are a vanishing fraction of any sample",
 ["ipnet/range.go:Range.IPNets","ipnet/range.go:PrefixSameLength","ipnet/range.go:SuffixZeroLength","ipnet/ip.go:NextIP","ipnet/ipnet.go:LastIP"])
p("C02","The CIDR split of a range is the shortest one",
 "No list of CIDR blocks whose union is exactly the range Start..End is shorter than the list Range.IPNets returns, the range of a network is returned as that one network, and that list has at most 254 entries, at most 62 for IPv4 addresses, and at most 2n-2 (or one) for a range inside a CIDR block of 2^n addresses.",
 "all ranges Start <= End and all lists of CIDR blocks covering exactly that range",
 "minimality compares with every possible cover, an exponential set for each range",
 ["ipnet/range.go:Range.IPNets"])
p("C03","NextIP is the successor",
 "NextIP(ip) has the same length as ip and is the address following ip; for the all-ones address of any length it is the all-zeros address; ip itself is not modified.",
 "all byte strings of every length",
 "carry propagation has one case per position and per length",
 ["ipnet/ip.go:NextIP"])
p("C04","LastIP and NextStart delimit a network",
 "For a network with a prefix mask of the same length as its address, LastIP is the greatest address that agrees with the network address on the masked bits and NextStart is the address right after it (all zeros if the network ends at the all-ones address). NewRange of an aligned network is the range from its first to its last address, both in 16 bytes.",
 "all networks with IPv4 or IPv6 addresses and all prefix lengths",
 "2^32*33 + 2^128*129 networks",
 ["ipnet/ipnet.go:LastIP","ipnet/ipnet.go:NextStart"])
p("C05","IPLess is the numeric order of addresses across both spellings",
 "For addresses given in 4 or 16 bytes, in any combination, IPLess(a,b) holds exactly when the address a (IPv4 taken as ::ffff:a.b.c.d) is numerically smaller than b; it is therefore a strict total order that identifies the two spellings of an IPv4 address.",
 "all pairs of IPv4/IPv6 addresses in all spellings",
 "an order law quantifies over all pairs and triples of addresses",
 ["ipnet/ip.go:IPLess"])
p("C06","Contains is interval membership, except that an interval ending at the all-ones address is always empty",
 "If end is not the all-ones byte string, Contains(start,end,ip) holds exactly when start <= ip <= end. If end is all ones (ff..ff in 16 bytes, or 255.255.255.255 in 4 bytes with start an IPv4 address), Contains returns false for every ip, even for ip = start = end (finding: the unconditional claim is false of the code). The Contains method of a Range asks the same question of its two ends.",
 "all triples of addresses of 4 or 16 bytes",
 "the failing triples sit on one boundary value of 2^128",
 ["ipnet/ipnet.go:Contains","ipnet/range.go:Range.Contains"])
p("C07","Joining ranges computes the exact union or changes nothing",
 "Range.Join / Range.JoinIPNet return true only if the joined range starts inside or right after the receiver, and then the receiver becomes exactly the union of both ranges; if they return false the receiver is unchanged. They do return true whenever the second range starts between the receiver's Start and the address after its End, provided the receiver does not end at the all-ones address.",
 "all pairs of ranges / all ranges and networks",
 "union of intervals is a statement about every address for every pair of ranges",
 ["ipnet/range.go:Range.Join","ipnet/range.go:Range.JoinIPNet","ipnet/range.go:NewRange"])
p("C08","CommonRange computes the intersection that contains the address",
 "Range.CommonRange(ip,r2) returns true exactly when ip lies in both ranges and then the receiver becomes exactly the intersection; otherwise the receiver is unchanged, provided the receiver does not end at the all-ones address and the second range ends elsewhere or not before it; a receiver ending at the all-ones address is said to have nothing in common with any range that does not start at the first address (finding).",
 "all pairs of ranges and all addresses",
 "quantifies over all addresses of both intervals",
 ["ipnet/range.go:Range.CommonRange"])
p("C09","Integer and IP conversions are inverse",
 "IPv4ToUint32(Uint32ToIPv4(u)) = u for every u, Uint32ToIPv4(IPv4ToUint32(ip)) is ip in 16-byte spelling for every IPv4 ip, IPv4ToUint32 crashes on any address that is not IPv4, and Uint64ToIP2(h,l) / Uint64ToIP(h) is the 128-bit number h*2^64+l / h*2^64.",
 "all 32-bit and 64-bit integers, all addresses",
 "2^32 and 2^128 values",
 ["ipnet/ip.go:Uint32ToIPv4","ipnet/ip.go:IPv4ToUint32","ipnet/ip.go:Uint64ToIP","ipnet/ip.go:Uint64ToIP2"])
p("C10","Common prefix and trailing zero lengths",
 "PrefixSameLength(a,b) is the number of leading bits on which two equally long addresses agree, and SuffixZeroLength(a) is the number of trailing zero bits.",
 "all pairs of equally long byte strings",
 "every bit position of every pair",
 ["ipnet/range.go:PrefixSameLength","ipnet/range.go:SuffixZeroLength"])
p("C11","A packed ipdb answers every query with the record of the covering CIDR",
 "Packing rows with pairwise disjoint CIDRs into ipdb and opening the bytes as a query database gives, for every address in a row's CIDR, exactly that row's field values (continent codes shown as names) and that row's prefix length.",
 "all sets of disjoint IPv4/IPv6 CIDR rows, all field lists, all addresses",
 "round trip over every database content and every address",
 ["db/format/ipdb/packer.go:pack","db/format/ipdb/writer.go:Writer","db/format/ipdb/reader.go:reader","db/format/ipdb/querier.go:querier.Query"])
p("C12","Conflicting CIDRs are decided by insertion order, and a rejected row changes nothing",
 "When rows overlap, a row nested strictly inside or strictly around an already stored CIDR is dropped without any effect on any lookup, an identical CIDR replaces the earlier values, and all other lookups are unaffected: after any sequence of rows the packed database answers like a prefix-free map updated by these three rules.",
 "all sequences of rows, overlapping or not",
 "a history property: every order of every multiset of CIDRs",
 ["db/format/ipdb/writer.go:Writer.insert","db/format/ipdb/writer.go:Writer.Nodes"])
p("C13","Addresses without a record are reported as an error, except in one-field databases",
 "For a database with at least two fields, querying an address that no stored CIDR covers, or an address of a family the database does not support, or a malformed address, returns an error; for a database with exactly one field the same query returns success with an empty record and mask 0 (finding).",
 "all packed databases and all addresses not covered by them",
 "needs the absence of a matching record for every address outside an arbitrary set",
 ["db/format/ipdb/querier.go:querier.QueryInternal","db/format/ipdb/reader.go:reader.find0"])
p("C14","The IPv4 prefix cache of ipdb never changes an answer",
 "For any database bytes that open successfully, the lookup of every IPv4 address through the 14-bit prefix cache returns the same node and prefix length as the walk over the tree without the cache.",
 "all database bytes (also ones not produced by this packer) and all IPv4 addresses",
 "2^32 addresses times all databases",
 ["db/format/ipdb/reader.go:reader.initBitsCache","db/format/ipdb/reader.go:reader.getCache","db/format/ipdb/reader.go:reader.search"])
p("C15","BuildCache is transparent",
 "Whatever list of addresses was given to BuildCache, and however often it was called, Query returns for every address the same record, mask and error as a fresh querier over the same bytes.",
 "all database bytes, all sequences of BuildCache calls, all queries",
 "a history property over unbounded call sequences",
 ["db/format/ipdb/querier.go:querier.BuildCache","db/format/ipdb/querier.go:querier.QueryInternal"])
p("C16","The reported prefix length is right for the whole network",
 "If an ipdb lookup of an address succeeds with prefix length m, then every address of the same family that agrees with it on the first m bits has the same record and the same prefix length; findMap's network contains the address.",
 "all database bytes that open, all addresses",
 "statement about all addresses of the reported network",
 ["db/format/ipdb/reader.go:reader.search","db/format/ipdb/reader.go:reader.findMap"])
p("C17","Identical records are stored once and oversize records are corrupted",
 "Packing stores the text of each accepted row, and nothing else, exactly once in the data chunk, every stored record shorter than 65536 bytes is read back unchanged, and a record of 65536 bytes or more is read back truncated (finding).",
 "all sequences of records",
 "sharing and lengths over arbitrary many records",
 ["db/format/ipdb/writer.go:Writer.Fields","db/format/ipdb/writer.go:IntToBinaryBE","db/format/ipdb/reader.go:reader.resolve"])
p("C18","Opening an ipdb rejects inconsistent sizes",
 "Opening bytes succeeds only if the metadata decodes, has at least one language and one field, and the total length is 4 + metadata length + total_size; a truncated or extended packed file is rejected; a file shorter than 4 bytes crashes (finding).",
 "all byte strings",
 "every byte string is a possible file",
 ["db/format/ipdb/reader.go:newReaderFromBytes"])
p("C19","Dumping through a finder covers the address space exactly once and in order",
 "BuildIPData, given any finder that returns for each address a network containing it, terminates and returns rows whose networks are contiguous, ascending and disjoint from the first to the last address of the family, and each row carries the exported values the finder reports for the first address of that network.",
 "all finders with that contract, all field selections, IPv4 and IPv6",
 "whole-address-space coverage and termination for every tree",
 ["db/field/export/export.go:BuildIPData"])
p("C20","A dump is all or nothing",
 "If the finder reports an error for the first address of the dump or for the address right after any reported network, BuildIPData returns that error and no rows.",
 "all finders",
 "depends on every position at which the finder can fail",
 ["db/field/export/export.go:BuildIPData"])
p("C21","Pack then dump of an IPv4 ipdb returns the same partition",
 "Packing rows that partition the IPv4 space into an IPv4 ipdb and dumping it with a rule gives rows that assign to every IPv4 address the values of the row that covered it, restricted to the selected fields.",
 "all IPv4 partitions, all rules",
 "end-to-end round trip over every database",
 ["db/format/ipdb/dumper.go:dump","db/format/ipdb/packer.go:pack","db/field/export/export.go:BuildIPData"])
p("C22","Exported rows have one value per selected field",
 "Exporter.Export returns exactly one value per selected field: the record's value of that field (empty when the record lacks it), except that for each rule whose condition holds on the row as filtered so far every column not listed by the rule is blanked.",
 "all rules, all records",
 "quantifies over all rule lists and records",
 ["db/field/export/export.go:Exporter.Export","db/field/export/export.go:_Filter.extract"])
p("C23","The rule language is parsed as documented",
 "Parsing the documented concrete syntax of any rule (default fields, then groups key=[!]v1/v2/..:fields) yields an exporter with exactly those fields and filters; groups naming unknown keys or unknown fields are ignored. LineRule selects the line column alone.",
 "all rule abstract syntax trees whose names and values avoid the separators",
 "parser round trip over an infinite language",
 ["db/field/export/export.go:ParseRule","db/field/export/export.go:Exporter.buildFilter"])
p("C24","Merging adjacent networks preserves the value of every address",
 "After MergeNearNetwork on a non-empty dataset, an address is covered by a row with values v exactly when it was covered by a row with values v before; the row count in the version info equals the number of rows.",
 "all datasets with well-formed networks in any order",
 "every address of every dataset",
 ["db/field/operate/replace.go:MergeNearNetwork","ipnet/range.go:Range.JoinIPNet","ipnet/range.go:Range.IPNets"])
p("C25","Merging adjacent networks never produces more rows",
 "MergeNearNetwork never increases the number of rows of a non-empty dataset.",
 "all datasets with canonical networks in any order",
 "needs minimality of the CIDR split for every merged range",
 ["db/field/operate/replace.go:MergeNearNetwork"])
p("C26","Empty datasets crash merge and memip packing",
 "MergeNearNetwork and memip packing crash exactly on datasets with no rows; on every non-empty dataset of well-formed networks they complete (finding for the empty case).",
 "all datasets",
 "absence of crashes for every input",
 ["db/field/operate/replace.go:MergeNearNetwork","db/format/memip/packer.go:pack"])
p("C27","Normalising names is a per-value table lookup even for shared rows",
 "ReplaceShortage replaces each city, province and isp value by its table entry (other columns and values without entry are unchanged), also when several rows share one value slice, because the shipped tables are idempotent; applying it twice changes nothing more.",
 "all datasets, all sharing patterns between rows",
 "aliasing between rows has exponentially many patterns",
 ["db/field/operate/replace.go:ReplaceShortage","db/field/data/load.go:parseData"])
p("C28","TrimAsnIspDup only rewrites the isp of rows whose ASN is used by a main operator",
 "When isp and asn are both present and neither is the first column, TrimAsnIspDup changes only the isp column of rows whose isp is not a main operator and whose ASN also occurs in a row of some main operator, and sets it to such an operator; the chosen operator is unique unless two main operators share the ASN, in which case it depends on map iteration order (finding); when isp or asn is the first column it does nothing (finding). A row without a value for the isp, or for the asn, makes it crash.",
 "all datasets, all map iteration orders",
 "Go map iteration order is random: a test sees one order",
 ["db/field/operate/replace.go:TrimAsnIspDup"])
p("C29","Attaching districts keeps rows rectangular when a province column exists",
 "AttachDistrict gives every row the district of its province (empty when unknown) in the district column and changes nothing else when a province column exists; without a province column it adds a district column name but no values, so rows have fewer values than fields (finding) and a packed ipdb then rejects every query. A row without a value for the province, or for an existing district column, makes it crash.",
 "all datasets",
 "all row contents and column layouts",
 ["db/field/operate/district.go:AttachDistrict"])
p("C30","Line attachment per CIDR is right only if rows do not share value slices",
 "ReplaceLineByCidr / AttachLineByCidr give every row whose country is 中国 the normalised line found for its own CIDR if no two rows share a value slice; with shared slices (as produced by MergeNearNetwork) rows of one merged range all receive the line of the last of them (finding). A row without a value for the country, for an existing line column, or (with a line to write) for the isp makes it crash.",
 "all datasets, all sharing patterns, all line databases",
 "aliasing is invisible to value-level tests",
 ["db/field/operate/line.go:AttachLineByCidr","db/field/operate/line.go:ReplaceLineByCidr","db/field/operate/line.go:queryLine"])
p("C31","Plain text pack and dump round trip",
 "Dumping a packed .scan file with a rule over its own fields returns the same networks (up to the spelling of IPv4) and the same values with commas replaced by underscores, up to and including the first row that ends at the all-ones address, provided values contain no tab, carriage return or newline, field names contain no comma, and lines stay under 64 KiB.",
 "all datasets in that class",
 "text round trip over all values and networks",
 ["db/format/plain/packer.go:pack","db/format/plain/dumper.go:dump"])
p("C32","Packing to text modifies the dataset",
 "Packing to .scan replaces commas by underscores in the caller's dataset, so the result of packing the same dataset to a second format depends on the order of outputs exactly when some value contains a comma (finding).",
 "all datasets",
 "effect on later operations for every dataset",
 ["db/format/plain/packer.go:replaceComma","cmd/converter/main.go"])
p("C33","memip pack and dump round trip up to city",
 "Packing a dataset to .memip and dumping it again assigns to every covered address the normalised province, district, isp, country and continent of a row that covered it, and the city of a row that starts at or before it with only agreeing rows in between, for IPv4 datasets and for IPv6 datasets in which no row starts inside the IPv4-mapped region and only the last row may end at the last address (values without spaces, dashes and line ends, below 10000 bytes); the city may be that of an adjacent merged row (finding); a colon in the first row's values makes an IPv4 file report itself as IPv6 (finding).",
 "all datasets in that class, all addresses",
 "text round trip and merging for every address",
 ["db/format/memip/packer.go:pack","db/format/memip/dumper.go:dump"])
p("C34","awdb node records are read as the format defines",
 "For record sizes 24, 28 and 32 the left and right child read from a node are exactly the two numbers of that many bits that were stored there.",
 "all pairs of record values and all node positions",
 "2^56 to 2^64 node contents",
 ["db/format/awdb/node.go:nodeReader24","db/format/awdb/node.go:nodeReader28","db/format/awdb/node.go:nodeReader32"])
p("C35","awdb lookups are consistent over the returned network",
 "When an awdb lookup of an IPv4 address in an IPv4 database, or of an IPv6 address in an IPv6 database, returns a network, that network contains the address and every other address of that network has the same record pointer and network.",
 "all trees, all addresses",
 "statement about all addresses of the network",
 ["db/format/awdb/reader.go:Reader.lookupPointer","db/format/awdb/reader.go:Reader.traverseTree","db/format/awdb/reader.go:Reader.cidr"])
p("C36","The awdb network iterator enumerates every network exactly once in order",
 "On a tree without cycles within the address length, iterating Networks visits exactly the networks that carry data, in ascending address order, each once, and ends without error; on a tree deeper than the address length it stops with an error; it always terminates.",
 "all node tables",
 "every tree shape",
 ["db/format/awdb/traverse.go:Networks.Next","db/format/awdb/traverse.go:Reader.NetworksWithin"])
p("C37","awdb values decode to what was encoded",
 "Decoding the format's encoding of any value tree (strings, bytes, unsigned and signed integers, booleans, maps, arrays, with any size class and with pointers to shared values) at any position of a buffer yields that value and the offset right after it.",
 "all value trees of nesting depth below the limit",
 "codec round trip over an infinite domain",
 ["db/format/awdb/decoder.go:decoder.decode","db/format/awdb/decoder.go:decoder.decodeCtrlData","db/format/awdb/decoder.go:decoder.decodePointer"])
p("C38","The awdb decoder never reads outside its buffer",
 "For every buffer and offset, decoding into an untyped value either returns a value or an error: no access is out of bounds.",
 "all byte strings, all offsets",
 "all malformed inputs",
 ["db/format/awdb/decoder.go"])
p("C39","awdb decoding terminates except for cyclic key pointers",
 "Decoding any buffer whose map keys do not form a pointer cycle terminates (nesting and pointer chains are cut off at depth 512); a map key that is a pointer to itself makes the decoder recurse forever (finding).",
 "all buffers",
 "non-termination cannot be observed by a finite test, termination for all inputs neither",
 ["db/format/awdb/decoder.go:decoder.decodeKey","db/format/awdb/decoder.go:decoder.decode","db/format/awdb/decoder.go:decoder.nextValueOffset"])
p("C40","An awdb query for an address without data crashes",
 "For every awdb database and every address whose tree walk ends in the empty record, Query crashes instead of returning an error; a record that is not a map of strings crashes as well (finding). When the record is a map of strings Query returns its fields.",
 "all trees and addresses",
 "all addresses outside all networks",
 ["db/format/awdb/querier.go:querier.Find","db/format/awdb/reader.go:Reader.LookupNetwork"])
p("C41","awdb dump and query disagree on the AS number",
 "Query reports the AS number from the record key asnumber while a dump looks it up under asn; for every record with an asnumber but no asn the dumped asn column is empty (finding); all other common columns agree.",
 "all records",
 "all record contents",
 ["db/format/awdb/fields.go:CommonFieldsMap","db/format/awdb/querier.go:querier.Query"])
p("C42","The format registry returns the last registered handler",
 "After any sequence of registrations GetXFormat(ext) returns the handler most recently registered for ext, and opening, dumping or packing with an extension that was never registered returns the unsupported-format error.",
 "all registration histories and extensions",
 "a history property",
 ["db/format/formats.go","db/query/query.go:NewDbFromBytes","db/convert/packer.go:PackWriter","db/convert/dumper.go:DumpFile"])
p("C43","Go and Rust agree on covered addresses except for the continent",
 "On a database packed by the Go packer, the Rust reader returns for every covered address the same country, province, city, isp, asn, line and district as the Go reader; the continent is empty whenever the stored value is not one of the seven codes (finding), and for an address without record and two or more known fields the Rust reader panics (finding).",
 "all packed databases below the 32-bit limits, all addresses",
 "cross-implementation agreement for every database and address",
 ["rust/src/formats/ipdb/reader.rs","db/format/ipdb/reader.go","db/format/ipdb/writer.go"])
p("C44","Go and Java agree on covered addresses except for the line of databases with an asn field",
 "On a database packed by the Go packer, the Java reader returns for every covered address the same country, province, city, isp, asn, district and continent as the Go reader; the line is overwritten by the AS number when the asn column comes after or without the line column (finding: missing break). Whatever the file, a Java query never reports that there is no data for an address (finding): its only errors are an unsupported family, a malformed address and a record outside the file.",
 "all packed databases below the 32-bit limits, all addresses",
 "cross-implementation agreement for every database and address",
 ["java/src/main/java/qiniu/uip/db/format/ipdb/Reader.java","db/format/ipdb/reader.go"])
p("C45","Dumping a mixed database only covers IPv4",
 "A dump of an ipdb holding both families (ip type IpAll) starts at 0.0.0.0 and ends at 255.255.255.255: every returned network is IPv4 and no IPv6 record is ever exported (finding).",
 "all mixed databases",
 "absence over all rows of all databases",
 ["db/field/export/export.go:BuildIPData","db/inf/db_inf.go:VersionInfo.IsIpV6"])
p("C46","Dumping an IPv6-only ipdb fails when a network starts at ::ffff:0:0",
 "If the dump of an IPv6-only ipdb reaches the address ::ffff:0:0 as the start of a network, the dump fails with the IPv4-not-supported error although every IPv6 address has a record (finding); it succeeds when a network spans that address block.",
 "all complete IPv6 databases",
 "one address out of 2^128 decides",
 ["db/format/ipdb/reader.go:reader.find0","db/field/export/export.go:BuildIPData"])
p("C47","QueryStr and QueryU32 are Query of the parsed address",
 "QueryU32(u) is Query of the IPv4 address with numeric value u, QueryStr of the dotted form of an IPv4 address is the same, and the database wrapper returns no record and mask 0 with any error.",
 "all 32-bit integers, all databases",
 "2^32 values times all databases",
 ["db/query/query.go:Db.QueryU32","db/query/query.go:Db.QueryStr","db/query/query.go:Db.Query"])
p("C48","Attaching lines by AS number reads the wrong column",
 "When the dataset has no line column, AttachLineByAsn looks up the first column instead of the asn column and leaves rows without a match one value short; when it has a line column it only ever writes empty lines (finding). Without an asn column it only notes the version. Attaching lines by network afterwards crashes as soon as one row was left short.",
 "all datasets and AS tables",
 "all column layouts",
 ["db/field/operate/line.go:AttachLineByAsn"])
p("C49","A dump of an IPv4 awdb is its queries",
 "A successful dump without a rule of an awdb that is not of IP version 6 has disjoint networks that tile the IPv4 addresses, and for every IPv4 address the row of its network has the country, province, city, isp, continent and line that Query returns, with the network's prefix length; the dump succeeds if and only if every IPv4 address has an answer.",
 "all awdb files below 2^64 node table bits, all IPv4 addresses",
 "2^32 addresses times all files",
 ["db/format/awdb/dumper.go:dump","db/format/awdb/querier.go:querier.Query","db/field/export/export.go:BuildIPData"])
p("C50","Dumping an IPv6 awdb: complete, cut off or endless",
 "If no network of an IPv6 awdb ends just before ::ffff:0:0, a successful dump tiles all IPv6 addresses and agrees with Query for every address that is not IPv4-mapped. If one does, then either the dump stops with the IPv4 addresses, everything behind them missing (databases with 96 levels for IPv4), or it never ends, returning to :: again and again (databases whose zero path is shorter) (finding).",
 "all IPv6 awdb files",
 "depends on one address out of 2^128; non-termination",
 ["db/format/awdb/dumper.go:dump","db/format/awdb/reader.go:Reader.cidr","db/field/export/export.go:BuildIPData"])
p("C51","Opening an awdb file does not crash unless it is short",
 "A file of fewer than 2000 bytes crashes the awdb reader (finding); a longer one of any content does not, unless its metadata makes node count times record size overflow 64 bits; once open, a lookup with any byte string as address does not crash.",
 "all byte strings",
 "all file contents",
 ["db/format/awdb/reader.go:FromBytes","db/format/awdb/reader.go:Reader.LookupNetwork"])
p("C52","The outputs of one conversion do not influence each other",
 "When no value contains a comma and no column is an odd spelling of continent, packing one dataset into several outputs writes for each output what packing the dataset alone writes, whatever the order, and leaves the dataset unchanged; with a comma a text output changes what is packed after it (finding).",
 "all datasets, all lists of output files",
 "all datasets and all orders of outputs",
 ["cmd/converter/main.go","db/convert/packer.go:PackFile","db/format/plain/packer.go:replaceComma","db/format/ipdb/writer.go:Writer.insert"])
p("C53","Packing ipdb writes continent codes into the caller's dataset",
 "Packing to ipdb changes the dataset only if a column reads continent without regard to case but is not spelled exactly so; then only the last such column changes, in each row to the two-letter code of its continent name, for every row when no networks overlap; packing the changed dataset again gives the same bytes (finding: the input is modified).",
 "all datasets, also with shared value slices",
 "all datasets and sharing patterns",
 ["db/format/ipdb/writer.go:Writer.insert","db/format/ipdb/packer.go:pack"])
p("C54","Database metadata and dataset versions survive JSON",
 "Encoding the metadata of an ipdb file as JSON and decoding it gives the same metadata, and likewise for the version line of a text scan, for every metadata whose numbers fit their Go types and whose texts are UTF-8 (including quotes, backslashes, control characters and HTML-sensitive characters); so packing and opening an ipdb answers every address by the rows with the real JSON codec in place, and the version line never contains a line break. The metadata of a file may also be written by any other JSON writer: white space, escapes (surrogate pairs included), the order of the members, the case of their names and additional members make no difference, and text after it is rejected. A description is accepted exactly when arrays and objects are nested at most 10000 deep in it and every member of a known name has null or a value of its type, a number being an integer written without fraction or exponent and in the range of its Go type; the number of nodes is then the integer that is written. Whatever bytes the texts are, what is read back is each text with every byte that does not start a UTF-8 character replaced by U+FFFD; so exactly the texts that are not UTF-8 are changed, silently (finding).",
 "all metadata records and versions, all UTF-8 texts, nil and empty slices",
 "all texts with all escapes",
 ["db/format/ipdb/fields.go:MetaData","db/format/ipdb/writer.go:Writer.Save","db/format/ipdb/reader.go:newReaderFromBytes","db/format/plain/packer.go","db/format/plain/dumper.go","db/inf/db_inf.go:VersionInfo"])
p("C55","The HTTP server answers an address with the packed record",
 "GET /<address> of the server answers 200 and a JSON object with exactly the non-empty fields of the record that Query returns for the address (bytes that are not UTF-8 replaced by U+FFFD), 404 without a body if the query fails or the path is not an address, and GET /version answers the version of the open database; so for a dataset of disjoint rows packed by the converter and loaded by the server every covered address is answered with the values of its row, every other address with 404.",
 "all databases, all paths that are addresses or are not, all packed datasets",
 "all datasets and addresses end to end",
 ["cmd/server/server.go","db/query/query.go:Db.QueryStr","db/query/query.go:Db.VersionInfo"])
p("C56","First addresses, order of networks, dotted texts as numbers",
 "IsFirstIP with the IPv6 flag is true exactly for ::, without it for IPv4 addresses exactly for 0.0.0.0 (finding: also for every IPv6 address ending in 32 zero bits); MaskLess is a strict weak order that puts 4-byte networks before 16-byte ones and otherwise the smaller network first; IsAllMask is true exactly for the last address (of IPv4 when written in 4 bytes); IPv4StrToUint32 of an address text is its number for IPv4 and 0 for anything else; Ranges.Less orders by start address and Swap exchanges exactly two entries.",
 "all addresses, networks, texts and slices",
 "2^128 addresses and all pairs and triples of networks",
 ["ipnet/ip.go:IsFirstIP","ipnet/ip.go:IPv4StrToUint32","ipnet/ipnet.go:MaskLess","ipnet/range.go:Ranges"])
p("C57","Converting an ipdb file keeps and improves its answers",
 "Reading an ipdb file with DumpFile and packing it again without rule and operations gives a file that answers every address of the family read (IPv6 for an IPv6-only file, otherwise IPv4) with the same record and the same network as the original. With the converter's default operations every such address is still answered, with a network that is not smaller, the same country, continent, AS number and line, the normalised names of province and city, the district of that province, and the normalised operator, which is replaced exactly when it is not one of the four main operators and some address with the same AS number has one. Findings: the IPv6 half of a file with both families is lost; an IPv6 file with the same values everywhere is merged to ::/0, which crashes the packer.",
 "all ipdb files that open and dump, all map iteration orders, all addresses of the family",
 "all files, all addresses and all schedules of map iteration end to end",
 ["cmd/converter/main.go","db/convert/dumper.go:DumpFile","db/convert/packer.go:PackFile","db/format/ipdb/dumper.go:dump","db/format/ipdb/packer.go:pack","db/field/operate/replace.go","db/field/operate/district.go","db/field/operate/operate.go"])
p("C58","Converting with the default rule: what every address answers afterwards",
 "Running the converter with its default rule and default operations on an ipdb file, on an IPv4 awdb file or on an IPv6 awdb file whose dump never has to ask for an IPv4 address, and packing to ipdb gives a file that answers every address of the family read with exactly the record obtained by applying the default rule to the original answer (outside China only country and continent survive; Taiwan keeps its province and drops the rest) and then the default operations (normalised names, main operator by AS number, district of the province), with a network that is not smaller. Findings: rows without an AS number count as one AS, so one Chinese address without AS number and with a main operator gives that kind of operator to every foreign address; an awdb file always loses its AS numbers and is always affected.",
 "all ipdb files that open and dump, all IPv4 awdb files, all IPv6 awdb files whose dump does not reach an IPv4 address, all map iteration orders, all addresses of the family read",
 "all files, all addresses and all schedules of map iteration end to end",
 ["cmd/converter/main.go","db/convert/dumper.go:DumpFile","db/convert/packer.go:PackFile","db/field/export/export.go","db/field/operate/operate.go","db/field/operate/replace.go","db/format/awdb"])
p("C59","One run of the converter and the files it touches",
 "If a run of the converter reports no error then the input was dumped, every output named by -o could be created and has one of the extensions .ipdb, .memip, .scan, every output holds the dataset packed in the format of its extension, and no other file has changed. If it reports an error then either nothing was dumped and no file has changed, or it stopped at the first output that cannot be created or has another extension; the outputs before it are written, those after it are untouched. The outputs are written in the order given: one that follows a text output holds the dataset with every comma in a value replaced, any other the dataset itself; of a file named more than once the last turn counts. Finding: an output with another extension, for example .awdb, is emptied before the extension is checked, even if it is the input file.",
 "all file systems, all command lines, all lists of outputs, all map iteration orders",
 "all file systems and argument lists, all failure points",
 ["cmd/converter/main.go","db/convert/packer.go:PackFile","db/convert/packer.go:PackWriter","db/convert/dumper.go:DumpFile","db/query/query.go:NewDb"])
p("C60","An awdb file written in the format is opened and answered as written",
 "For every file made of a node table, 16 bytes, a data section, the marker and a metadata map, with the marker and metadata in the last 2000 bytes and no later marker: opening reads exactly the node table, the data section and the metadata (the last entry of each known key; unknown entries of any type and nesting are skipped); every address whose bits lead to the record of a value written in the data section is answered with that value, and Query with its texts and the depth of its node; Lookup, LookupNetwork, and LookupOffset followed by Decode agree for every open database.",
 "all node tables, data sections and metadata maps, all record sizes, all addresses",
 "all files and all addresses, all nestings of skipped values",
 ["db/format/awdb/reader.go:FromBytes","db/format/awdb/reader.go:Lookup","db/format/awdb/reader.go:LookupOffset","db/format/awdb/reader.go:Decode","db/format/awdb/decoder.go:decodeStruct","db/format/awdb/decoder.go:nextValueOffset","db/format/awdb/querier.go"])
p("C61","Version information of a database in Go, Rust and Java",
 "A database packed from a dataset shows, in each of the three languages, the dataset's address family (IPv4, IPv6, anything else counts as both), its version text and extra information, the time it was packed, the language CN, and the same node count; the has-IPv4 / has-IPv6 / is-both helpers agree with the family. A missing version text is shown by Go as ipip.net- followed by the day of the build time in UTC (the Gregorian calendar, for every number of days), by Java as ipip.net- and the number of seconds, by Rust as the empty text (finding: three different defaults).",
 "all datasets, all build times (all integers for the calendar, from 1970 on for the text), all families",
 "all build times and datasets; a calendar error shows on single days only",
 ["db/format/ipdb/reader.go:version","db/format/ipdb/reader.go:Build","db/inf/db_inf.go:HasIpV4","db/inf/db_inf.go:HasIpV6","rust/src/formats/ipdb.rs:version","java/src/main/java/qiniu/uip/db/format/ipdb/Ipdb.java:version","java/src/main/java/qiniu/uip/db/VersionInfo.java"])
p("C62","Querying by text gives the same answers in Go, Rust and Java",
 "Asked for the usual text of an address (four decimal numbers, or the canonical IPv6 text), the Rust and Java readers answer as for its bytes, and for an address covered by a row with one value per column the three languages show the same values (continent apart in Rust; null for a missing column in Java). A text that is not an address is an error. Asked for a number, Rust answers as for the IPv4 address with that number, as Go does. Finding: Java refuses every text that starts with a colon, which is every IPv6 address below 2^64 (::1) and none from 2^96 on.",
 "all packed databases, all addresses, all texts, all address parsers that read the usual texts",
 "all addresses and datasets",
 ["rust/src/query.rs:query_str","java/src/main/java/qiniu/uip/db/Query.java:query","java/src/main/java/qiniu/uip/util/IPAddress.java","db/query/query.go:QueryStr"])
p("C63","Converting with a line database",
 "With -line and the default rule the converter reads an ipdb file, an IPv4 awdb file or an IPv6 awdb file whose dump never has to ask for an IPv4 address, and writes an ipdb file in which every answer is the one obtained without a line database, plus a line: an answer of China has the line that the line database gives for the first address of its network (lines of main operators by name, none when the line database reports an error), every other answer has no line. With -line-replace only the operator of an answer of China may differ: it stays when the line database has no line for the first address of the network, otherwise it is the line of the first address of some network with exactly this answer, not necessarily of the network of the address (finding). Finding: without a rule the rows of a run share the memory of their values, and all of them get the line of the last one.",
 "all ipdb files that open and dump, all IPv4 awdb files, all IPv6 awdb files whose dump does not reach an IPv4 address, all line databases that answer or report an error, all map iteration orders, all addresses of the family read",
 "all files and line databases, all addresses and all schedules of map iteration end to end",
 ["cmd/converter/main.go","db/field/operate/line.go:AttachLineByCidr","db/field/operate/line.go:ReplaceLineByCidr","db/convert/dumper.go:DumpFile","db/convert/packer.go:PackFile","db/query/query.go:Query"])
p("C64","What a query of any ipdb file gives, damaged or foreign files included",
 "A file consists of a description and a body; the body starts with nodes of two links of four bytes, a link above the node count stands for a record (two bytes of length, then text) at an offset. For every file that opens and has room for its nodes, and every address of a family it has: the bits of the address lead to exactly one link; a link to a complete record is answered with the columns of its language (continent codes as names, one info field per known column) and the depth as prefix length; a missing, outlying or cut record is answered as an empty text, an error unless the file has one column; the query crashes exactly when the link points into the gap between the end of the records and the size of the whole file (finding: the check uses the size including the description). A file with a complete description, the right size and room for its nodes always opens. Finding: the node count is not compared with the size, a walk to a node outside of the file crashes.",
 "all byte sequences, all descriptions, all addresses",
 "all files including damaged ones, all addresses",
 ["db/format/ipdb/reader.go:newReaderFromBytes","db/format/ipdb/reader.go:search","db/format/ipdb/reader.go:readNode","db/format/ipdb/reader.go:resolve","db/format/ipdb/reader.go:decodeInfo","db/format/ipdb/querier.go:QueryInternal","db/query/query.go:QueryStr"])
p("C65","Results of an open ipdb database are not disturbed by other queries, and what callers share with it",
 "An ipdb database is opened; then callers ask for addresses and store texts of their own into results they were given, in any order and any number. A result that nobody stores into reads, at every later time, as the answer a freshly opened database gives for its address, with the same prefix length, provided nobody overwrites the bytes the database was opened from. Prefix lengths, errors and crashes never depend on the history. Two queries return the same result object only if it was made when the database was opened; the addresses of the built-in list always get such a shared object, all other results are new. Findings: storing into a shared object changes every later answer for its network; overwriting the byte slice given to NewDbFromBytes changes results that were already returned.",
 "all files, all address lists, all histories of queries and stores (any interleaving of callers)",
 "all histories and interleavings; aliasing through unsafe strings and cached pointers",
 ["db/format/ipdb/querier.go:QueryInternal","db/format/ipdb/querier.go:BuildCache","db/format/ipdb/reader.go:decodeInfo","db/format/ipdb/reader.go:newReaderFromBytes","db/query/query.go:NewDbFromBytes"])
p("C66","What the command line program simple writes",
 "For every file that opens and every second argument: the text of an address is answered with one line of the form &{Country:.. District:.. .. Line:..} holding exactly the answer of the database, or with a logged error and nothing on standard output when the query fails; an argument that starts with v is answered with the line the server sends for /version; any other argument is logged as invalid. A dataset of disjoint rows that is packed into the file is answered with the row of the address. Two answers without spaces never give the same line (finding: with spaces they can). With fewer than two arguments, or a file that cannot be read, simple and server crash; a file of another kind or one that does not open is logged, with exit status 0.",
 "all files, all arguments, all addresses, all datasets of disjoint rows",
 "all arguments and all files; readability is a statement about pairs of answers",
 ["cmd/simple/main.go:main","cmd/server/main.go:main","db/query/query.go:NewDb","db/query/query.go:QueryStr","db/inf/db_inf.go:IpInfo"])
p("C67","Through the text format and back into a database file",
 "For every dataset of disjoint rows without line breaks or tabs and every rule: packing it into .scan, dumping that text with the rule and packing the result into .ipdb gives a file whose answer for every address of a row is the row's selected columns, with an underscore for every comma, after the rule's blanking, and with the length of the row's network; an address in no row is answered with a database error. In particular an .ipdb file that is sent through .scan with the rule that lists its columns answers every address of the dumped family like the original file, with underscores for commas and with the same network length.",
 "all files and datasets, all rules of the documented form, all addresses, all lists of cached addresses",
 "all files, rules and addresses; the statement composes three programs (dump, text, pack)",
 ["db/format/plain/packer.go:pack","db/format/plain/dumper.go:dump","db/field/export/export.go:ParseRule","db/convert/dumper.go:DumpFile","db/format/ipdb/packer.go:pack","db/query/query.go:QueryStr"])
p("C68","Through the .memip format and back into a database file",
 "For every .ipdb file of one address family whose columns are distinct and whose values contain no blank, dash or line end (and, for IPv4, no colon; for IPv6, at least two different answers): packing its dump into .memip, dumping that text (with any rule) and packing the result into .ipdb gives a file that answers every address of the family with the country, province, district, isp and continent of the original answer as .memip shows them (missing, empty and reserved values as a default text, other operators as one text, the district blanked for three provinces), without AS number and line; the city is that of an address at or below the one asked for, between which the original answers agree in everything else. No address is in two rows of the text. Finding: the dump of a file with both families is written to .memip without complaint, but reading that text crashes.",
 "all files, all addresses of the family, all rules, all lists of cached addresses; for the finding all datasets of IPv4 rows that are not declared IPv4",
 "all files and addresses; composes dump, merge, text, split, pack and lookup",
 ["db/format/memip/packer.go:pack","db/format/memip/dumper.go:dump","db/convert/dumper.go:DumpFile","db/format/ipdb/packer.go:pack","db/query/query.go:QueryStr"])
p("C69","Requests served at the same time do not influence each other",
 "The HTTP server over an .ipdb file, with any number of requests arriving at any time and any interleaving of their single accesses to shared memory (bytes of the file, lookup caches, results): every request that finishes was answered exactly as if it were the only one ever served; a result that one request stores into is never read or stored into by another one, at any time (no data race); a request never waits for another one, and makes at most 525 + 10 * (size of the file) + (number of columns) accesses, whatever the others do.",
 "all files that open, all lists of cached addresses, all sequences of requests, all schedules, all moments of all histories",
 "all schedules and histories; a race shows up only under rare interleavings",
 ["cmd/server/server.go:ListenAndServe","db/query/query.go:QueryStr","db/format/ipdb/querier.go:QueryInternal","db/format/ipdb/reader.go:find0","db/format/ipdb/reader.go:decodeInfo"])
p("C70","The output files at any moment of a conversion",
 "The converter, killed at any moment or running on a disk with any amount of room: with enough room the run does exactly what the property about its results says; if the input cannot be read no file is touched at all; otherwise, at any moment, files that are not outputs are as before, and the outputs are, in the order given, first complete ones, then at most one that is as before or holds a beginning of what belongs there, then ones that are as before the run. An .ipdb output is at any moment as before, complete, or refused when it is opened: it is never half a database. A run that ends without an error has written every output completely, except that a .memip file (and a .scan file of a dataset without rows) may have been cut by a full disk without any report (finding); and a .scan output is, at some moments, a proper scan of only the first m rows, for every m (finding).",
 "all file systems, inputs, rules, lists of outputs, amounts of room per file, all moments of the run",
 "every crash point and every size of the disk",
 ["cmd/converter/main.go:main","db/convert/packer.go:PackFile","db/format/ipdb/writer.go:Save","db/format/ipdb/packer.go:pack","db/format/plain/packer.go:pack","db/format/memip/packer.go:pack"])
p("C71","What the functions of ipnet share with their callers",
 "NextIP, LastIP, NextStart, IpNet, IPLess, Contains, NewRange, Range.Join, JoinIPNet, CommonRange and IPNets never change a byte of an address or mask that existed before the call. NextIP, LastIP, NextStart and IpNet answer in new memory. NewRange of a 16-byte network holds the network's own address as its Start, Join and CommonRange make the receiver hold addresses of the other range. Of the networks that IPNets returns every mask and every address has memory of its own, except that the first address is the Start of the range itself when that has 16 bytes: who stores into it moves the range (finding), while a store into any other of them changes nothing else.",
 "all memories, all ranges and networks in them (also overlapping slices), all later stores",
 "aliasing shows only when some caller stores into some result later: all histories of stores",
 ["ipnet/ip.go:NextIP","ipnet/ip.go:IpNet","ipnet/ipnet.go:LastIP","ipnet/range.go:NewRange","ipnet/range.go:Join","ipnet/range.go:CommonRange","ipnet/range.go:IPNets"])
p("C72","What decoding awdb data asks for",
 "Whatever the data and whether it can be decoded or not, a map or slice made by the awdb decoder is made for fewer than 65821 + 2^24 elements and a copied text or key is no longer than the data. When a value is decoded, the elements made for are exactly the values in it, and when no pointer was followed its values and the bytes copied for it together are at most the bytes read. Findings: the number of elements in a header is not checked against the data before the slice is made, so 5n bytes (n up to 512) make the decoder ask for n slices of 16843036 elements before it reports an error; and pointers let 2+6n bytes (n up to 256) decode, without an error, to 2^(n+1)-1 values.",
 "all data, offsets, targets and depth limits; for the findings all n up to the depth limit and all surrounding data",
 "the cost depends on the whole data; tests use small well-formed files and see neither memory requests nor blow-up",
 ["db/format/awdb/decoder.go:unmarshalMap","db/format/awdb/decoder.go:decodeMap","db/format/awdb/decoder.go:decodeSlice","db/format/awdb/decoder.go:decodePointer","db/format/awdb/decoder.go:decodeKey"])
p("C73","What a dataset says about itself, through operations and a run of the converter",
 "Normalising texts, copying operators and attaching districts leave the version information and the networks of a dataset as they are; joining neighbours sets the number of rows to the true one (modulo 2^32) and changes nothing else; each of the three line operations appends exactly one text to the extra information. Attaching a district or a line adds that column at the end when it is missing and no other. So after a run of the converter the version information has the family, build time, version text and languages of the input, the true number of rows, and, when a line database was given, its version and build time appended to the extra information; the dataset dumped from an .ipdb or .awdb file has the version information that the opened file shows, whatever the rule. An .ipdb output, opened again, shows the family, version text and extra information of the dataset and the time of packing; the build time of the input is lost and the count shown is the number of nodes, not of rows (finding).",
 "all datasets (ragged ones included), rules, line databases, AS tables, map iteration orders and files",
 "all datasets and histories of operations; the tests look at rows only",
 ["db/field/operate/line.go:AttachLineByCidr","db/field/operate/line.go:ReplaceLineByCidr","db/field/operate/line.go:AttachLineByAsn","db/field/operate/replace.go:MergeNearNetwork","db/field/operate/district.go:AttachDistrict","db/inf/db_inf.go:VersionInfo","db/format/ipdb/fields.go:buildMeta","cmd/converter/main.go:main"])
p("C74","Opening a database by its file name in Go, Rust and Java",
 "Go and Java take a file as ipdb exactly when its name ends in .ipdb (and Java reports every other name that has a dot as unsupported); Rust ignores the name. Java reads a file completely whatever portions the system delivers it in. A file that cannot be read is an error in Java and Rust and a crash in Go (finding); a name without any dot crashes Java even before the file is opened (finding), and a dot in a directory name counts as an extension in Java but not in Go. A packed database below 2 GiB opens by its name in all three when the name ends in .ipdb, and under any other name only in Rust.",
 "all file names, contents, and sequences of partial reads",
 "all names and all read sizes; the tests open one file",
 ["db/query/query.go:NewDb","java/src/main/java/qiniu/uip/db/Query.java:create","java/src/main/java/qiniu/uip/util/File.java:readAll","rust/src/query.rs:from_file"])
p("C75","Answers as text, and the command line tool of Rust",
 "The text of a Rust answer lists its eight values by name, that of a Java answer too with null for what is not known; the text tells the answer whenever no value contains a comma (and, in Java, none is the word null), and not in general (finding). The Rust tool writes its arguments, then one line: the answer or the error for the address, the error for a file that cannot be read or opened, or a usage line; it ends with status 0 in all these cases. On the same packed database below 2 GiB and for every plain address that a row covers, it shows the values that the Go tool shows, continent apart; for an address without record the Go tool reports an error and the Rust tool crashes when the file is below 512 KiB and has a known column besides the first (finding).",
 "all answers, arguments, files, addresses and packed databases",
 "all texts, files and addresses; two tools over the same file",
 ["rust/src/data.rs:IpInfo","rust/src/bin/query.rs:main","java/src/main/java/qiniu/uip/db/IpInfo.java:toString","cmd/simple/main.go:main"])
p("C76","The command line of the converter",
 "The converter goes on exactly when its arguments are settings (-name value, --name value, -name=value, and -line-replace with an optional =truth value), in any order, followed by nothing or by a word that is no option; that word and what follows it are ignored. Of a setting given twice the last one counts, a missing one has its default. A request for help ends it with status 0, an unknown option, an option without its value, or a value of -line-replace that is no truth value with status 2, and then no file is touched; in all other cases it ends with status 0, also after an error. -line-replace followed by a separate word ends the options there (finding). Without an output it writes nothing and reports an error.",
 "all argument lists",
 "all argument lists of any length",
 ["cmd/converter/main.go:main"])
p("C77","What Rust and Java answer from any ipdb file",
 "For every ipdb file below 2 GiB (Java: 128 KiB less) with room for its nodes, however damaged or whoever wrote it, the answer of the Rust and of the Java reader to any address of a family it holds is determined by the file format: follow the bits of the address to a link; a link beyond the nodes stands for a record, whose text is split into columns. A link that is a node is an error in Rust, while Java then answers with the record that node 0 would stand for. A record beyond the file or cut off is an error in both; one in the gap between the end of the body and the size of the file, or beyond 31 bits, crashes both. Rust shows the columns from the first one on, whatever the offset of the language is, and crashes when a known column is missing; Java takes the columns from the offset of the language on, null where there are none, and crashes when the offset is beyond them or the continent is null. Links from 2^31 on are negative: Rust crashes on one before the last bit and calls it not found after it; in Java the walk goes on at the offset that eight times the link has modulo 2^32, crashing beyond the body, so that a wrong record may be shown (finding), and one that ends there is not found. A file whose description is complete opens in Rust exactly when no IPv4 address meets a negative link within the first 108 bits of its number, the last one excepted, and in Java exactly when no such walk leaves the body; otherwise opening it crashes.",
 "all files, all addresses, all JSON libraries and text decoders of the two languages",
 "any bytes, any damage; trees and texts of any size",
 ["rust/src/formats/ipdb/reader.rs:Reader","rust/src/query.rs:query","java/src/main/java/qiniu/uip/db/format/ipdb/Reader.java:query"])
p("C78","A .scan header alone sets what reading reserves",
 "Reading a .scan file reserves, as soon as the line of the columns is seen, room for one line more than the Count in the version of the header says, and before any row is parsed room for as many rows; the rows of the file play no part. The sum wraps around at 2^32, so a Count of 2^32-1 reserves nothing. So for every Count below 2^32 there is a valid file of at most 200 bytes without a row that makes the reader reserve that many entries and one, twice (finding); nothing beyond 32 bits is ever reserved.",
 "all files, all header texts, all rows",
 "all counts and all texts; tests do not see a reservation",
 ["db/format/plain/dumper.go:newDumper","db/format/plain/dumper.go:traversal.Dump"])
with open('/verif/properties.jsonl','w') as f:
    for x in P: f.write(json.dumps(x,ensure_ascii=False)+'\n')
print(len(P))
