{
 "C05": {
  "note": "the property's positive reading is false (IPv6 src/dst); refuted with a witness and characterised exactly"
 },
 "C08": {
  "note": "holds for every protocol header; the Tester exception is a _refuted theorem"
 },
 "C09": {
  "note": "false for ICMP only: refuted for ICMP, proved for all others"
 },
 "C10": {
  "note": "independence is refuted; sharing is proved for every later history"
 },
 "C14": {
  "note": "the unconditional claim is refuted; the conditional one is proved"
 },
 "C15": {
  "note": "refuted in general; exact condition proved"
 },
 "C16": {
  "note": "byte concatenation refuted; the actual result proved for all packets"
 },
 "C17": {
  "note": "content independence refuted; sharing proved in every later heap"
 },
 "C18": {
  "note": "reflexivity and symmetry refuted in general; proved as byte equality for sized packets"
 },
 "C20": {
  "note": "value proved for every even length; RFC 1071 agreement exactly when the fold does not carry (refuted otherwise); odd lengths panic except 11"
 },
 "C21": {
  "note": "refuted with a witness; validity characterised exactly"
 },
 "C25": {
  "note": "cfi and wide vid are refuted with witnesses; the bytes built are characterised for all arguments"
 },
 "C27": {
  "note": "a flow label above 20 bits is refuted with a witness"
 },
 "C31": {
  "note": "the claim is refuted for every call with a bos or exp, and for the label; what is built is proved for all arguments"
 },
 "C32": {
  "note": "snap characterised for all arguments, correct iff the three oui bytes are equal; llc refuted"
 },
 "C33": {
  "note": "also shows that the nesting depth is not bounded by any constant (VLAN stack)"
 },
 "C36": {
  "note": "identity refuted (GRE with two options); exact condition, permutation and the GRE-free case proved"
 },
 "C39": {
  "note": "refuted for every protocol header; undefined behaviour characterised exactly"
 },
 "C40": {
  "note": "refuted at 1500, proved for every other length word"
 },
 "C41": {
  "note": "refuted; the extra entry consumed is proved for every stack, and the shape that does parse is given"
 },
 "C42": {
  "note": "holds for all arguments; the checksum inherits the carry error of C20 (stated as an iff); unreadable addresses panic"
 },
 "C44": {
  "note": "proved for all seven builders; port 4789 with a short payload is a _refuted witness"
 },
 "C46": {
  "note": "lengths proved, checksum proved wrong for every argument (and refuted by a witness); the IPv6 duplication is proved and refuted"
 },
 "C47": {
  "note": "length right exactly when routing adds a multiple of 65536; refuted by a witness otherwise; parsing proved, including the reversed option order"
 },
 "C48": {
  "note": "length and flag claims refuted with witnesses; what is built is proved for all arguments"
 },
 "C50": {
  "note": "interleaving model with one lock per bit (Conc.v); schedules arbitrary, memory sequentially consistent; stated for setters and for threads of any calls with disjoint footprints"
 },
 "C51": {
  "note": "both halves refuted with witnesses; exact set of outcomes proved: a getter sees old high bits and new low bits (every cut happens), two setters can leave every bitwise mix"
 },
 "C52": {
  "note": "no deadlock without replace for every program; self and crossing replace proved to hang/deadlock; replace in a fixed order proved safe"
 },
 "C53": {
  "note": "output modelled as a string; text printed before a panic is C68; the extra bit is part of the specification (groups) and a _refuted witness shows it is not the plain value"
 },
 "C54": {
  "note": "contents after GRE options come back in the other order (C36); types and payload are the same with GRE too"
 },
 "C57": {
  "note": "four refutations with witnesses: IHL, TCP data offset, total length, fragment offset"
 },
 "C58": {
  "note": "octet-sized fields; other sizes panic (C07)"
 },
 "C60": {
  "note": "validity is an iff; the unconditional claim is refuted with a witness"
 },
 "C61": {
  "note": "the printed line is a string of the model"
 },
 "C62": {
  "note": "the checksum claim is refuted"
 },
 "C63": {
  "note": "tables and the functions around them; PyO3 itself is not modelled. Self assignment is refuted for every packet with an Ether"
 },
 "C64": {
  "note": "atomicity of the packet copy refuted with a witness; the exact set of results proved"
 },
 "C65": {
  "note": "that a wrong text can be told from an address is refuted with a witness; relies on the model of std's parser"
 },
 "C66": {
  "note": "that safe code is free of undefined behaviour and that one thread cannot block itself are refuted with reachable witnesses"
 },
 "C67": {
  "note": "deadlock freedom without an order on replace is refuted with a reachable witness"
 },
 "C68": {
  "note": "the text is an exact function of call and state; the address specification is relational and proved to determine the text"
 },
 "C70": {
  "note": "for headers shown, the fields of their type must not end before they start (a type with such a field does not compile); the poisoning statement is about buffers that existed before the call"
 },
 "C71": {
  "note": "that lines and calls are not interleaved is refuted with a reachable witness"
 }
}