{
 "C01": "Operations of the certificate database as a step function on lists of entries; edges given as an inductive relation in CADbSpec; invariant over all operation lists.",
 "C02": "Same model; invariant over histories that contain no revive or key update for the digest, plus a refutation of the unrestricted claim.",
 "C03": "Prefix/immutability relation proved per operation and lifted to histories by induction.",
 "C04": "Each view characterised by membership <-> state predicate; partition as a permutation.",
 "C05": "Complete case characterisation of the answer function over the lists; refutation for updated certificates.",
 "C06": "Membership characterisation of the list; monotonicity of numbers over histories; refutation for the second store.",
 "C07": "Removal shown to be the split at the first match.",
 "C08": "Keys as an inductive type (plain/hybrid) with decidable equality; iff with the component relation.",
 "C09": "Requests as lists of optional keys; iff on the good part and refutations.",
 "C10": "iff against a symmetric relation, and the refuted case.",
 "C11": "Transition system of the whole request handler; invariant over histories of requests with arbitrary environments.",
 "C12": "Event history over the handler model; at-most-once by an invariant relating the spent list to accepted requests.",
 "C13": "Challenge dictionary in the handler model; at-most-once over histories.",
 "C14": "Invariant relating recorded indices to accepted signatures, over histories.",
 "C15": "Product of the confirmation state and the certificate database; history theorem.",
 "C16": "Decision function characterised for all states, bodies and times.",
 "C17": "Frame theorem of the revocation handler for all states; all-or-nothing by case analysis.",
 "C18": "Dispatch function; uniqueness check equals NoDup; responses by induction over the batch.",
 "C19": "All exits of the handler enumerated; ids of the response traced to the request.",
 "C20": "Fuelled walk; invariant that update links stay inside the database and are acyclic over histories.",
 "C21": "Generic bit-packing lemmas (LatBase) by induction on lists.",
 "C22": "Arithmetic over Z.",
 "C23": "Layer-wise inversion of butterflies; only the root table is computed.",
 "C24": "NTT as evaluation map of the negacyclic ring, layer by layer (LatRing, LatNtt).",
 "C25": "Induction over the stream.",
 "C26": "Ring algebra on top of C21-C25; the no-failure event is an explicit hypothesis with a concrete instance.",
 "C27": "Case analysis of decapsulation with injectivity of the ciphertext encoding.",
 "C28": "Generic bit-packing lemmas.",
 "C29": "Induction over the packed positions; canonicity.",
 "C30": "Composition of C28/C29 with chunking lemmas.",
 "C31": "Arithmetic over Z.",
 "C32": "As C23/C24, instance of the generic development.",
 "C33": "Composition; ring algebra of the verification equation, hint lemma, encodings.",
 "C34": "Induction on digits.",
 "C35": "Chains, trees, hypertree and FORS by induction for abstract hash functions.",
 "C36": "Refutation on the model with a concrete hash.",
 "C37": "Byte-slice lemmas on the 32-byte address.",
 "C38": "FrodoModel.v models matrices as lists of rows and bit strings as lists of bits; packing and encoding are characterised bit by bit (FrodoProofs.v) for symbolic dimensions, sampling by the intervals of the published table.",
 "C39": "FrodoKem.v and FrodoTop.v compute key generation, encapsulation and decapsulation symbolically for any parameter set with q = 2^D; the noise identity is proved with double sums; FrodoMain.v specialises to the three parameter sets. Implicit rejection follows from packing being a bijection.",
 "C40": "Exact characterisation of encaps and decaps against the combiners of the drafts; agreement from the correctness of the halves; suffix-free contexts and identifiers for the binding theorems.",
 "C41": "Exact iff against a relational specification of the table, for all component schemes.",
 "C42": "The tables of names, codes and sizes are compared with formulas for the 80 parameter sets by computation; level lists, encodings and the mixed-radix number by induction. The library parser is a parameter; a reference parser shows the assumptions can be met.",
 "C43": "iff with a pairwise statement over positions.",
 "C44": "Byte arithmetic.",
 "C45": "Optional header fields; iff.",
 "C46": "Fuelled search with an invariant; termination bound by the pool size.",
 "C47": "History invariant of the handler.",
 "C48": "History invariant of the handler.",
 "C49": "Append/immutability relation lifted from the database operations to whole requests and histories.",
 "C50": "iff between verification and the equation of FIPS 204 in the coefficient ring.",
 "C51": "Induction over the XOF stream; exact counts of nonzero coefficients and ranges.",
 "C52": "Injectivity of the message representative, and case analysis of the entry points.",
 "C53": "Arithmetic of the Winternitz checksum digits.",
 "C54": "Explicit reduction: extraction of a collision or chain value from two accepted signatures.",
 "C55": "Injectivity of the message representative, and case analysis of the entry points.",
 "C56": "Equality with the inputs written down from FIPS 205, and injectivity of their layout.",
 "C57": "Decision tree of the loaders characterised by lengths; all byte strings.",
 "C58": "Round trip through the structure model, all keys and options.",
 "C59": "iff for the consistent schemes, refutations for the others.",
 "C60": "Case analysis of the loader, all structures.",
 "C61": "Composition of the key codecs with the rounding lemmas.",
 "C62": "Composition with C26, C33 and C35.",
 "C63": "Interval arithmetic on times.",
 "C64": "List search characterised.",
 "C65": "Case analysis on sender and protection kind.",
 "C66": "iff.",
 "C67": "iff.",
 "C68": "Induction over the batch.",
 "C69": "Inductive relation on nesting, fuel-free structural recursion.",
 "C70": "iff.",
 "C71": "Conjunction of the parts.",
 "C72": "Exact characterisation by positions; refutation of soundness.",
 "C73": "Composition with the chain model.",
 "C74": "Composition with the chain model.",
 "C75": "Round trip for all keys, given that the library reads back what it writes.",
 "C76": "Diffie-Hellman, OAEP and hash functions are parameters; RSA correctness is proved from Fermat.",
 "C77": "Names are split for every row of the two tables; loading is characterised exactly against a description of the fields; saving followed by that description gives the round trips.",
 "C78": "The result is written as the encoding of another signature; reading it back uses the index theorem of C42.",
 "C79": "Byte string surgery on the secret key layout; HSS states are records read back by the library parameter.",
 "C80": "Lookups against formulas for the registered numbers; slices of the secret key layout.",
 "C81": "Python string functions on ASCII strings (split, strip, isdigit) with lemmas for lists of padded names; counting set bits by induction.",
 "C82": "Names of set bits as a filter of the zipped lists; injectivity of joining; bits without trailing zeros are determined by the set positions.",
 "C83": "Case analysis on the strictness over the exact results of C81 and C82.",
 "C84": "Counting of found OIDs against duplicate-free lists.",
 "C85": "Positions against numbers in the table of status values; the check as a conjunction of its tests.",
 "C86": "The split text of the extension is characterised as the set of its usages; each rule is a subset or disjointness test; substring search in the joined text reduces to membership.",
 "C87": "Preparation produces an identifier of known shape; the codec assumption turns the transported parameters back into it; both sides then compute the same function.",
 "C88": "The check is inverted into a relation mac_value, one rule per algorithm; table lookups are decided over finite tables.",
 "C89": "As C88, with the symmetric key agreement of the library assumed symmetric.",
 "C90": "As C88, with decapsulation assumed to undo encapsulation; the first ciphertext of the header by induction on generalInfo.",
 "C91": "The identifier chosen for each key kind and hash is shown to fit the key (sig_scheme) and to name the scheme that was signed with, by enumeration of the tables.",
 "C92": "Inversion of validation, consistency check and dispatch into the relation sig_scheme.",
 "C93": "Enumeration of the tables against the description oid_kind.",
 "C94": "Induction over the loops, with the number of rounds as a ceiling division.",
 "C95": "Inversion of the comparisons into the relation params_match; for two protected messages the decoders undo the encoders.",
 "C96": "Inversion of the checks; the hash of each identifier by enumeration of the tables.",
 "C97": "Inversion, with the decoders undoing the encoders; the refusal from C88.",
 "C98": "Induction over generalInfo gives the last entries of each type; the rest is inversion, with C92 for the signatures.",
 "C99": "The identifier made for each key fits it (as C91, also for RSASSA-PSS and composite keys); the entries appended are the last of their types.",
 "C100": "Induction over generalInfo and over the list of messages.",
 "C101": "One inductive specification of what is issued (`entitled`, `answers`); exactness by inversion of each branch, lifted to messages by induction over the requests.",
 "C102": "Inversion of each branch against `pop_ok`; the signatures through C92.",
 "C103": "`registered` is the first entry of its type, the only one, decoded completely; then case analysis of C101_exact.",
 "C104": "Induction over the list of requests; the identifiers through duplicate-freeness and the pigeonhole argument of `Permutation`.",
 "C105": "Inversion; the refutations are runs of the server on a concrete environment and an equation for all messages.",
 "C106": "Inversion; induction over the controls.",
 "C107": "Inversion, with the template transformation as a relation.",
 "C108": "Inversion, with C92 for the signature.",
 "C109": "Inversion; the algorithm tables by exhaustive case analysis of the names that `sig_valid` allows.",
 "C110": "Each validator is inverted against its specification; `controls_ok` puts them together in the order of the code.",
 "C111": "Invariant of the mark of the token by induction over the requests of a message and over the history; certificates by an equation with the stateless model of C101.",
 "C112": "Grammar as inductive relations; soundness by induction on the length, completeness by induction on the derivation; UTF-8 by arithmetic on the four forms.",
 "C113": "`rebuild` is computed on what `build_paired` gives; the extensions by induction on the lists, with the merge as an intermediate form.",
 "C114": "The loop over the attributes is reduced to the last value of each type; permutations of the attributes by the uniqueness of the two types.",
 "C115": "Inversion of the issuing, the extensions by induction on the shared types, then C113.",
 "C116": "Each check is inverted into the clause of the specification it decides; the libraries (AES, key wrap, RSA, key agreement, KEMs, DER) are a record of functions without assumptions.",
 "C117": "The builders are inverted and the laws of the libraries (decryption inverts encryption, both sides agree, codecs invert) give what C116 asks for.",
 "C118": "The tables are checked against the lists of the specification by computation, once; a decision procedure for the specification is proved correct and equal to the function for all identifiers, known or not.",
 "C119": "Each check is inverted into the clause it decides; the builder is inverted under the laws of the libraries. That the chain is signed link by link comes from the chain builder (C46).",
 "C120": "Composes C116 and C119: the two results are inverted in turn, and the certificate of the response is read off the message.",
 "C121": "The loop over the extensions is characterised by first and last occurrence, by induction on the list; the verification is then inverted into the two signatures. The round trip follows from the exact form of what is signed and the laws of the libraries.",
 "C122": "The loop is characterised by induction on the extensions (what is found, what is kept, when it stops); the function is inverted on top of that. The object after the call is part of the result, so that the second verification can be stated.",
 "C123": "Replacing the first extension of a type is a function on lists that commutes for different types and is idempotent; conversions are characterised by it, and the round trip follows from these laws. The form is that of the last occurrences, by induction on the list.",
 "C124": "Each validation is inverted into a relation over first or last extensions; issuing is characterised by one relation for both entry points, from which acceptance follows with the round trip of C123 and the laws of the signatures.",
 "C125": "The function is inverted case by case into an inductive relation with one constructor for each source.",
 "C126": "The functions are inverted into relations over the first extension of the type, the hash and the digest; uniqueness follows from the absence of collisions, the search by induction on the list.",
 "C127": "The validation is inverted into a relation between the time, the request and the certificates at the location; the round trip and the refusals follow from it and from the laws of the codecs and the signatures.",
 "C128": "The function is inverted step by step; the chain that is checked is a relation with a case for each source. That the server check fails is by cases on what can be handed in.",
 "C129": "Inversion of each function; the first access description by induction on the list.",
 "C130": "Each mode is characterised by a relation between the lists of RDNs; the encoding is assumed to be DER: the order in a SET OF does not count. contains_seq by induction on both lists.",
 "C131": "Each comparison of a field is an equivalence with a clause of the specification; the fields to be compared are those named in the texts, cut at the commas.",
 "C132": "Induction on the list, over C131.",
 "C133": "Inversion of the two functions.",
 "C134": "Inversion, over C132; the reasons are a finite table with distinct numbers.",
 "C135": "One step of the loop is characterised by cases; soundness, the end and completeness by induction on the list.",
 "C136": "Induction on the list; the chain by C46.",
 "C137": "By cases.",
 "C138": "By induction on the entries; the size by unfolding each validator.",
 "C139": "Inversion of each step of the validator.",
 "C140": "Inversion of each step of the validator.",
 "C141": "Inversion of each step of the validator.",
 "C142": "Inversion; the list by induction.",
 "C143": "Inversion; the list of algorithms by induction.",
 "C144": "Inversion of both sides; agreement from the round trip of the codec and of the KEM.",
 "C145": "Inversion per type; induction on the entries.",
 "C146": "Invariant of one entry, then induction on the entries.",
 "C147": "Inversion of the handler, then the exact characterisation of the validator.",
 "C148": "Induction on the list; removal of duplicates by induction.",
 "C149": "Inversion of the construction, then the exact characterisation of the end entity.",
 "C150": "Inversion of each step.",
 "C151": "Inversion of the construction; the four bytes by division.",
 "C152": "Inversion of the handler; the table by its members.",
 "C153": "Inversion of each step.",
 "C154": "Inversion of each step, with the message threaded through; the effects by induction on the list of responses.",
 "C155": "Inversion of each step, with the message threaded through.",
 "C156": "Inversion of each step.",
 "C157": "Inversion of each step, with the six names is_hybrid_cert can return.",
 "C158": "Inversion of each step.",
 "C159": "Case analysis of the builder; the dictionaries as association lists with the set lemma.",
 "C160": "Induction on the number of rounds that are left; C160_traditional compares two libraries that differ only for both keys.",
 "C161": "Composition of the properties above.",
 "C162": "Filtering the result by type; induction over the lists of extensions.",
 "C163": "Inversion of each step; two libraries that differ only in the field that is not looked at.",
 "C164": "The n-th byte of a repeated list by induction and the arithmetic of remainders.",
 "C165": "Case analysis over the key; inversion of each step.",
 "C166": "Inversion of each step; a library in which wrapping is transparent for the refutation.",
 "C167": "Inversion of each step; two lemmas that say exactly when the checks of sender and senderKID pass."
}