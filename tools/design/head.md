# Formal model of siemens/cmp-test-suite in Rocq

`/repo` (Python) was read as text; nothing is executed.  The deliverable is the
Coq development in `rocq/theories`: a model of parts of the code, function by
function, and theorems about it.  This file is produced by `tools/design.py`
from the hand-written parts in `tools/design/`, from `properties.jsonl`, from
`MANIFEST.json` and from the citations in the model files.

## 1. Method

* Every model definition is a total, computable Gallina function that mirrors
  one Python function, with a comment citing file, lines and symbol.  Where the
  model is simpler than the code the comment says so.
* Python exceptions are values (`result`, `Ok`/`Err` in `Prelude.v`).  Loops
  that Python bounds by a range are structural recursions; loops that Python
  does not bound (rejection sampling) take fuel, and a run that runs out of fuel
  is stated as "has not returned", never as a result.
* External primitives (hash functions, XOFs, RSA/EC operations, ASN.1 decoding of
  foreign structures, clocks, random numbers) are arguments: fields of an
  environment record or parameters of the functions.  Theorems quantify over
  all of them, or state the exact law they need as a hypothesis, and an
  `Example` beside the theorem exhibits an instance that satisfies it.
* Layout: `*Model.v` model, no proofs; `*Spec.v` the small vocabulary used in
  statements, independent of the model's helpers; `*Properties.v` only the
  property theorems, their non-vacuity examples and `Print Assumptions`; all
  other files are lemmas.
* A property that is false of the code is kept in `properties.jsonl` as a user
  would expect it.  The model then carries the part that is true and a theorem
  named `..._refuted` that proves the negation on the faithful model.
* Every theorem is tested against wrong programs: `tools/mutate.py` edits one
  model definition at a time in a scratch copy and rebuilds; `seeded/LOG.jsonl`
  has one line for each attempt.

## 2. Trusted base

* The Coq 8.16.1 kernel, including its virtual machine (`vm_compute` is used for
  finite tables: the NTT root tables, parameter sets, byte sweeps, and for the
  concrete non-vacuity runs).  `native_compute` is not used.
* `Print Assumptions` is run on every property theorem in the `*Properties.v`
  files and prints `Closed under the global context` for each of them: no
  axiom is used by any theorem in the manifest.
* `coqchk` lists seven library axioms for the development as a whole
  (`Coq.ssr.ssrunder.Under_rel.Under_rel`, `.Under_rel_from_rel`,
  `.Under_relE`, `.Over_rel`, `.over_rel`, `.over_rel_done`, `.under_rel_done`).
  They are the opaque module interface of ssreflect's `under` tactic, part of
  Coq's own distribution, and appear because standard-library files that the
  development requires load it.  No theorem depends on them.
* No axiom, `Variable`/`Hypothesis` outside sections, functor, module type,
  `Admitted`, plugin or disabled kernel check is used.
* The reading of the Python source: that each cited definition means what the
  cited lines mean, and Python's own semantics for the constructs used (integers,
  slices, `bytes`, dictionaries, exceptions).
* What the theorems assume about external code is visible in their statements:
  lengths of hash outputs, correctness of the classical signature, RSA, ECDH
  primitives, and reading back what the `cryptography` and `pyasn1` libraries
  write.  Computational assumptions are never assumed; where security is meant the
  theorem gives an explicit reduction (for example C54: an accepted forgery
  contains a second preimage or a chain value).

## 3. General simplifications

* ASN.1 structures are records of the fields that the modelled code reads; DER
  encoding itself is not modelled except where the code looks at bytes.
* `logging`, Robot Framework keyword decoration, type checks that only guard the
  test author's usage, and text of error messages are left out.  Exceptions are
  kept apart by class.
* Python `int` is `Z`, `bytes` is `list Z` with the predicate `is_bytes`;
  `str` is Coq's `string` (8-bit characters) where text is compared.
* Concurrency: the Flask application handles a request as one atomic step.  The
  state theorems range over all finite sequences of such steps.
* A pyasn1 Choice drops its value when another alternative is read by name.  This
  is modelled for `certOrEncCert` (C154, C155) and is an assumption on the library.
* Wall-clock time, file system and network are not modelled.
