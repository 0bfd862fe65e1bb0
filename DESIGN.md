# Formal model of ofek/bit in Rocq (Coq 8.16.1)

This file is written before the proofs and kept current. It says what is
modelled, how each property of `properties.jsonl` is (to be) proved, and what
is trusted.

## 1. Approach

* Shallow embedding: every Python function becomes a total Gallina function
  with the same branches in the same order. Every model definition carries a
  comment `(* repo: file:lines *)`, and says where it simplifies.
* Python `int` is `Z` (unbounded, like Python). `bytes` is `list Z` (each
  element 0..255, predicate `bytes_ok`), `str` is `list Z` (code points).
  Lengths used in arithmetic are `Z`.
* Exceptions are values: `result A := Ok a | Raise e` with `e` one of the
  Python exception classes the code can raise (`ValueError`, `TypeError`,
  `OverflowError`, `IndexError`, `InsufficientFunds`, `ConnectionError`, ...).
  Error branches are part of the model; theorems say which error is raised.
* Mutation becomes returning the new value; objects that the caller shares are
  part of the returned state.
* Randomness (`random.randint`, `random.shuffle`) is an oracle argument: a
  stream of booleans and an arbitrary permutation function. Theorems quantify
  over all of them.
* External libraries: hashes (`hashlib`) and elliptic curve signatures
  (`coincurve`) are fields of a record `Crypto` that every theorem quantifies
  over; the laws used are explicit hypotheses of the theorems. For non-vacuity
  and for conformance with the repository's own test vectors the record is
  instantiated with executable Gallina implementations of SHA-256 and RIPEMD-160
  (`X_hash.v`); the elliptic curve part is then a table of the keys and
  signatures of the test vectors, or a toy scheme that meets the ideal laws.
* Network services, the clock and the server side of paged APIs are oracles
  (functions / event lists), again universally quantified.

## 2. Layout of `rocq/theories`

| kind | files | content |
|---|---|---|
| values | `Py.v`, `M_io.v` | Python values, exceptions, state and exceptions |
| model | `M_*.v` | definitions only, no proofs |
| specification | `S_*.v` | small specifications that use none of the model's helpers, only its types and entry points |
| proofs | `F_*.v` | lemmas |
| properties | `P_*.v` | the property theorems `Cnn_*`, `Print Assumptions`, and examples that meet their hypotheses |
| conformance | `X_*.v` | executable hashes, toy signatures, worlds and servers for examples; vectors of `/repo/tests` evaluated on the model (tests, not proofs) |

What each model file covers:

| model | code | remarks |
|---|---|---|
| `M_utils` | utils.py | all functions; the class Decimal is in `M_decimal` |
| `M_crypto` | crypto.py, coincurve, `get_signatures_from_script` | external functions are fields of `Crypto` |
| `M_base58`, `M_base32`, `M_curve` | base58.py, base32.py, curve.py | complete |
| `M_format` | format.py, `address_to_scriptpubkey` | complete |
| `M_tx` | transaction.py: TxIn, TxOut, TxObj, `deserialize`, `calc_txid` | `__eq__` is in `M_objects`, `__repr__` in `M_repr` |
| `M_unspent` | network/meta.py | complete; `__repr__` is in `M_repr` |
| `M_select` | `estimate_tx_fee`, `select_coins` | sizes in quarters of a byte instead of floats |
| `M_key` | wallet.py: constructors, addresses, `can_sign_unspent`, exports | DER, PEM, `__repr__` and the other kinds of constructor argument are in `M_init` |
| `M_sign` | `calculate_preimages`, `sign_tx`, `construct_outputs`, `create_new_transaction` | complete |
| `M_wallet` | `sanitize_tx_data`, wallet.py methods | the two networks and the four classes are one definition with a parameter |
| `M_decimal` | Python's decimal module, as far as used | from Lib/_pydecimal.py, checked by random comparison with Python; digits and white space of other scripts (from U+0660 on) and exponents of more than 18 digits are left out |
| `M_network`, `M_rates`, `M_fees`, `M_services` | network/ | the state of the process and the outside `Outside`; `InsightAPI` is in `M_insight` |
| `M_keygen` | keygen.py | a transition system of processes |
| `M_app` | wallet.py on top of network/ | joins `M_wallet` and the network models |
| `M_objects`, `M_repr` | `__eq__`, `__repr__` and other methods of objects | |
| `M_depth` | `select_coins`, `sanitize_tx_data`, `create_transaction`, `send`, `prepare_transaction` with Python's recursion limit | |
| `M_init` | constructors with any argument, DER, PEM | DER and PEM are fields of a record |
| `M_cli` | cli.py | without click |
| `M_methods`, `M_json` | currencies one by one; JSON that is sent | |
| `M_loads` | json.loads, prepared transactions as texts | |

## 3. How the properties are proved

| ids | code | how proved | theorems in |
|---|---|---|---|
| C01 C03 C04 C05 | utils.py integers, varints, pushes, chunks | little/big endian lemmas by induction on length, case split on the ranges; independent readers in `S_Wire`, `S_Script` | `P_utils` |
| C02 | utils.py hex | induction on the string | `P_utils` |
| C06 C07 C08 | base58.py | base-58 digits of n are the unique list without leading zero with value n; bytes likewise; checksum function abstract | `P_base58` |
| C09 .. C13 | base32.py | GF(32) polynomial division as specification, linearity over XOR; error detection by a complete table of syndromes (at most 89 positions, 31 values) lifted by linearity; accumulator invariant for `convertbits` | `P_base32` |
| C14 C15 C65 C70 | WIF, `wif_to_key`, exports | length bounds 58^50 < .. < 58^52 | `P_format`, `P_keys` |
| C16 | curve.py, format.py | Fermat; primality of the field modulus by a Pocklington certificate; no point with y = 0 | `P_format` |
| C17 .. C23 | addresses, redeem scripts | script parser as specification; refutations by witnesses; sorting is invariant under permutation | `P_format`, `P_keys`, `P_msmake` |
| C24 .. C27 | (de)serialisation | parser/printer induction against encoding relations (`S_Tx`), also for encodings made by anyone; ids before and after signing | `P_tx`, `P_wire`, `P_txid` |
| C28 C29 | `calculate_preimages` | independent BIP143 / legacy messages (`S_Sighash`) | `P_sign` |
| C30 C31 C66 | `sign_tx` | induction over inputs | `P_sign`, `P_mixed`, `P_notours` |
| C32 C33 C34 | multisig | a history of signers, each reading the hex of the one before | `P_multi` |
| C35 .. C42 | `select_coins`, `estimate_tx_fee` | induction over the (shuffled) list and the search tree | `P_select` |
| C43 | fees against BIP141 sizes | lengths of encodings | `P_size` |
| C44 .. C49 | `sanitize_tx_data`, `construct_outputs` | composition | `P_wallet`, `P_outputs` |
| C50 C51 C73 | creating, sending, offline signing | composition, two machines | `P_create`, `P_offline`, `P_send` |
| C52 C69 | meta.py | case analysis | `P_unspent` |
| C53 C67 C68 | state of wallets | invariants over calls | `P_create`, `P_state`, `P_failcreate` |
| C54 C55 | rates.py with `M_decimal`; the methods for each currency (`M_methods`) | rounding lemmas | `P_rates`, `P_methods` |
| C56 C57 C58 C61 | rates.py, fees.py, nodes | invariants over all histories of calls (`S_History`) | `P_network`, `P_requests`, `P_getfee` |
| C59 C60 | failover | induction on service lists | `P_failover`, `P_requests` |
| C62 C71 C72 C77 | what services answer (`S_Servers`) | induction on pages; then any service in any history | `P_services`, `P_anyservice`, `P_requests` |
| C63 C64 | keygen.py | invariant over interleavings | `P_keygen` |
| C74 C75 C76 | wallets on the network | all the above for `M_app` | `P_app` |
| C79 C80 C81 | validity and effect of created transactions | script interpreter and ledger (`S_Consensus`) as specification; C50 and lemmas on runs of the four output types | `P_consensus` |
| C82 | affordable requests succeed | totality of each step from C44, C31, C33 | `P_live` |
| C85 | services that refuse | table of answers (`S_Refusal`), every service; then C62, C71, C72, C77 | `P_refusal` |
| C86 | the secret is only used to sign | the model with another curve library; inductions over the loops of sign_tx | `P_device` |
| C87 | the balance after a payment | ledgers before and after (`S_After`); C74, C75 before and after, counting of coins | `P_after` |
| C88 | payments in units go through | services that admit valid transactions (`S_Consensus`); C74, C82, C79, C60 end to end | `P_through` |
| C89 | many coins and the recursion limit | the search with a bounded stack (`M_depth`), induction on the room left; the wallet methods with and without a limit compared call by call | `P_depth`, `P_limit` |
| C90 | making, storing and showing keys | constructor of every kind of argument (`M_init`), DER and PEM as an oracle record with a round-trip law | `P_init` |
| C91 | waiting for services | time-outs of all requests, noted by a wrapper around the outside world, and a clock (`S_Timeout`) | `P_timeout` |
| C92 | what services can lie about | inversion of the rules of `S_Consensus`; signed messages differ if amounts do; signatures bind as a hypothesis on the two messages at hand | `P_lies`, `P_excess` |
| C93 | which texts are amounts | grammar of numerals (`S_Numeral`), the parser both sound and complete for it | `P_numeral` |
| C94 | payments one after the other | C75 for both sends, what addresses hold after a transaction (`S_After`) | `P_again` |
| C95 | replacing a payment | BIP 125 (`S_Replace`); same coins and sizes give the same size estimate, C43 bounds the true one | `P_again` |
| C96 | whether nodes relay what is created | standardness rules (`S_Standard`) against inputs by C50, outputs by C23/C46, weight by lengths of encodings | `P_standard` |
| C97 | where reported data come from, for arbitrary answers | log of answers; each function returns only what follows by names from an answer (`S_Answers`) | `P_answers` |
| C98 | answers lacking fields, unknown currencies | paths in JSON: found, missing, nameless (`S_Answers`) | `P_answers`, `P_reported` |
| C99 | a wallet's coins, history and inputs were reported for its addresses | composition of C97 with C53, C68 and C50 over the log of answers (`S_Reported`) | `P_reported` |
| C100 | the text that the command writes, and what it refuses | the traces of the search as text (`M_cli`, `S_Cli`) | `P_cli` |
| C101 | what repr() shows of transactions and coins, and what it evaluates to | expressions and calls (`M_repr`, `S_Repr`) | `P_repr` |
| C102 | JSON sent to nodes | grammar of JSON, unambiguous (`M_json`, `S_Json`) | `P_json` |
| C103 | prepared transactions as texts | model of json.loads (`M_loads`) against the grammar (`S_Json`, `S_Prepared`) and the larger one of json.loads, both ways (`S_Loads`) | `P_loads`, `P_prepared`, `P_says`, `P_exact` |
| C104 | InsightAPI | servers as in C62, C71, C72 (`M_insight`, `S_Insight`) | `P_insight` |
| C105 | hexadecimal texts | grammar of int(, 16) (`M_hexint`, `S_HexInt`) | `P_hexint` |
| C106 | replies as texts | reading replies with json.loads (`M_reply`), servers that send any text for what they know (`S_Reply`) | `P_reply` |
| C107 | amounts through floats | doubles as rationals, nearest and shortest (`S_Float`) | `F_float`, `P_float`, `P_floatpay` |
| C108 | fees not much too high | weights and sizes (`S_Size`), a bound in the sizes of what is written (`AtMost`) | `P_fee` |
| C109 | no memory of objects | programs over many objects, run with kept and with new objects (`run_kept`, `run_new`) | `P_memory` |
| C110 | sharing | a second model with references to coins and lists (`M_heap`, `M_heap2`), that of values as its specification; frame conditions (`ChangesOnly`, `Marked`, `OldKept`) | `P_heap`, `P_heap2` |
| C111 | errors | a closed list of reasons (`Why`), each with the exceptions that it may give | `P_why`, `P_whyprep`, `P_prepok`, `P_whysign` |
| C112 | requests | an outside world that records the questions (`tracked`), the pages stated by arithmetic (`Fill`, `ByOffset`, `Lasts`) or by the links followed (`LinkedBy`) | `P_pages`, `P_links` |
| C113 | node URLs | a grammar of URLs with one reading (`Reads`), stated without the code's format string | `P_url` |
| all | concrete cases for theorems without one beside them | computed on the toy primitives | `P_cases` |
| C83 C84 | messages, points, equality of transactions | C16, C70, C24 | `P_objects` |
| C78 | where requests go | outside instrumented with a log, rules in the style of Hoare | `P_requests` |

Findings, i.e. places where the code does not do what a user relies on, are
theorems ending in `_refuted` or say so in their comment and in the note in
MANIFEST.json. Theorems ending in `_partial` (none at present) prove part of
their property.

## 4. Trusted base

* Coq's kernel (and `vm_compute`), checked again with `coqchk`.
* Axioms: `Print Assumptions` follows each group of theorems and answers
  "Closed under the global context" everywhere: no axiom is used. coqchk also
  lists the seven constants `Coq.ssr.ssrunder.Under_rel.*` of the standard
  library, because a module is loaded that contains them; no theorem depends
  on them.
* The reading of the Python code: the model was written by hand from the text
  of /repo and was not run against it. The `X_*.v` files evaluate the model on
  expected values found in /repo/tests as an additional check. `X_vectors.v`
  does so for whole signed transactions, byte for byte; its signatures were
  computed with a separate implementation of ECDSA. `X_tests.v` repeats the
  other tests of utils, base58, format, segwit_addr, meta and transaction.
* The specifications `S_*.v`, in particular what `S_Servers.v` and
  `S_Requests.v` say about the public services, which is taken from the code,
  its tests and the documentation of the services as remembered, and the
  script interpreter and validity rules of `S_Consensus.v`.
* Hypotheses in theorem statements. The frequent ones are
  - laws of `Crypto` (lengths of hashes, `EcOk`, `KeyOk`,
    `EnvOk`, `CoSigner`): sizes of hashes and keys, verification accepts what
    signing makes; the toy scheme of `X_toy.v` meets them;
  - `RandomOk`: shuffling gives a permutation;
  - `Bound` (C92): a signature for one message is not good for another, for two
    messages only;
  - `Distinct`, `TxidOk`, `GoodIds`: coins have distinct outpoints and ids of
    64 hexadecimal digits;
  - `OwnAddresses` (C82): the wallet's own addresses are recognized as
    addresses of its network;
  - `Down`, `Knows`, `Serves`, `Reports`, `Owns`: services fail with one of the
    errors that the code ignores, or tell the truth.

## 5. Simplifications and what is not modelled

* Python runtime limits: memory, limits on conversions of integers, floating
  point outside the exact quarter-byte range. The recursion limit is modelled
  for coin selection (`M_depth`, C89; branch and bound recurses once per
  coin). The wallet methods of `M_wallet` have no limit; C89_create, C89_send and
  C89_prepare say that with one they do the same or raise RecursionError. Loops that a server can keep running end after `rounds` rounds with
  the exception `Diverges`; theorems say how many rounds are enough.
* HTTP transport, headers, TLS. What a time-out does to a request is up to the
  outside world; which request carries which time-out is modelled. JSON texts: in
  `M_services` replies are given as values; `M_reply` makes such servers out of
  ones that send texts (how requests decodes bytes is left out), and C106 ties
  the two together. In `M_wallet` prepared transactions are values too; `M_loads` models
  the texts, with json.loads, and C103_sign ties the two together. float() of
  numbers that do not count in quarters is a parameter there (class `Floats`,
  no law; C107 takes as a hypothesis, for the texts that it is about, that it
  is as IEEE 754 and Python say, `FloatOf`), and limits on nesting and on the length of integers are left out.
* Values of the wrong JSON kind raise TypeError in the model where the code may
  store them and fail later.
* Aliasing: in the main model the list of unspents that the caller passes is part
  of the state; other references to the same Unspent objects are not.  `M_heap`
  models create_transaction, send and get_unspents with references, `M_heap2`
  prepare_transaction and sign_transaction, and C110 relates both.  (The bytes
  of a transaction object that sign_tx changes in place are the callee's own.)
* time.time() gives integers in any unit.
* keygen.py: processes do not die; the counter is read and written under its
  lock and wraps around as the C int of `Value('i')` does.
* `cli.py`: what click itself says about its arguments; `__repr__` of RPC hosts,
  what DER and PEM look like, logging and warnings.
