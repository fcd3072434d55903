# Design: a Rocq model of ledger-app-ergo

The English properties are in `properties.jsonl` (C01, C02, ...).  The status of each and the exact
theorem names are in `MANIFEST.json`.  The wrong programs the theorems were tried against are in
`seeded/LOG.jsonl`.  This file says what is modelled, how each property is proved, and what is
trusted.

## Layout (`rocq/theories`)

| Layer | Files | Contents |
|---|---|---|
| Model | `Base`, `Env`, `SafeInt`, `Zigzag`, `Gve`, `RwBuffer`, `Bip32`, `Base58`, `Format`, `ErgoTree`, `Address`, `TxTable`, `TxBox`, `TxInput`, `TxFull`, `Amounts`, `OutputInfo`, `Schnorr`, `P2pkOp`, `InputFrame`, `UiFlow`, `App`, `Secrets`, `Buttons`, `Restart`, `Fault`, `LowTx`, `LowOp`, `LowApp`, `ReadBuf`, `ReadTx`, `ReadApp`, `Blake2b`, `Wire`, `Whole`, `FaultButtons`, `FaultWhole` | Gallina transcription of the C functions, one definition per function, each citing file and lines |
| Specification | `Spec*` | Small independent specifications: VLQ, Ergo trees and transactions, command layouts, what a history describes, what is on the screen, which commands must be accepted, how a host sends a transaction |
| Proof | all others | Lemmas and invariants |
| Properties | `Prop*` | Only `Theorem`s, each closed by `exact`, with `Print Assumptions` beneath it and a non-vacuity `Example` |

`Toy`, `RulesToy`, `AcceptToy`, `SeedToy`, `CostToy`, `ButtonToy` hold a concrete environment (toy hash, toy group) and concrete
histories used by the examples and refutations.

How to read a property: open its `Prop*` file, then the `Spec*` files it imports.  The
specifications use from the model only the type of events and outputs, the environment record and
the transition function `step`; they read the transaction, the session, the screen and the approvals
off the observable history (commands, user actions, answers, screens), never off the internal state.

* `SpecTrace`: histories, sessions, accepted answers, approvals.
* `SpecVlq`, `SpecTree`, `SpecTx`: Ergo serialization; the transaction described by the accepted
  commands; bytes to sign; box id; frames.
* `SpecSign`: open session, signature of a session, Schnorr equation.
* `SpecScreen`, `SpecPages`, `SpecText`: what is on screen, page contents, decimal and hex text.
* `SpecApdu`, `SpecDispatch`, `SpecRequest`: command layouts, dispatch, key and address requests.
* `SpecAmounts`, `SpecRules`: sums over the described transaction; frame, token and change rules.
* `SpecLatch`: finality of errors.  `SpecScript`: displayed destinations and box ids.
* `SpecAccept`, `SpecAttest`, `SpecStart`: exact acceptance conditions.
* `SpecRestart`: lives of a device: run after run, each on arbitrary memory.
* `SpecBlake`, `SpecHash`: BLAKE2b as in RFC 7693; feeding a hash piece by piece.
* `SpecWire`: packets in, packets out; counting commands and answers.
* `SpecChance`: another key, renamed session ids, other random numbers.
* `SpecWhole`: lives of the whole device as packets and displays tell them.
* `SpecWallet`: a wallet as a state machine over packets, the talk it has with device and user, and what it may end with.
* `SpecGrant`: a key or address request that is answered at once, or read and approved.
* `SpecRecover`: a time in which no call into the operating system fails.
* `SpecFaultRun`: runs by buttons with failing calls, and the runs without that stand for them.
* `SpecTags`: runs in which HMAC-SHA256 fails as well, and the runs that differ from them in tags.
* `SpecTagWhole`: the same for the whole device at the cable.
* `SpecCableCost`: what the device does in a run at the cable with failing calls.
* `SpecFaultWhole`: the same at the cable.
* `SpecRaw`: packets in memory and the commands they are.
* `SpecFault`: histories with failing calls, and what stands for them in one without.
* `SpecButtons`: runs by buttons, the ring of cards of a question, decisions, what was displayed.
* `SpecHost`: the commands a host sends for a box or a transaction, and the device limits.

## Modelling decisions

* Bytes are `N` below 256 in `list N`; unsigned values are `N`, signed ones `Z`; each C wrap or
  truncation (`mod 2^n`, the one-byte length `tc*40+43`) is written out.
* Buffers in the command layer of `App` are the list of remaining bytes.  The struct-level read and
  read/write buffers (offsets, capacities) are a separate model, `RwBuffer`, with their own theorems;
  `ReadBuf`, `ReadTx` and `ReadApp` are the command layer over them, and C70 shows that the two agree.
* A hash context is the list of bytes fed so far.  blake2b, HMAC-SHA256, BIP-32 derivation and
  secp256k1 scalar multiplication are fields of a record `env` (`Env.v`) over which every theorem
  quantifies.  No axiom is used for them.  The few facts needed (output lengths, byte ranges) are an
  explicit hypothesis `env_ok`, inhabited by a concrete environment in the examples.  For blake2b
  the abstraction is justified by C71: the wrappers in helpers/blake2b.c, over the implementation the
  repository ships for its unit tests, give the RFC 7693 digest of the bytes fed, however cut.  Left
  out of that model: keys, salt and the 65535-byte limit of the stub in unit-tests/utils/cx.c.
* `UnitTests` runs the expectations of the repository's own unit tests through the model (transaction
  id, box id, address, trees, frames, VLQ, zigzag, path checks, error codes): all agree.
* `FunctionalTests` runs the repository's functional tests (tests/*.js) on the model of the whole
  device, press by press: the same seed, boxes, transactions and application tokens, the screens the
  tests expect and the answers.  BLAKE2b is computed; the keys of the seed are a table, derived outside
  of Coq, and agree with tests/helpers/data.js.  The tests verify the signatures with sigma-rust; here
  the signatures of the model are written out, and they were verified with the group law of secp256k1
  outside of Coq.  All 16 tests agree, with and without an application token.
* Derivation and scalar multiplication may fail (`option`).  Hash updates, HMAC and the SDK's
  modular arithmetic are modelled as not failing in the main model; their failure, and what it
  leaves in memory, is covered for keys and signatures by `Secrets` (C65), and for everything else by
  `Fault`, `LowTx`, `LowOp` and `LowApp` (C68), which also go through the local read/write buffers.
* Every union is a sum type; reading the member not last written yields the distinct outcome `OUb`,
  and so do array accesses out of bounds, calls to missing callbacks and the one signed negation
  that can overflow.  C52 shows that only the last is reachable, C53 exactly when.
* The device is a transition function `step : env -> state -> event -> state * list output`.
  Events: a command (with the random bytes it may draw), approve, reject, the both-buttons press on
  a path page, a page request.  Outputs: answers and displayed screens.
* `Buttons` puts the SDK's flow engine on top: a place in the table of screens, the part of a text
  shown, left, right and both.  Each press becomes at most one event of `step`, so every theorem
  about histories holds of such runs (C66_history).  How texts are split into parts, and whether
  both buttons act on a part that is not the last, is arbitrary (record `ux`).  A cell of the table
  that is overwritten while its card is displayed leaves the drawn card until the user turns away.
* Histories are lists of events run from `init key`, where `key` is the random key of this start of
  the application.  `Restart` models the start on memory an earlier run left behind (a transport reset
  starts the application again without clearing it): C67 shows each run to be such a history.
* Evaluation order: where C leaves it open (arguments of a call) the calls concerned have no side
  effects on each other.
* The paths of the debug build (`PRINTF`) and of the different displays are the same code except for
  the length of shortened identifiers, `e_id_keep` (26, or 7 on Nano S).

## Per property

Status of all: see `MANIFEST.json`.  Where the claim one would first write down is false of the code,
the property says so, the theorem ending in `_refuted` gives a concrete counterexample, and the
remaining theorems prove exactly what does hold.

| Id | Property | Model | Method | Theorems |
|---|---|---|---|---|
| C01 | VLQ numbers survive a write/read round trip | `Gve` | induction on the groups of the number; loop invariant of the reader | PropCodec: `C01_u64_roundtrip` `C01_u32_roundtrip` `C01_u16_roundtrip` `C01_narrow_refuses` |
| C02 | VLQ encoding is injective, prefix-free, minimal and at most 10 bytes | `Gve` | the writer is the textbook VLQ (`SpecVlq`); induction on the number | PropCodec: `C02_prefix_free` `C02_concat_unique` `C02_length` `C02_minimal` |
| C03 | VLQ decoder is total and bounded | `Gve` | induction on the input; refutation by computation | PropCodec: `C03_success_bounded` `C03_failure` `C03_canonical_refuted` |
| C04 | ZigZag codec round trips | `Zigzag`, `Gve` | bit-level case analysis; refutation by computation | PropCodec: `C04_i64_codec` `C04_i32_codec` `C04_i64_wire` `C04_i16_wire` `C04_i32_wire` `C04_i32_wire_refuted` |
| C05 | Checked arithmetic is exact | `SafeInt` | case analysis and lia; refutation by computation | PropCodec: `C05_add_u64` `C05_sub_u64` `C05_add_i64` `C05_sub_i64` `C05_add_i64_min_refuted` |
| C06 | Read and read/write buffers never step outside their storage | `RwBuffer` | invariant preserved by each call, induction over call sequences | PropBuffer: `C06_sequences` `C06_call` `C06_read_int` `C06_read_bytes` `C06_write` `C06_write_read` `C06_shift` `C06_any_use_refuted` |
| C07 | BIP-32 path validation accepts exactly the documented shapes | `Bip32` | equivalence with a declarative shape | PropText: `C07_coin` `C07_account_ge3` `C07_coin_ge2_hard` `C07_account_e3` `C07_address_e5` `C07_address_ge5` `C07_ge2_refuted` |
| C08 | The path shown on screen identifies the path | `Bip32`, `Format` | a parser of the text; injectivity; refutation by computation | PropText: `C08_text` `C08_unique` `C08_address_paths` `C08_text_injective` `C08_unique_refuted` |
| C09 | The address shown on screen identifies the raw address | `Base58`, `Address` | base-conversion invariant; decode after encode | PropText: `C09_base58` `C09_decodable` `C09_injective` `C09_fits` |
| C10 | Pay-to-key and pay-to-script-hash trees are recognised exactly | `ErgoTree`, `OutputInfo` | byte-list characterisation | PropTree: `C10_recognised` `C10_p2pk` `C10_p2sh` `C10_own_tree` |
| C11 | Attested box id is the Ergo box id of the streamed box | `TxBox`, `App` | history invariant (`TraceAttest`) relating the hashed bytes to the streamed box | PropAttest: `C11_box_id` |
| C12 | Chunking does not matter | `TxBox` | induction over the list of chunks; history invariant for the session | PropAttest: `C12_tree` `C12_tokens` `C12_registers` `C12_attested` |
| C13 | Declared sizes and counts are enforced | `TxBox`, `TxInput`, `TxFull`, `App` | history invariants | PropAttest PropSigned: `C13_box_sizes` `C13_small_trees` `C13_transaction` |
| C14 | The signed bytes are the Ergo bytes-to-sign of the described transaction | whole signing path | history invariant (`SignInv`, `TraceSign`): the hashed bytes are those of the described transaction | PropSigned: `C14_message` |
| C15 | Which bytes of outputs are signed | whole signing path | as C14; refutation by running a concrete history | PropSigned: `C15_outputs` `C15_refuted` |
| C16 | A failed call is final | serializers, `App` | case analysis of every call; device level by history induction | PropLatch: `C16_transaction` `C16_transaction_init` `C16_box` `C16_box_init` `C16_input` `C16_input_init` `C16_device` `C16_over` |
| C17 | Transaction amount and fee on the final screen are exact | `Amounts`, signing path | ghost sums in the history invariant | PropRules: `C17_amount` |
| C18 | Token mint/burn figures on the final screen are exact | `Amounts`, signing path | as C17 | PropRules: `C18_tokens` |
| C19 | Amounts that do not fit are refused | `Amounts`, `OutputInfo`, signing path | history invariant; exactness of the checked arithmetic (C05) | PropRules: `C19_kept` `C19_refused` `C19_no_signature` |
| C20 | A token id is used at most once per output with a non-zero amount | `OutputInfo`, signing path | history invariant | PropRules: `C20_kept` `C20_refused` |
| C21 | Every output is either shown and approved, or is an automatic fee or change output | signing path and screens | history invariant: at most one output pending, approvals recorded | PropRules: `C21_outputs` |
| C22 | Exactly which change outputs are not shown | `P2pkOp` | history invariant for the remembered change path; refutations by computation | PropRules: `C22_rule` `C22_account_refuted` `C22_index_refuted` |
| C23 | Confirmation screens show the output's own data | `P2pkOp`, screens | page functions computed; invariant linking the shown output to the described one | PropRules: `C23_pages` `C23_signed` |
| C24 | What the screen of a change output says | `P2pkOp` | as C23; refutation by computation | PropRules: `C24_refuted` `C24_pages` |
| C25 | Only attested inputs are counted | `InputFrame`, signing path | history invariant | PropRules: `C25_attested` `C25_open` |
| C26 | An accepted frame was produced by this device's attestation | `InputFrame`, both sessions | history invariant; unforgeability of the tag is a hypothesis on the history | PropRules: `C26_frame` `C26_inputs` |
| C27 | Attestation frames carry the whole box exactly once | `InputFrame`, attestation | history invariant | PropAttest: `C27_frame` `C27_count` |
| C28 | Attestation refuses repeated tokens and more than 20 tokens | attestation | history invariant | PropAttest: `C28_tokens_once` |
| C29 | An input is complete only with all its frames in order | `TxInput`, signing path | history invariant | PropRules: `C29_order` `C29_refused` `C29_complete` |
| C30 | APDU dispatch | `App` | case analysis of `step`, induction over histories | PropDispatch: `C30_class` `C30_instruction` `C30_parameters` `C30_one_answer` `C30_handled` |
| C31 | Version and name queries are harmless | `App` | case analysis of `step`, induction over histories | PropDispatch: `C31_version` `C31_name` |
| C32 | While an approval is on screen nothing else can happen | `App` | case analysis of `step`, induction over histories | PropDispatch: `C32_busy` `C32_host` `C32_only_then` |
| C33 | A signature needs the user's session approval and final approval | `App` | case analysis of `step`, induction over histories | PropSession: `C33_consent` |
| C34 | At most one signature per session | `App` | case analysis of `step`, induction over histories | PropSession: `C34_once` `C34_gone` |
| C35 | Session id must match | `App` | case analysis of `step`, induction over histories | PropSession: `C35_match` `C35_mismatch` |
| C36 | Session ids are non-zero | `App` | case analysis of `step`, induction over histories | PropSession: `C36_nonzero` `C36_fresh_refuted` |
| C37 | Errors wipe the session | `App` | case analysis of `step`, induction over histories | PropSession: `C37_command` `C37_user` |
| C38 | Another command abandons the session | `App` | case analysis of `step`, induction over histories | PropSession: `C38_over` |
| C39 | Keys and addresses leave the device only with consent | `App` | case analysis of `step`, induction over histories | PropRequest: `C39_key` `C39_address` |
| C40 | What is exported is what was asked and shown | `App` | case analysis of `step`, induction over histories | PropRequest: `C40_key` `C40_key_screen` `C40_address` `C40_address_screen` |
| C41 | The remembered application token changes only by approval | `App` | case analysis of `step`, induction over histories | PropRequest: `C41_token` `C41_at_once` `C41_sign` `C41_attest` |
| C42 | Rejecting gives nothing away | `App` | case analysis of `step`, induction over histories | PropDispatch: `C42_reject` `C42_no_screen` |
| C43 | Responses have fixed sizes | `App` | case analysis of `step`, induction over histories | PropDispatch: `C43_sizes` |
| C44 | Signatures verify | `Schnorr` | modular arithmetic over an arbitrary group given as premises; instantiated in the example | PropSigned: `C44_verifies` `C44_equation` |
| C45 | Nonce and signature hygiene | `Schnorr`, `App` | history invariant | PropSigned: `C45_nonce` `C45_once` `C45_wiped` |
| C46 | Range of nonce and secret | `Schnorr` | case analysis; refutation by computation | PropSigned: `C46_check` `C46_strict_refuted` `C46_signature` |
| C47 | The screen table never overflows | `UiFlow`, `App` | bound on every flow built; reachability | PropDispatch: `C47_flow` `C47_no_overflow` `C47_cells` `C47_menus` |
| C48 | Dynamic page navigation stays in range and reaches every page | `UiFlow` | induction over button presses | PropDispatch: `C48_page` `C48_walk` `C48_range` |
| C49 | Token ids on screen identify the token | `Format` | hex injectivity; refutation by computation | PropText: `C49_shown` `C49_what_is_identified` `C49_bytes` `C49_identify_refuted` |
| C50 | Amounts on screen are exact | `Format` | decimal injectivity | PropText: `C50_erg` `C50_erg_injective` `C50_token` `C50_token_injective` |
| C51 | Network rules | `App` | case analysis of `step`, induction over histories | PropRequest: `C51_sign` `C51_address` `C51_first_byte` |
| C52 | No undefined union access is reachable | everything | reachability invariant excluding the outcome `OUb` | PropDispatch: `C52_no_undefined` `C52_commands` |
| C53 | Displaying a mint amount overflows for one value only | `P2pkOp` | as C52; refutation by running a concrete history | PropDispatch: `C53_refuted` `C53_otherwise` |
| C54 | Trailing data | `App` | case analysis of `step`, induction over histories | PropRequest: `C54_lengths` `C54_ignored` |
| C55 | What the displayed destination says about the output script | `P2pkOp`, `ErgoTree` | page computation; refutation by computation | PropScript: `C55_page` `C55_p2pk` `C55_refuted` |
| C56 | What a box id says about the attested box | `TxBox` | prefix-freeness of VLQ; refutation by computation | PropScript: `C56_value` `C56_tokens` `C56_refuted` |
| C57 | Exactly which signing commands are accepted | whole signing path | both directions, per sub-command, from the invariant of an open session | PropAccept: `C57_accepts` |
| C58 | Exactly which attestation commands are accepted | attestation | as C57 | PropAccept: `C58_accepts` |
| C59 | Exactly which opening requests are accepted | `App` | computation of the four start commands | PropStart: `C59_key` `C59_address` `C59_attest` `C59_sign` |
| C60 | Every box within the limits can be attested | attestation | induction over the packets of the host, using C58 | PropHost: `C60_attest` |
| C61 | Every transaction within the limits can be signed | whole signing path | induction over the packets of the host, using C57 | PropHost: `C61_sign` |
| C62 | What else the signed bytes could be read as | whole signing path, attestation | prefix-free splitting of the serialization, on top of C14; refutation by running a concrete history | PropNode: `C62_signature` `C62_bytes` `C62_standard` `C62_box` `C62_refuted` |
| C63 | Dependence on the wallet seed | all of `App` for two environments differing in e_derive | simulation between the two runs: the hash stream of the signing operation is the only state that differs and no serializer looks at it | PropSeed: `C63_seed` `C63_shape` `C63_attest` |
| C64 | What a signature can cost | whole signing path, attestation | composition of C14, C17, C18, C21, C23, C26 and C62 with the ids of ledger boxes | PropCost: `C64_cost` `C64_tokens` |
| C65 | Failing primitives give nothing wrong away; key material is erased | `Secrets`: crypto.c and schnorr.c over a record of fallible primitives, with the local buffers at return | case analysis over the calls, induction over the rounds; agreement with `Schnorr` for primitives that do not fail | PropSecrets: `C65_signature` `C65_public_key` `C65_agreement` `C65_erased_start` `C65_erased_finish` `C65_product_refuted` `C65_raw_key_refuted` `C65_code_refuted` |
| C66 | What the buttons do | `Buttons`: the flow engine over the table of screens of `App`, place and parts of texts | invariant relating the place in the table and the dynamic counter to a position on the ring of cards, induction over the run; measure for reachability; refutations by running concrete button presses | PropButtons: `C66_history` `C66_put` `C66_question` `C66_decide` `C66_acts` `C66_signature` `C66_read` `C66_read_signed` `C66_unread_refuted` `C66_reach` `C66_frozen` `C66_answerable_refuted` `C66_menu` `C66_menu_refuted` `C66_quit` `C66_off` |
| C67 | Nothing survives a restart, and little a new start | `Restart`: app_main up to its loop, on an arbitrary earlier state | bisimulation between states that differ only in the table of screens and the statics of the dynamic flow while a menu is shown; induction over the runs of a life; the statements about runs by C29, C33, C35 and C39 on each run | PropRestart: `C67_restart` `C67_life` `C67_session` `C67_frame` `C67_signature` `C67_key` `C67_address` `C67_past` |
| C68 | Failing calls end in an error, and local buffers do not matter | `Fault`, `LowTx`, `LowOp`, `LowApp`: all serializers, addresses, answers and handlers with fallible calls and local arrays | function by function: equal to the plain model, or failed with a status handed up to the handler; ranges of all hashed integers from the invariants of reachable states; induction over the history | PropFault: `C68_reported` `C68_buffers` `C68_transfer` `C68_signature` `C68_hmac_refuted` `C68_hmac_frame_refuted` |
| C69 | What each error code says | all of `App`, with `P2pkOp` and the serializers | for each operation, case analysis of its failures against the invariants that tie its state to the described box or transaction (as for C57-C59, now for every code); sessions from the invariants of C29-C33; pages from C23 | PropStatus: `C69_meaning` `C69_denied` `C69_bad_tag` |
| C70 | Commands are read from the received bytes and from nowhere else | `ReadBuf`, `ReadTx`, `ReadApp`: parsers, serializers, handlers, dispatcher and packet parser over buffer_t | refinement: each function on a buffer equals the plain one on the list of unread bytes, by induction over the loops; the primitives by the theorems about `RwBuffer` | PropRaw: `C70_received` `C70_behind` `C70_histories` `C70_all_histories` `C70_in_bounds` |
| C71 | The hash is BLAKE2b-256 of everything fed to it | `Blake2b`: the reference implementation in unit-tests/utils under the wrappers of helpers/blake2b.c | compression function: equality with the RFC's F by unfolding rounds; streaming: invariant that state, counter and buffer are those after the complete blocks of the bytes fed so far, kept by every update by induction over blocks | PropBlake: `C71_stream` `C71_fed` `C71_once` `C71_digest` `C71_env` |
| C72 | One answer to each command, and the packets on the wire | `App`; `Wire`: the device with its I/O buffer, packets in and out | case analysis of every transition and its output; induction over histories for the count; simulation for the packets, from C70 and the sizes of C43 | PropWire: `C72_command` `C72_user` `C72_decision` `C72_count` `C72_packet` `C72_wire` `C72_wire_all` `C72_spoken` |
| C73 | What the session key, the session ids and chance decide | `App` | key and ids: a map of states (key replaced, ids renamed) that commutes with every step, by case analysis; nonce: the simulation of C63 with the nonce also left free, and uniqueness of base-58 texts | PropChance: `C73_key` `C73_no_frame` `C73_ids` `C73_nonce` |
| C74 | The whole device, from the packets and the display alone | `Whole` | a relation between the device on left-over memory and the device of `Buttons` switched on afresh (they differ only in the counters of computed pages while a menu is shown) preserved by packets and presses; the I/O buffer by C72; consent and cost by C39, C64 and C66 | PropWhole: `C74_run` `C74_all` `C74_signature` `C74_cost` `C74_key` `C74_address` |
| C75 | A wallet that follows the documents gets its transaction signed | `Whole` | `SpecWallet` states the wallet as a small state machine over packets; an invariant ties what it holds to the history of the run that C74 finds behind the packets: the frames it has are the attested frames of its boxes (C60), and the commands sent since the session opened are a beginning of those of C61, so each next one is accepted; for the other direction each exchange is carried out, with left, left, both on a question; an open question is settled with right until Approve is displayed (C66_reach), each press carried over to the device with left-over memory | PropWallet: `C75_safe` `C75_free` `C75_reaches` |
| C76 | There is a way out of every question, and the device serves again | `Buttons`, `Whole` | invariant over the presses: all cards up to the present one, or all from it on, can be computed; induction on the distance to the first card (then once more left) or to the last; each press carried over to the whole device as in C75; then C75_reaches | PropOut: `C76_out` `C76_ready` `C76_serves` `C76_dead` |
| C77 | A request for a key or an address is granted when the user approves | `Whole` | C76 to a device that asks nothing; C59 for the acceptance of the command, C40 for the cards; each card and then Approve reached with right (C66_reach), each press carried over as in C75; the answer from the invariant that ties the request on the screen to the context | PropGrant: `C77_key` `C77_address` |
| C78 | The device works again once system calls stop failing | `Fault`, `LowApp` | the state after failures is a state of a history without (C68_transfer); from it C61 and C60; each further event without failures does the same in both models (C68_buffers); induction on the exchange | PropRecover: `C78_signs` `C78_attests` |
| C79 | With failing system calls the buttons and the display still tell the truth | the flow engine of Buttons over the application of LowApp (FaultButtons) | each action is matched by actions of a device without failures (C68 for the application, C76 for the way to Reject), with states equal up to left-over pages; the theorems of C66 are carried back along the match | PropFaultRun: `C79_display` `C79_signature` `C79_answers` |
| C80 | At the cable, a device with failing system calls looks like one without, and serves wallets afterwards | `FaultWhole` | each moment is matched by moments of the whole device of C74 with the step lemma of C79, with states equal up to left-over pages; the reading of the question is carried back along the match; for serving, C76 on the matched run, and each moment of it carried over to the device on which calls had failed | PropFaultWhole: `C80_run` `C80_none` `C80_signature` `C80_serves` `C80_dead` |
| C81 | While system calls fail, keys and addresses still need consent, and afterwards they are given again | `FaultWhole` | a packet with data is sent in the matched run of C80 as well, so C74 applies there and is carried back; for the grants, C77 on the matched run, and each moment carried over as in C80 | PropFaultGrant: `C81_key` `C81_address` `C81_key_granted` `C81_address_granted` |
| C82 | A failing HMAC changes the tags of frames and nothing else | `LowApp`, `FaultButtons` | the only two uses of HMAC are writing a tag and comparing one: each step is matched by a step with the right tag written or sent, into the same state; then C68 and C79 on the matched run | PropTags: `C82_transfer` `C82_run` `C82_signature` `C82_answers` `C82_message` |
| C83 | At the cable, a failing HMAC changes the tags of frames and nothing else | `FaultWhole` | each moment is matched by one with the right tag, into the same device but for the I/O buffer, with the step lemma of C82; the theorems of C80 and C81 on the matched run are carried back along the match | PropTagWhole: `C83_run` `C83_signature` `C83_key` `C83_address` `C83_serves` `C83_key_granted` `C83_address_granted` |
| C84 | What a signature can cost, whatever calls failed | the device with failing calls (LowApp, Fault), with the ledger of SpecCost | a failed event has a refused counterpart by the same party, so sessions, descriptions, screens, approvals, attested boxes and tags are the same in the run without failures; C64 there, carried back | PropFaultCost: `C84_cost` `C84_tokens` `C84_hand_cost` `C84_hand_tokens` |
| C85 | What a signature packet can cost, whatever calls failed and whatever memory was left over | the whole device at the cable with failing calls (FaultWhole), with the ledger of SpecCost | the state is near one of a history without failures (the same but for the page buffer while idle), event by event an echo of it (C84); C64 there, carried back; a packet of 58 bytes with status OK is a signature | PropCableCost: `C85_does` `C85_cost` `C85_tokens` `C85_approved` |

## Trusted base

* Coq 8.16.1: its kernel, including `vm_compute` for examples and refutations (`coqchk` re-checks
  them with the plain reduction machine).
* `Print Assumptions` follows every property theorem; each prints "Closed under the global
  context": no axiom at all is used, neither of our own nor of the standard library.
  `coqchk` additionally lists seven axioms of the library module `Coq.ssr.ssrunder`
  (`Under_rel` and its companions), which the ssreflect tactics load; no theorem depends on them.
* The transcription from C to Gallina, which is by hand, and the reading of C in it (two's
  complement, 32-bit `size_t` as on the device, no padding effects).
* SDK functions outside the repository (`format_fpu64`, `format_u64`, `format_hex`, the APDU
  parser, `io_send_response`, the UX flow engine) are modelled from their documented behaviour.
  Only C66 and C74-C77 depend on the order in which the flow engine visits the screens.
  The SDK pieces with a stand-in in `unit-tests/utils` (buffer, bip32, base58) are modelled from
  those stand-ins.
* The specifications `Spec*`.

## What is modelled and what is not

Modelled: every function of `src/common`, `src/ergo`, `src/commands`, `src/ui`, `src/context.*`,
`src/apdu_dispatcher.c`, `src/app_main.c` (one turn of its loop), `src/helpers`.

Not modelled: power, USB/BLE transport and `io_exchange`, the exception mechanism, the drawing done
by the UX engine, the cryptographic primitives themselves (they are arbitrary functions with the
stated output sizes), side channels, stack usage, the debug build, the Makefile's build variants.

## Findings about the code

Facts met while modelling; those marked with an id are theorems.

* An output opened and then abandoned by opening the next one stays in the signed bytes, counts in
  the sums and is never shown (C15).  The signed bytes then are no transaction.
* After any approved change output with a five-component path every later change output to a wallet
  path is silent, whatever its account (C22); automatic change ignores the account.
* The screen of a change output shows only the path, no amount of tokens or ERG to others (C24).
* A fee output with only zero-amount tokens is silent.  Fee and change are accepted with a nonzero
  declared script size, though the documentation says they need 0.
* The script and the pay-to-script-hash tree of its hash show the same page (C55).
* The box serialization is not self-delimiting, so a box id does not determine value and tokens of
  the box for every reading (C56); the same holds for the signed bytes (C62).
* Duplicate distinct token ids and duplicate input boxes are not rejected.  Input tokens outside the
  distinct list are appended to the table.  A token may appear twice in an output if the earlier
  amount was zero (C20).
* The frame's token count byte acts modulo 32 (one-byte length arithmetic).  Frame count and value
  of later frames are not compared with the first one (the tag covers them, C26).
* A token deficit of exactly 2^63 is negated in signed arithmetic, undefined in C (C53).
* An all-zero random source hangs the drawing of a session id; ids may repeat (C36).
* The scalar check admits the group order (C46).
* The results of both `cx_hmac_sha256` calls are ignored; should the call fail, the device goes on
  with what the buffer held (C68).
* The attestation start with a wrong P2 above 2 is answered with `SW_WRONG_P1P2` but resets the
  session; the signing start does not.
* `handler_epk` calls `is_known_application` with swapped arguments; the function is symmetric.
* Approving an address display also remembers the application token; a signing start without token
  shows the application as 0x00000000 (C41).
* The both-buttons press on the path page approves a P2PK signing start, before the application page
  need have been displayed.  In the key and address flows it enters a flow of one step from which no
  button leads out: the question can no longer be answered, and every further request is refused as
  busy until the application is restarted (C66).
* The screens form a ring: from the first screen two left presses reach Approve, so a transaction can
  be approved without any of its pages having been displayed (C66).
* The table of screens is shared by the menu on display and the request being prepared.  A key or
  address request whose path is too long to write out is refused after its heading was written over
  the menu's first screen; the idle menu then shows "Ext PubKey Export" or "Confirm (Send) Address"
  without a question behind it, until a question or a menu is displayed anew (C66).
* On the test network the fee script is that of the main network.
* A path text too long for its page is cut or refused.
* No check for trailing data in the frame and change-path commands, 0x20 ignores its data (C54).
* Documentation contradicted by code: key export accepts 3 to 10 hardened components, not 2; signing
  accepts networks 0x00 and 0x10 only, not 0-252 (C51, C59).
* The serializer of boxes is not latched after a short token index (C16).
* `crypto_derive_private_key` does not wipe the raw key when the derivation reports an error; the
  signing function leaves its product of challenge and secret on the stack when the last addition
  fails (C65).  Error codes of the SDK are truncated to 16 bits.
* For a transaction within the limits the only failure left to chance is a challenge of 24 zero
  bytes (C61).
