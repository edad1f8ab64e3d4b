# Design: formal model of integritee-network/pallets in Rocq (Coq 8.16.1)

## Scope

The source in `/repo` is read as text; nothing there is built, run or changed. The model is a set of
total Gallina functions that follow the Rust code function by function. Every definition cites file and lines.

## Model

* **Values.** Byte strings (accounts, hashes, shard ids, keys, names) are `list N`. Unsigned integers are `N`
  with explicit saturating, checked or wrapping operations as in the code; the type's maximum is a constant or a
  field of the configuration record. Storage maps are `gmap` from std++ (finite maps, no iteration order is used).
* **Runtime state** `rt`: clock, block number, balances (free balance, locks), vesting schedules and one record per
  pallet: teerdays, enclave-bridge, sidechain, teeracle, teerex, claims, asset-registry, xcm-transactor outbox; and
  the event log (never truncated, unlike `System::events`, so that histories can be read off it).
* **Calls.** A body is a function `rt -> outcome`, where an outcome is `Ok value state`, `Err error state` (the state
  with the writes made so far) or `Panic`. `dispatch` adds what FRAME adds: `with_storage_layer` (an `Err` rolls
  everything back); a panic aborts the extrinsic (state unchanged).
* **Histories** are lists of operations: a call with an origin (root, signed, none), the start of a new block (clock
  non-decreasing, block number + 1) and environment operations: transfers, minting, fees, releasing vested funds, adding vesting
  schedules, locks of other pallets, creating and destroying assets. All invariants
  quantify over all histories mixing all pallets.
* **Configuration** `cfg`: existential deposit, unlock period, renewal period, moments per day, limits, origins allowed
  for the configurable origins, whether arithmetic overflow checks are compiled in, and *oracles* for what is not
  modelled: signature verification, X.509 parsing and path validation, JSON and date parsing, base64, SHA-256/keccak.
  An oracle is an arbitrary function in the record; theorems hold for all of them. There are no axioms.

## What is modelled from outside /repo (environment, simplified)

* `pallet_balances` 37: free balance, named locks, `set_lock`/`remove_lock`, `transfer` with AllowDeath,
  `deposit_creating`; no reserves, holds, freezes, consumers/providers, slashing.
* `pallet_vesting` 36: `add_vesting_schedule`, `vesting_balance`; schedule completion at the current block.
* `pallet_timestamp`: the clock never goes back. `frame_system`: block number, event log.
* `staging-xcm`: relative locations as parents/interior, their reading from another chain (C65) is defined in `XcmProps.v`. The
  debug assertion of `Fungibility::from` against amount zero is not modelled (it is absent from release builds).
* Typing of oracles: the JSON oracle may return any numbers; theorems that need SVN components within their Rust types say so
  (`json_levels_typed`); it holds of every oracle that reads documents as `CollateralModel.v` does (C75). There, serde_json's text
  parser and chrono's date parser are parameters; which document trees are turned into which values is modelled.
* Text formats (`TextModel.v`): computable definitions of base64, JSON, RFC 3339 and IAS dates, SHA-256, DER, X.509 and path
  validation, after the pinned library versions (their source is not in /repo); an instance of the oracles in which only RSA and ECDSA
  stay open. Theorems elsewhere hold for all oracles, hence for this instance.
* SCALE (`ScaleModel.v`): the encodings of all stored values and call arguments; codecs of XCM network ids, body ids and body
  parts are parameters; of `MultiSigner` only the Ed25519 variant exists in the model. The storage layout (`StorageModel.v`): item
  names, twox128 (XXH64 in full), Blake2_128 as a parameter of which only the length is used.
* Event records (`EventModel.v`): frame-system's phases and records (phase, event, topics) are outside /repo; their encoding is modelled.
  That deposited events have values of their types (C95) assumes the types of C82 and that the message sender returns 32-byte hashes.
* Errors (`ErrorModel.v`): `DispatchError` and `TransactionValidityError` are sp_runtime's, outside /repo; the parts the pallets return are modelled.
  pallet-balances' errors are told apart but have no bytes here; the hidden variant `__Ignore` of error types has no value and no number.
* Extrinsics (`ExtrinsicModel.v`): `pallet_transaction_payment` withdraws the fee before the call, keeping the sender alive, and gives it
  back if the call says so afterwards; the amount of the fee is any number. A call that panics is in no block.
* `frame_system` drops events deposited at block 0; the event log of the model keeps them.
* SCALE decoding of DCAP quotes is modelled at byte level (sgx-verify), DER writing and length reading too.

## What is not modelled

The weights of claims (chosen by the runtime), conversion of weights to fees, the timing of benchmarks (what they prepare, call and check is in `BenchmarksModel.v`), RPC/metadata, extrinsic envelopes (signatures, nonces, eras, tips),
genesis JSON parsing (except Ethereum addresses), logging, block import.
Cryptographic strength is not modelled: signatures are oracles, so statements are of the form "an accepted quote
passed this signature check over these bytes with this key".

## Trusted base

Coq 8.16.1 kernel; the standard library and std++ as installed (no axioms are used from either; `Print Assumptions`
is executed after every property theorem and prints `Closed under the global context`; loading std++ brings the standard
library's ssreflect support with the seven constants `Coq.ssr.ssrunder.Under_rel.*` into scope, which no theorem uses); the faithfulness of the model to the Rust text
(comments cite the lines); the environment model above; the wrong-program experiments in `seeded/LOG.jsonl` test the
theorems against realistic bugs.

Evidence for the faithfulness: `Conformance*.v` runs the model on the unit tests of the repository, line by line, and the
kernel checks that every assertion holds: all tests of teerex, sgx-verify (with the real Intel documents),
teerdays, enclave-bridge, sidechain, teeracle, asset-registry, xcm-transactor and claims (with a computed Keccak-256), except
`decode_swap_ump_in_kusama_success` (uses types of the Kusama runtime), `parse_pck_crl` (a demonstration that uses
no code of the crate), `verify_tcb_info_signature` (one P-256 signature check), and the assertions on reference counters. The signature checks (RSA, ECDSA on P-256, key recovery on secp256k1) are tables
there, computed by programs outside this development from the keys and messages of the tests.

## Files

`rocq/theories/`: `Base.v` (monad, arithmetic, bytes), `State.v` (state, configuration, events, environment pallets),
one `*Model.v` per crate, `Runtime.v` (dispatch, histories), `GenesisModel.v` (the genesis builds statement by statement), `StdTextModel.v` (the oracle's strings with std), `WeightsModel.v` (declared weights, who pays), `ExtrinsicModel.v` (validation, fees and inclusion of extrinsics), `CollateralModel.v` (JSON documents), `ScaleModel.v` (encodings), `StorageModel.v` (storage layout), `EventModel.v` (events and their records), `ErrorModel.v` (error numbers), `RawMigrationsModel.v` (migrations on raw bytes), `Footprint.v` (logic of what a computation reads and writes), `TextModel.v` (computable readers of base64, JSON, dates, SHA-256, DER, X.509 and certificate chains), `SerialModel.v` (writers of Intel's documents), `BenchmarksModel.v` (the benchmarks and test utilities), `FuzzModel.v` (the fuzz targets), `TestData.v` (the test documents of the repository), `Keccak.v` (Keccak-256), `Conformance.v`, `ConformanceSgx.v`, `ConformancePallets.v`, `ConformanceClaims.v` (the unit tests of the repository), `*Proofs.v` (lemmas), `*Props.v` (property theorems,
each followed by `Print Assumptions` and a concrete instance).

## Plan per property

* **C01 Bonded and unbonding tokens stay locked** - inductive invariant over runtime histories (Teerdays + locks), side condition on the history.
* **C02 The unlock period cannot be skipped** - concrete history evaluated in the model (`_refuted`), positive part from the C01 invariant + C03.
* **C03 Withdrawal only after the due time, and only what was unbonded** - functional characterisation of the call on every state.
* **C04 Token-time is the integral of the bonded value, whoever updates it and how often** - independent spec: integral over a list of (value, duration) intervals; induction on the schedule; lift to calls.
* **C05 Unbonding burns token-time at least pro rata, by less than one bond's worth of rounding** - arithmetic on the call's result for all states.
* **C06 Bonding never exceeds the free balance and events report the true increase** - functional characterisation of both calls on every state.
* **C07 Unbonding conserves the bond, except for dust that gets stuck** - functional characterisation + reachable witness history with ED > 1.
* **C08 Only the owner can change a bond** - frame theorem over `dispatch` for all calls of all pallets.
* **C09 An unshield call hash pays out at most once** - invariant: counter = number of accepted unshield ops in the history; payouts counted from events.
* **C10 Only an enclave authorised for the shard can release its vault** - frame theorem over `dispatch` on the free balance of a vault.
* **C11 Shards do not interfere through call hashes** - witness history (`_refuted`) + positive theorem when the hash is globally fresh.
* **C12 Vault solvency** - ledger invariant over histories by induction, independent ledger spec read from events.
* **C13 Who may operate a shard cannot be changed by outsiders** - case analysis over `dispatch`; witness history for the implicit-shard takeover.
* **C14 Shard configuration upgrades are enacted exactly on time** - independent spec `in force at block b`; invariance under every other op; characterisation of the update call.
* **C15 Shard status is bounded and has one entry per enclave signer** - inductive invariant.
* **C16 Touching a shard changes exactly the caller's entry** - functional characterisation of every touching call.
* **C17 Purge removes exactly the subject** - functional characterisation, panic freedom.
* **C18 Most recent shard update is a maximum** - stable insertion sort vs. independent maximum spec.
* **C19 publish_hash is limited, attributable and moves no funds** - functional characterisation + witness history.
* **C20 Maintenance mode, instance limit and authorities are not enforced on L1** - two-run non-interference: a relation ignoring the three fields is a bisimulation for `dispatch`.
* **C21 Finalised sidechain block numbers strictly increase** - invariant relating event log and storage; sortedness by induction.
* **C22 Every finalisation extends the previous one** - step property over histories.
* **C23 Only the first-listed enclave finalises, and confirming never panics** - case analysis; no-panic from the touch characterisation.
* **C24 Finalisation can stall forever after an upgrade** - invariant along purge-free histories; corollary: no finalisation event.
* **C25 Only whitelisted, registered enclaves write oracle data** - case analysis over `dispatch`.
* **C26 Whitelists are bounded, duplicate-free and root-controlled** - inductive invariant + frame.
* **C27 Stored rates are non-zero and all stored keys respect the length limits** - inductive invariant.
* **C28 A sovereign registration belongs to the attested key** - inductive invariant.
* **C29 Proxied registrations are filed under their own content and registrar** - inductive invariant + frame over `dispatch`.
* **C30 Debug enclaves and skipped attestation need the security flags** - case analysis + frame.
* **C31 Active enclaves cannot be unregistered by anyone** - inductive invariant along histories.
* **C32 Attestation timestamps are fresh for IAS, but replayable for DCAP** - characterisation of accepted registrations; replay theorem for DCAP.
* **C33 DCAP registration uses collateral regardless of its expiry** - independence theorem on two states; reachable replacement.
* **C34 The recorded TCB status is that of the first matching level, and matching is monotone** - order-theoretic lemmas on level lists.
* **C35 An accepted DCAP quote is authenticated end to end** - inversion of the verifier with byte-level decoder model; crypto/x509 as oracles.
* **C36 No byte string makes DCAP or IAS verification panic** - no-panic theorem by length arithmetic; witness for the helper.
* **C37 Quoting-enclave levels of every status are trusted** - equivalence of checker and spec; witness with a revoked level.
* **C38 Collateral registration panics exactly on unrepresentable dates** - exact panic characterisation.
* **C39 DER signature encoding never fails and is faithful** - byte-level model of the DER writer, round trip with an independent DER reader.
* **C40 DER lengths are read correctly except for the one-byte long form** - byte-level model, three cases + witness.
* **C41 Platform identifiers are read from the Intel extension at their place** - byte-level model; correctness for all contexts without earlier OID occurrence.
* **C42 Storage migrations** - functional characterisation, idempotence, witness.
* **C43 Claims are paid at most once and never exceed the pot** - inductive invariant with sums over maps; payout accounting.
* **C44 A claim pays the account the Ethereum key signed for** - case analysis over `dispatch`, recovery oracle; witness for the lost small claim.
* **C45 A required statement cannot be bypassed** - case analysis.
* **C46 Pool validation of unsigned claims is sound** - simulation between validation and dispatch.
* **C47 Free attest calls are not fully prevalidated** - witness history, and invariance under every continuation.
* **C48 A claim with a zero-rate vesting schedule panics the runtime** - exact panic characterisation + witness history.
* **C49 Moving a claim moves amount, vesting and statement together** - functional characterisation.
* **C50 Signed messages are unambiguous** - injectivity proofs on byte strings, decimal printing.
* **C51 Ethereum addresses survive text serialisation** - round trip over bytes/characters; witness panic.
* **C52 Asset id and location maps agree in one direction only** - inductive invariant; witness history.
* **C53 Registration accepts exactly the documented location shapes** - equivalence with an independent shape spec.
* **C54 Dropped assets: what is trapped and what is lost** - equivalence with a filter spec, weight fold.
* **C55 Fungible matching agrees with the registry** - equivalence.
* **C56 Slot swap messages** - characterisation, encoding injectivity.
* **C57 Failing calls have no effect** - storage-layer theorem; plus theorem that some raw bodies do write before failing (so the layer is needed).
* **C58 Pallets do not write each other's storage** - frame theorems per pallet.
* **C59 TEERdays-bonded tokens cannot be shielded away** - case analysis on balances operations over `dispatch`.
* **C60 Accumulated amounts stay within their types** - inductive invariant + no-panic.
* **C61 Token-time accrues on tokens that are no longer locked** - witness history (`_refuted`).
* **C62 Every event is attributable to a call** - relation operation/event defined beside the model; induction over histories; instances spelled out.
* **C63 PEM certificate chains are read entry by entry** - independent writer of PEM files; the reader inverts it; witness for comments.
* **C64 A claim with vesting locks its schedule and nothing else** - characterisation of the claim; invariant along histories with schedule-adding operations excluded for the account; witness.
* **C65 Swap messages address assets as the sender sees them** - interpretation of relative locations defined independently; holds for all parameters.
* **C66 An IAS report is accepted exactly if genuine** - equivalence with an independent byte-level specification.
* **C67 A registration stores exactly what was attested** - equivalence between success and specification, with the whole successor state.
* **C68 Which calls are accepted, exactly** - equivalence between success and a stated condition per call, from iff-lemmas for the monad.
* **C69 What accepted calls do, exactly** - pointwise description of the successor state per call, from the characterisation lemmas and the frame theorem C58.
* **C70 Which error a refused call returns, exactly** - ordered lists of demands per call, matched step by step against the monadic code; quotes and certificates by byte offsets.
* **C71 The checks shipped with the migrations accept exactly what they should** - encode/decode round trip of the pre-upgrade state, then case analysis on versions; refutations by witness.
* **C72 Which calls are free** - case analysis over the calls; answers of C70 for attestations; closed form of the weight without saturation.
* **C73 Declared storage writes cover what calls change** - per-call list of entries from C69/C67/C38 and the frame theorem C58; counting against the coefficient of the write price.
* **C74 The unused helpers of sgx-verify read what they say** - splitting at the first occurrence of the identifier and reading the length octets; demands of C70 for the raw helper; steps shared with verify_dcap_quote.
* **C75 Collateral and report documents are read as they say** - declarative reading of documents (fields, numbers, hex) and an equivalence per reader, composed up to the calls; refutation by witness.
* **C76 Every enclave and every payout traces back to evidence** - positions in histories, induction from the right; composition of C10, C34, C35, C38, C66, C67, C68.
* **C77 After registration only the measurement counts** - projection of the state that commutes with every other call, by the same rules for the monad as C20; refutations by witness.
* **C78 Bonded tokens can always be taken out again, and nobody else can delay it** - invariant (lock <= bonded + unbonding when something is bonded), frame theorem C08 for the calls of others, acceptance theorem C68, explicit own plan of calls.
* **C79 Overflow checks change nothing but panics** - relational proof over all call bodies (agree up to panics), exact location of the differences from the panic characterisations.
* **C80 Storage entries never overlap and are read back as written** - computed XXH64 hashes of the item names are distinct; prefix-freeness of the codecs (C81) for the concatenated keys; store built by writing all non-default entries.
* **C81 Stored values and calls have unambiguous encodings** - codec combinators with a law (round trip and canonicity), closed under all constructions; the hand-written encodings of the other models are compared with the codecs.
* **C82 Storage never leaves the ranges of its types** - invariant over histories, one lemma per pallet from the exact effects of the calls; then C80 for the raw store.
* **C83 The migrations are exact on the raw store** - lookup equations for the stores that result, from the separation of keys (C80); sets of changed keys for the weights.
* **C84 How calls get into blocks** - each item of a chain is a short history; case analysis of validation and payout (C46), frame of the fee.
* **C85 The exact bytes of stored values, keys and calls** - second, direct definition of all encodings (numbers by division, compact by logarithm) proved equal to the combinators of the codec model.
* **C86 What calls depend on and change, entry by entry; independent calls commute** - relational logic over pairs of states (does the same / changes only) with one rule per monad operation; tables of reads and writes per call; commutation and noninterference for histories derived from the two.
* **C87 Intel's documents can be written and read back** - recursive-descent reader with fuel, printer, induction over JSON values with a continuation; calendar arithmetic by a 400-year cycle; the test documents of the repository as instances.
* **C88 No tokens out of nothing** - sums over finite maps, a conservation invariant walked through all calls, per-call case analysis, then the claims ledger of C43 for the cap.
* **C89 The authorities can always restore service** - explicit plans of root as functions of the state, executed symbolically with the exact acceptance conditions (C68) and effects (C69), by induction over the list of signers and the chain of blocks.
* **C90 How much token-time a supply can produce** - per account the worth of a bond grows in one step by at most its value times the elapsed time (from the exact effects, C69); summed over the finite map and bounded by the issuance through the lock invariants of C01 and C88. The farm by induction over the list of accounts, each round executed symbolically with C68 and C69.
* **C91 What a client can learn from the events** - tables as folds over the observed events, written without reference to the calls; one step from the exact effects and events of every call (C69, C67, C38), other operations by attribution of events (C62) and frames (C58), then induction over the history.
* **C92 The benchmarks pass on exactly these runtimes, and what they measure** - every set-up, call and check as a computation on the genesis state; acceptance and effect of the measured call from C68 and C69, for attestations the real test documents evaluated in the model; the claims loop by induction.
* **C93 What the fuzz targets of the attestation library report** - the targets as functions to success or panic; equivalences from C36, C39, C41, C66, C87; decoding by a byte-level shape; witnesses with oracles that accept no signature.
* **C94 Declared storage reads and what calls depend on** - count the entries behind the read lists of C86; dependence by exchanging one entry of a state for that of another, decided by computation.
* **C95 Events on the wire** - event codecs from the combinators of C81; byte tables spelled out separately; typedness of deposited events from the exact effects of C69 and the invariant of C82; the observers of C91 run on the decoded log.
* **C96 Errors on the wire** - numbers computed from the declarations and compared with a separate byte table; the upper bound from the exact answers of C70, the lower bound from one witness history per kind of call and error in a configuration in which every check can fail.
* **C97 Within eight limits no call ever panics, and each limit is needed** - the room a state leaves for the calls to come as invariant, its single calls from the exact panic conditions of C38, C48, C60 and C70; one witness history per limit, the one with 2^64 confirmations by induction.
* **C98 What outsiders can take: nothing from guarded accounts, everything transferable from any other** - that the enclaves of the coalition have its measurements is an invariant; one step from the exact acceptance (C68) and effect (C69) of each call and from C08, C10, C29 and C30, then induction over the history; the theft composes C68 and C69 for the two calls.
* **C99 What outsiders can block** - what the coalition leaves unchanged (C98) put into the exact acceptance conditions (C68), registrations last by C31; the taken shard is C98 with the roles exchanged.
* **C100 A staker's account is a book of its own: nothing that others do matters to it** - LedgerProps.v: the book (act_on, wait, keep_book) is written from the source without the model; one own call agrees with act_on by C70 and the exact effects, any other operation agrees with wait by C08, and induction over the history does the rest.
* **C101 What stands in storage is what the last accepted call put there, and only that** - HistoryProps.v: a generic last-writer lemma over the positions of a history (C76), instantiated for every storage map from the exact effects of C69 and the exact conditions of C68; the configuration in force by induction over the history generalised over the block; counters are C09, bonds C100, enclaves and collateral C76.
* **C102 Who can change which entry: an exact access matrix** - AccessProps.v: the entry is in the footprint of C86, the call was accepted, so the exact conditions of C68, the attestation facts of C28-C38 and the exact effects of C69 give the role; the matrix by that theorem one way and 82 computed witnesses the other.
* **C103 What submitting a call again does, and what must happen before it is accepted a second time** - RetryProps.v: the effect of the first submission by C69, the answer to the second by C68 and C70, cells outside by C86; the second theorem by induction over the history in between, each step of which keeps the call closed or is an accepted undoing call.
* **C104 How storage grows, and what can never be removed** - GrowthProps.v: `held`, `turnover` (table of appearing and disappearing entries); derive it from the exact effects of C69 and the registration lemmas; count the keys of all maps (distinct by item) and bound by pigeonhole; permanence because no removal list names a key of the seven kinds; growth by induction over the list of shards with the acceptance criteria of C68.
* **C105 What the genesis build puts into storage** - GenesisModel.v runs the build statement by statement; GenesisProps.v: induction over the lists (fold with plain addition equals the sum modulo the type; insertion folds keep the last entry per key), comparison with `genesis_state`, ledger of C43 for the consequences.
* **C106 Strings of the oracle in builds with and without the standard library** - StdTextModel.v: the codecs with String in place of Vec<u8>; StdTextProps.v: a relation between codecs (same bytes written, one refuses more) closed under pairs, cases and vectors; UTF-8 validity equals being a sequence of characters by induction on length; invariant over histories for sources and labels; witness history for the refuted statement.
* **C107 The one average age per staker against the ages of the tokens** - TrancheProps.v: one step lemma from the staker's book of C100 (time passes, tokens are added, or some leave pro rata); the average of what stays is between the averages of the two orders (sorted lists of tranches); induction over the history; witness history for the refuted statement.
* **C108 What waiting does to the answer to a call** - WaitProps.v: waiting changes the two clocks only; compare the ordered demands of C70 at both times (Forall2 iff); closed forms for stakers, removals and reports; quotes by moving a genuine quote to another time; windows by cases; X.509 paths by induction on the depth; witness history for the refuted statement.
* **C109 Chains that are upgraded on the way** - UpgradeProps.v: relate both states by `but_tcb`; operations that do not read TCB information do the same by C86; quotes whose processor is unknown fail and are left out; invariants transfer along the relation; after registering again the cells agree by C86.
* **C110 The signers of a shard stand in line** - SeniorityProps.v: every operation leaves the list of signers, appends the caller or filters out the subject of an accepted purge; induction on the history for the order of joining, and on its continuation for the comparison of two states.
* **C111 Token-time is proportional to the stake, and more stake means more of it up to rounding** - ProportionProps.v: by C100 an account is the book kept from its diary; multiplying by k commutes with every line of the diary; for the comparison, induction on both diaries with the accumulated slack and an inequality on the two quotients; witness for the refuted statement.
* **C112 A shard is a book of its own: nothing that others do matters to it but payments and registrations** - ShardBookProps.v: the book is written from the documented rules, in the style of C100 for stakers; each call about the shard is computed symbolically and compared with the book, using C15 (one entry per signer, at most ten); everything else is framed away with the write sets of C86; induction on the history.
* **C113 An oracle entry is a book of its own, and its rate is the last one accepted** - SourceBookProps.v: the book is written from the documented rules; each call about the entry is computed symbolically and compared with the book; everything else is framed away with the write sets of C86; induction on the history.
* **C114 A claim is a book of its own, and pays what was filed when it was taken** - ClaimBookProps.v: the book is written from the documented rules; each call about the address is computed symbolically and compared with the book; everything else is framed away with the write sets of C86; the pot by C43; induction on the history.
