{"id": "C01", "title": "Bonded and unbonding tokens stay locked", "statement": "After any history in which no account calls `bond` while it has an unlock pending, the TEERdays lock on every account is at least (its bonded value) + (its amount pending unlock).", "quantifier": "all finite histories of extrinsics of all pallets, all accounts, amounts, block times, for every runtime configuration", "why_tests_cant": "the lock is rewritten by four different calls; a test fixes one order of calls while the claim is about every interleaving and every amount", "anchors": ["teerdays/src/lib.rs: bond, bond_extra, unbond, withdraw_unbonded, try_withdraw_unbonded"]}
{"id": "C02", "title": "The unlock period cannot be skipped", "statement": "Tokens that were unbonded remain locked until the due time announced at `unbond`. This is false as it stands: an account that unbonds everything and bonds the minimum again has its whole lock replaced by the minimum one, and can spend the unbonding tokens at once. It holds for histories that never `bond` during a pending unlock.", "quantifier": "existential counterexample history, and all histories satisfying the side condition", "why_tests_cant": "no unit test composes unbond with a fresh bond; the failure needs a specific three-call history", "anchors": ["teerdays/src/lib.rs: bond, unbond, TEERDAYS_ID"]}
{"id": "C03", "title": "Withdrawal only after the due time, and only what was unbonded", "statement": "`withdraw_unbonded` succeeds only for an account with a pending unlock whose due time has been reached; it reduces the TEERdays lock by exactly the reported amount, which is never more than the pending amount, clears the pending entry, and leaves the bond untouched; the due time is (time of the unbond) + UnlockPeriod.", "quantifier": "all reachable states, all callers and times", "why_tests_cant": "tests try one instant before and one instant after the due time", "anchors": ["teerdays/src/lib.rs: withdraw_unbonded, try_withdraw_unbonded, unbond"]}
{"id": "C04", "title": "Token-time is the integral of the bonded value, whoever updates it and how often", "statement": "For a bond created at time t0 and changed by any sequence of `bond_extra` calls and arbitrarily interleaved `update_other` calls by anybody, the token-time after the last update equals the sum over the intervals of (bonded value x elapsed milliseconds), capped at the balance type's maximum; extra updates never change the result, also when the cap is hit.", "quantifier": "all update schedules, all non-decreasing clocks, all values including those that saturate", "why_tests_cant": "tests check a single update on round numbers; path-independence and saturation are universally quantified", "anchors": ["primitives/teerdays/src/lib.rs: TeerDayBond::update", "teerdays/src/lib.rs: do_update_teerdays, update_other, bond_extra"]}
{"id": "C05", "title": "Unbonding burns token-time at least pro rata, by less than one bond's worth of rounding", "statement": "After `unbond`, remaining token-time x old bond <= old token-time x remaining bond (never more than pro rata), and the shortfall against the exact share is smaller than the remaining bond; the burn never increases token-time; the burned amount in the event is exactly the difference as long as a bond remains. When the remainder is below the existential deposit and the bond is removed, the event understates the burn.", "quantifier": "all bonds, token-times and unbond amounts within the balance type", "why_tests_cant": "division before multiplication rounds; tests use divisible numbers", "anchors": ["teerdays/src/lib.rs: unbond"]}
{"id": "C06", "title": "Bonding never exceeds the free balance and events report the true increase", "statement": "After `bond` or `bond_extra` the bonded value is at most the account's free balance at that moment (for bond_extra: at most max(old bond, free balance)), the bond grows by exactly the amount in the Bonded event, and the lock equals the bond if the bond is positive (pallet_balances ignores a lock of zero).", "quantifier": "all states, amounts", "why_tests_cant": "tests use two sample balances", "anchors": ["teerdays/src/lib.rs: bond, bond_extra"]}
{"id": "C07", "title": "Unbonding conserves the bond, except for dust that gets stuck", "statement": "`unbond` moves min(value, bond) from the bond to the pending entry. If the remainder is at least the existential deposit it stays bonded, so old bond = new bond + pending. If the remainder is positive but smaller, the bond is deleted and the remainder is neither bonded nor pending: after the pending amount is withdrawn it is still locked although the account has neither bond nor pending unlock.", "quantifier": "all amounts; the stuck-dust part as a reachable history", "why_tests_cant": "the mock existential deposit is 1, so no remainder can ever lie strictly between 0 and it in a test", "anchors": ["teerdays/src/lib.rs: unbond, try_withdraw_unbonded"]}
{"id": "C08", "title": "Only the owner can change a bond", "statement": "No extrinsic signed by anyone other than account A (and no root or unsigned extrinsic of these pallets) changes A's bonded value, A's pending unlock or A's TEERdays lock; `update_other` by a third party only brings last-updated and token-time forward.", "quantifier": "all calls of all pallets, all origins, all states", "why_tests_cant": "requires ranging over every call of every pallet", "anchors": ["teerdays/src/lib.rs: update_other, do_update_teerdays"]}
{"id": "C09", "title": "An unshield call hash pays out at most once", "statement": "Over any history the funds for a given call hash leave a vault at most once, whatever shard, beneficiary, amount or enclave repeats the call; the on-chain counter of that hash equals the number of accepted unshield calls carrying it.", "quantifier": "all histories, all call hashes", "why_tests_cant": "idempotence over arbitrary repetition, reordering and failures in between", "anchors": ["enclave-bridge/src/lib.rs: unshield_funds, ExecutedUnshieldCalls"]}
{"id": "C10", "title": "Only an enclave authorised for the shard can release its vault", "statement": "If a call lowers the balance of a shard's vault account (and is not signed by that very account), then it is an `unshield_funds` for that shard signed by an account registered as sovereign enclave whose fingerprint equals the fingerprint in force for the shard at that block (the configured one, or the shard id itself when nothing is configured).", "quantifier": "all calls of all pallets, all origins, all states", "why_tests_cant": "must hold for every call of every pallet, not only for the ones a test exercises", "anchors": ["enclave-bridge/src/lib.rs: unshield_funds, get_sovereign_enclave_and_touch_shard"]}
{"id": "C11", "title": "Shards do not interfere through call hashes", "statement": "An accepted unshield call on shard A with a hash never used on A before pays its beneficiary. False as it stands: executed hashes are recorded without the shard, so an enclave of any other shard can spend the hash first and the call on A is then accepted without paying.", "quantifier": "existential counterexample history; and all histories in which the hash was not used on any shard", "why_tests_cant": "tests use a single shard", "anchors": ["enclave-bridge/src/lib.rs: unshield_funds, ExecutedUnshieldCalls"]}
{"id": "C12", "title": "Vault solvency", "statement": "Starting from an empty vault, after any history the vault balance of a shard plus the sum of all UnshieldedFunds amounts to other accounts (plus dust lost when the vault dips below the existential deposit) equals the sum of everything transferred in; in particular payouts never exceed deposits.", "quantifier": "all histories without a signature by the vault account itself", "why_tests_cant": "conservation over all interleavings of deposits, payouts, direct transfers and failing calls", "anchors": ["enclave-bridge/src/lib.rs: shield_funds, unshield_funds"]}
{"id": "C13", "title": "Who may operate a shard cannot be changed by outsiders", "statement": "Once a shard has an explicit configuration, the fingerprint in force at any present or future block changes only through root or an enclave whose fingerprint is in force when it calls. For shards that are operated without explicit configuration this is false: any registered enclave can install itself as the shard's fingerprint and immediately unshield the vault.", "quantifier": "all calls and origins; the second part as a reachable history", "why_tests_cant": "needs an adversarial second enclave and a shard in the implicit default state", "anchors": ["enclave-bridge/src/lib.rs: update_shard_config, get_maybe_updated_shard_config", "primitives/enclave-bridge/src/lib.rs: ShardConfig"]}
{"id": "C14", "title": "Shard configuration upgrades are enacted exactly on time", "statement": "After an accepted update of an existing configuration at block b with delay d, the configuration in force is the previous one for every block < min(b+d, max) and the new one from then on, until the next accepted update, no matter which other calls touch the shard or how often; the first configuration of a shard is in force immediately whatever the delay.", "quantifier": "all blocks, delays (including saturating ones), all interleavings of touching calls", "why_tests_cant": "lazy application of due updates happens in two places; tests run two blocks", "anchors": ["enclave-bridge/src/lib.rs: update_shard_config, get_maybe_updated_shard_config, get_sovereign_enclave_and_touch_shard", "primitives/enclave-bridge/src/lib.rs: UpgradableShardConfig::with_pending_upgrade"]}
{"id": "C15", "title": "Shard status is bounded and has one entry per enclave signer", "statement": "In every reachable state each shard status lists at most 10 signers, no signer twice, and no last-activity block lies in the future.", "quantifier": "all histories", "why_tests_cant": "an invariant over arbitrary interleavings of touch and purge", "anchors": ["enclave-bridge/src/lib.rs: touch_shard, purge_enclave_from_shard_status", "primitives/enclave-bridge/src/lib.rs: MAX_SHARD_STATUS_SIGNER_COUNT"]}
{"id": "C16", "title": "Touching a shard changes exactly the caller's entry", "statement": "A call that touches a shard sets the caller's entry to (caller, its fingerprint, current block), keeps its position if it had one and appends it otherwise, and leaves every other entry and its order alone; it fails if and only if the caller is new and 10 signers are listed.", "quantifier": "all statuses and callers", "why_tests_cant": "universally quantified functional specification", "anchors": ["enclave-bridge/src/lib.rs: touch_shard"]}
{"id": "C17", "title": "Purge removes exactly the subject", "statement": "`purge_enclave_from_shard_status` is root-only, fails without effect if the shard has no status, and otherwise removes the subject's entry and nothing else, keeping the order; it never panics.", "quantifier": "all statuses and subjects", "why_tests_cant": "universally quantified", "anchors": ["enclave-bridge/src/lib.rs: purge_enclave_from_shard_status"]}
{"id": "C18", "title": "Most recent shard update is a maximum", "statement": "`most_recent_shard_update` returns nothing exactly when no enclave is listed, and otherwise an entry of the status with the largest last-activity, the latest-listed one among equals.", "quantifier": "all statuses", "why_tests_cant": "sorting correctness on all inputs", "anchors": ["enclave-bridge/src/lib.rs: most_recent_shard_update"]}
{"id": "C19", "title": "publish_hash is limited, attributable and moves no funds", "statement": "An accepted `publish_hash` was signed by a registered sovereign enclave, carries at most 5 extra topics and 100 data bytes, emits exactly one event whose topics are the extra topics followed by the enclave's fingerprint, and changes no balance and no configuration. It does not check who is in force for the shard named by the fingerprint: an enclave that was upgraded away still enters and occupies that shard's status.", "quantifier": "all inputs and states; the last part as a reachable history", "why_tests_cant": "length limits and frame conditions over all inputs", "anchors": ["enclave-bridge/src/lib.rs: publish_hash, touch_shard, TOPICS_LIMIT, DATA_LENGTH_LIMIT"]}
{"id": "C20", "title": "Maintenance mode, instance limit and authorities are not enforced on L1", "statement": "Changing maintenance_mode, max_instances or authorities in a shard's stored configuration changes neither the acceptance nor the effect of any enclave call (the configuration fields are carried, never consulted).", "quantifier": "all calls, all states, all values of the three fields", "why_tests_cant": "an independence (non-interference) property quantifies over pairs of states", "anchors": ["primitives/enclave-bridge/src/lib.rs: ShardConfig", "enclave-bridge/src/lib.rs: get_sovereign_enclave_and_touch_shard"]}
{"id": "C21", "title": "Finalised sidechain block numbers strictly increase", "statement": "Along any history the sequence of FinalizedSidechainBlock events of one shard has strictly increasing block numbers, and the stored latest confirmation is the last of them.", "quantifier": "all histories and shards", "why_tests_cant": "history property", "anchors": ["sidechain/src/lib.rs: confirm_imported_sidechain_block, finalize_block"]}
{"id": "C22", "title": "Every finalisation extends the previous one", "statement": "A finalisation after the first is accepted only if the submitter named exactly the number and hash of the shard's previous finalisation as ancestor; finalisations of one shard never affect another shard's.", "quantifier": "all histories", "why_tests_cant": "history property", "anchors": ["sidechain/src/lib.rs: confirm_imported_sidechain_block"]}
{"id": "C23", "title": "Only the first-listed enclave finalises, and confirming never panics", "statement": "A finalisation is always signed by the first signer of the shard's status; a confirmation by any other authorised enclave succeeds but only refreshes its activity. No input makes the call panic.", "quantifier": "all states, callers, inputs", "why_tests_cant": "indexing safety depends on an invariant of another pallet", "anchors": ["sidechain/src/lib.rs: confirm_imported_sidechain_block", "enclave-bridge/src/lib.rs: touch_shard"]}
{"id": "C24", "title": "Finalisation can stall forever after an upgrade", "statement": "The first-listed signer of a shard stays first along every history without a purge of that signer. Hence as long as the first signer is not a registered enclave of the fingerprint in force (or sends no transaction), no sidechain block of that shard is finalised by any history without such a purge, whatever the other signers confirm - a liveness property users would expect is false; a purge by root restores it.", "quantifier": "all histories without purge of the first signer", "why_tests_cant": "liveness over unbounded futures", "anchors": ["sidechain/src/lib.rs: confirm_imported_sidechain_block", "enclave-bridge/src/lib.rs: touch_shard, purge_enclave_from_shard_status"]}
{"id": "C25", "title": "Only whitelisted, registered enclaves write oracle data", "statement": "If a call changes an exchange rate or oracle blob of a data source, it was `update_exchange_rate`/`update_oracle` for that source, signed by a registered sovereign enclave whose fingerprint was on that source's whitelist; only the addressed pair/name of that source changes.", "quantifier": "all calls of all pallets, all origins", "why_tests_cant": "frame property over every call", "anchors": ["teeracle/src/lib.rs: update_exchange_rate, update_oracle, is_whitelisted"]}
{"id": "C26", "title": "Whitelists are bounded, duplicate-free and root-controlled", "statement": "In every reachable state each source's whitelist has at most MaxWhitelistedReleases entries and no duplicates; only root changes it; removing a fingerprint removes exactly that one and that enclave can no longer write to the source.", "quantifier": "all histories", "why_tests_cant": "invariant over histories", "anchors": ["teeracle/src/lib.rs: add_to_whitelist, remove_from_whitelist"]}
{"id": "C27", "title": "Stored rates are non-zero and all stored keys respect the length limits", "statement": "In every reachable state no stored exchange rate is zero, every stored trading pair has at most 11 bytes, every oracle name at most 40, every data source (of rates, blobs and whitelists) at most 40 although update_exchange_rate never checks it, and every blob at most MaxOracleBlobLen; submitting none or zero deletes the rate.", "quantifier": "all histories", "why_tests_cant": "the source length bound is enforced only indirectly, through the whitelist invariant", "anchors": ["teeracle/src/lib.rs: update_exchange_rate, update_oracle, MAX_TRADING_PAIR_LEN, MAX_SOURCE_LEN"]}
{"id": "C28", "title": "A sovereign registration belongs to the attested key", "statement": "In every reachable state every sovereign enclave stored under account A is not proxied and its attested public key (the lower 32 bytes of its report data) is A.", "quantifier": "all histories, all proofs, all attestation methods", "why_tests_cant": "the claim covers every byte string offered as proof", "anchors": ["teerex/src/lib.rs: register_sgx_enclave, add_enclave", "primitives/teerex/src/lib.rs: SgxEnclave::maybe_pubkey, with_pubkey"]}
{"id": "C29", "title": "Proxied registrations are filed under their own content and registrar", "statement": "Every proxied enclave is stored under (its MRENCLAVE, the account that signed the registration, its report data); an account can create or overwrite only entries with itself as registrar, and sovereign entries only under itself.", "quantifier": "all histories, all calls", "why_tests_cant": "frame property over every call", "anchors": ["teerex/src/lib.rs: add_enclave", "primitives/teerex/src/lib.rs: MultiEnclave::instance_signer, EnclaveInstanceAddress", "primitives/common/src/lib.rs: AnySigner"]}
{"id": "C30", "title": "Debug enclaves and skipped attestation need the security flags", "statement": "A registration that skips attestation succeeds only while skipping is allowed, and an enclave attested in debug mode is accepted only while debug mode is allowed; only root changes the flags.", "quantifier": "all states, proofs, histories", "why_tests_cant": "must hold for all proofs", "anchors": ["teerex/src/lib.rs: register_sgx_enclave, set_security_flags", "teerex/sgx-verify/src/lib.rs: sgx_build_mode"]}
{"id": "C31", "title": "Active enclaves cannot be unregistered by anyone", "statement": "An enclave whose attestation timestamp is not older than MaxAttestationRenewalPeriod survives every call: along any history up to time (timestamp + MaxAttestationRenewalPeriod), the entry is still there or has been replaced by its own account's newer registration; afterwards anyone can remove it.", "quantifier": "all histories and times", "why_tests_cant": "persistence along all histories", "anchors": ["teerex/src/lib.rs: unregister_sovereign_enclave, unregister_proxied_enclave"]}
{"id": "C32", "title": "Attestation timestamps are fresh for IAS, but replayable for DCAP", "statement": "An accepted IAS registration carries a report timestamp in (now - 24h, now]. Stored timestamps never lie in the future. For DCAP the timestamp is the registration time: the very same quote is accepted again at any later time at which certificates and TCB check out and yields a fresh timestamp, so a quote's age is unbounded.", "quantifier": "all proofs, times", "why_tests_cant": "freshness quantifies over time and proofs", "anchors": ["teerex/src/lib.rs: ensure_timestamp_within_24_hours, register_sgx_enclave", "teerex/sgx-verify/src/lib.rs: verify_dcap_quote"]}
{"id": "C33", "title": "DCAP registration uses collateral regardless of its expiry", "statement": "Collateral is stored only while issue_date < now < next_update. But a DCAP registration is accepted or rejected independently of issue_date and next_update of the stored quoting-enclave identity and TCB info (expired collateral keeps being used), and registering older still-valid collateral replaces newer collateral.", "quantifier": "all states differing only in those dates; reachable histories", "why_tests_cant": "independence property, and ordering of two documents", "anchors": ["teerex/src/lib.rs: verify_quoting_enclave, verify_tcb_info, register_sgx_enclave", "teerex/sgx-verify/src/collateral.rs: EnclaveIdentity::is_valid, TcbInfo::is_valid"]}
{"id": "C34", "title": "The recorded TCB status is that of the first matching level, and matching is monotone", "statement": "A DCAP registration is accepted only if some stored level of the platform's FMSPC has every one of the 16 CPU SVN components and the PCE SVN at or below the platform's; the recorded status is that of the first such level; a platform with all SVNs at least as high matches an earlier or the same level.", "quantifier": "all level lists, all SVN vectors", "why_tests_cant": "order-theoretic property over all vectors", "anchors": ["primitives/teerex/src/lib.rs: TcbVersionStatus::verify_examinee, SgxTcbInfoOnChain::verify_examinee, SgxStatus"]}
{"id": "C35", "title": "An accepted DCAP quote is authenticated end to end", "statement": "If verify_dcap_quote accepts bytes q, then: q is exactly header(48) ++ report body(384) ++ length(4) ++ signature data with nothing trailing; the returned MRENCLAVE, MRSIGNER, report data and build mode are the bytes of that body; header ++ body is signed under the attestation key contained in q; SHA-256(attestation key ++ the 32 bytes at the authentication-data position) equals the first 32 bytes of the QE report's report data; the QE report is signed by the leaf certificate; the leaf chains to the pinned root at the verification time; the QE report matches the registered quoting enclave; FMSPC and SVNs come from that leaf. Authentication data beyond the first 32 bytes is bound by nothing: it can be replaced without the quote being rejected.", "quantifier": "all byte strings, all crypto oracles", "why_tests_cant": "soundness over all byte strings", "anchors": ["teerex/sgx-verify/src/lib.rs: verify_dcap_quote, DcapQuote, EcdsaQuoteSignature, QeAuthenticationData, QeCertificationData"]}
{"id": "C36", "title": "No byte string makes DCAP or IAS verification panic", "statement": "verify_dcap_quote and verify_ias_report return Ok or Err for every byte string and every behaviour of the crypto libraries (the fixed-size slices are always in range, by a margin of one byte). The helper extract_tcb_info_from_raw_dcap_quote does panic: a decodable quote whose certification data contains no certificate.", "quantifier": "all byte strings", "why_tests_cant": "fuzzing samples; the bound is an arithmetic fact about every input", "anchors": ["teerex/sgx-verify/src/lib.rs: verify_dcap_quote, extract_certs, extract_tcb_info_from_raw_dcap_quote, verify_ias_report"]}
{"id": "C37", "title": "Quoting-enclave levels of every status are trusted", "statement": "The stored quoting enclave accepts a QE report iff product id, MRSIGNER, masked MISCSELECT agree, the report's attribute flags under the mask equal the stored flags (which are not masked, so stored flags outside the mask reject every report), and its ISVSVN reaches the smallest ISVSVN of all levels in the identity document - including OutOfDate and Revoked levels, contrary to the documented 'only UpToDate' - and an unset quoting enclave rejects every report. The check that everything older than version 6 is outdated is called nowhere: older quoting enclaves are refused if the document lists no older level; one is accepted where it does.", "quantifier": "all identity documents and reports", "why_tests_cant": "universally quantified; the revoked level is never in test data", "anchors": ["teerex/sgx-verify/src/collateral.rs: EnclaveIdentity::to_quoting_enclave, Tcb::is_valid", "teerex/sgx-verify/src/lib.rs: SgxReportBody::verify", "primitives/teerex/src/lib.rs: SgxQuotingEnclave"]}
{"id": "C38", "title": "Collateral registration panics exactly on unrepresentable dates", "statement": "register_quoting_enclave and register_tcb_info panic only if the clock exceeds the signed 64-bit range or an authentically signed, currently valid document has a negative issue date; otherwise they return Ok or Err; a document is stored exactly if it is authentically signed and in force, and what is stored is the content of all its fields; only such a document changes the collateral, and only the one of its own FMSPC.", "quantifier": "all inputs and clocks", "why_tests_cant": "panic freedom over all inputs", "anchors": ["teerex/src/lib.rs: verify_quoting_enclave, verify_tcb_info", "teerex/sgx-verify/src/collateral.rs: to_quoting_enclave, to_chain_tcb_info"]}
{"id": "C39", "title": "DER signature encoding never fails and is faithful", "statement": "For every 64-byte input encode_as_der succeeds within its 72-byte buffer, and the output is the minimal DER SEQUENCE of the two INTEGERs whose values are the two big-endian halves (so decoding it gives the same pair, and two inputs have the same output only if equal); every other length is rejected.", "quantifier": "all byte strings", "why_tests_cant": "all 2^512 inputs", "anchors": ["teerex/sgx-verify/src/lib.rs: encode_as_der"]}
{"id": "C40", "title": "DER lengths are read correctly except for the one-byte long form", "statement": "length_from_raw_data never panics; it returns the encoded length and moves the offset to the last length byte for every short-form length (< 128) and for every two-byte long form (0x82); for a one-byte long form (0x81) it misreads the length by including the first content byte.", "quantifier": "all byte strings, offsets, lengths", "why_tests_cant": "three encodings x all lengths", "anchors": ["teerex/sgx-verify/src/utils.rs: length_from_raw_data"]}
{"id": "C41", "title": "Platform identifiers are read from the Intel extension at their place", "statement": "On an extension containing DER-encoded FMSPC, CPUSVN and PCESVN entries whose OIDs do not occur earlier, extraction returns exactly these values, for every PCESVN below 2^15; a DER-encoded PCESVN of 2^15 or more is rejected. Extraction never panics. Extraction succeeds exactly if exactly one extension has Intel's identifier and the three values stand in it after the first occurrence of their identifiers.", "quantifier": "all extension contents and values", "why_tests_cant": "all values and contexts", "anchors": ["teerex/sgx-verify/src/lib.rs: get_fmspc, get_cpusvn, get_pcesvn, get_intel_extension, extract_tcb_info"]}
{"id": "C42", "title": "Storage migrations", "statement": "Running V0toV1 then V1toV2 from on-chain version 0 leaves version 2, no v0 data, no TCB info, and the debug flag equal to the v0 flag; from version 1 it only clears TCB info; from version >= 2 nothing changes; running the pair again changes nothing. Running V1toV2 alone on version 0 makes V0toV1 skip forever, leaving v0 data and losing the flag.", "quantifier": "all pre-states and versions", "why_tests_cant": "all pre-states, repeated runs", "anchors": ["teerex/src/migrations.rs: MigrateV0toV1, MigrateV1toV2"]}
{"id": "C43", "title": "Claims are paid at most once and never exceed the pot", "statement": "In every reachable state the stored total is at least the sum of all open claims, so no claim fails for lack of funds in the pot; each successful claim lowers the total by exactly its amount and removes the claim, so the sum of all payouts never exceeds genesis claims plus minted claims. Equality of total and open claims is false: re-minting for, or moving onto, an address with an open claim loses that claim from the sum but not from the total.", "quantifier": "all histories, all genesis lists (as long as the balance type does not overflow)", "why_tests_cant": "conservation over histories", "anchors": ["claims/src/lib.rs: process_claim, mint_claim, move_claim, GenesisConfig::build, Total"]}
{"id": "C44", "title": "A claim pays the account the Ethereum key signed for", "statement": "A payout by claim/claim_attest goes to an account only under a signature that recovers to the claim's Ethereum address over the message naming exactly that account (and statement); attest pays only an account pre-registered for that address. The destination's free balance grows by exactly the claim, except that a claim below the existential deposit to a non-existing account is consumed and pays nothing.", "quantifier": "all calls, signatures, states", "why_tests_cant": "all inputs; existential-deposit edge", "anchors": ["claims/src/lib.rs: claim, claim_attest, attest, process_claim, eth_recover"]}
{"id": "C45", "title": "A required statement cannot be bypassed", "statement": "A claim with a required statement is paid only by a call containing exactly that statement's text, via claim_attest with the text covered by the signature, or via attest by the pre-registered account; plain claim never pays it.", "quantifier": "all calls and states", "why_tests_cant": "all inputs", "anchors": ["claims/src/lib.rs: claim, claim_attest, attest, Signing", "primitives/claims/src/lib.rs: StatementKind::to_text"]}
{"id": "C46", "title": "Pool validation of unsigned claims is sound", "statement": "If validate_unsigned accepts a call then dispatching it in the same state does not fail with a signature, missing-claim, statement or pot error: it succeeds unless the destination already has a vesting balance (or the vesting pallet rejects the stored schedule, which panics). Two calls accepted with different provides-tags concern different Ethereum addresses. The converse fails: claim_attest with any text dispatches for a claim without required statement but is rejected by validation.", "quantifier": "all calls in all reachable states", "why_tests_cant": "relation between two code paths over all states", "anchors": ["claims/src/lib.rs: validate_unsigned, claim, claim_attest, process_claim"]}
{"id": "C47", "title": "Free attest calls are not fully prevalidated", "statement": "A fee-less attest call accepted by PrevalidateAttests should be able to succeed. False: after the preclaimed address was claimed through its Ethereum signature, the preclaim remains and every attest by that account passes prevalidation and then fails, for free and arbitrarily often.", "quantifier": "reachable history, all continuations by that account without new mint", "why_tests_cant": "needs claim and attest paths composed", "anchors": ["claims/src/lib.rs: PrevalidateAttests::validate, attest, Preclaims"]}
{"id": "C48", "title": "A claim with a zero-rate vesting schedule panics the runtime", "statement": "process_claim panics exactly when the stored schedule has a non-zero locked amount and zero per-block release (or the vesting pallet has no room); mint_claim and genesis accept such schedules, so a panicking claim that passes pool validation is reachable.", "quantifier": "all states; reachable history", "why_tests_cant": "the test schedules are all valid", "anchors": ["claims/src/lib.rs: process_claim, mint_claim"]}
{"id": "C49", "title": "Moving a claim moves amount, vesting and statement together", "statement": "move_claim(old,new) with authorised origin makes new hold old's claim (if old had one), vesting and statement (each if present), leaves old with none (unless old = new), touches no third address and changes neither the total nor any balance; stale vesting or statement of new survive if old has none.", "quantifier": "all states and addresses", "why_tests_cant": "frame property", "anchors": ["claims/src/lib.rs: move_claim"]}
{"id": "C50", "title": "Signed messages are unambiguous", "statement": "The message that the Ethereum key signs determines destination account and statement: for accounts of equal encoding length two messages are equal only if both agree; the embedded decimal number is the exact canonical length of what follows; hex encoding is injective and doubles the length.", "quantifier": "all byte strings", "why_tests_cant": "injectivity over all inputs", "anchors": ["claims/src/lib.rs: ethereum_signable_message, to_ascii_hex"]}
{"id": "C51", "title": "Ethereum addresses survive text serialisation", "statement": "Serialising any 20-byte address and parsing the result gives the same address; upper and lower case letters read alike and nothing else reads as that address; strings of wrong length or with non-hex characters are rejected, with or without 0x prefix; but 40-character strings containing white space that the hex library skips make the parser panic.", "quantifier": "all addresses and strings", "why_tests_cant": "round trip over 2^160 values", "anchors": ["primitives/claims/src/lib.rs: EthereumAddress::serialize, deserialize"]}
{"id": "C52", "title": "Asset id and location maps agree in one direction only", "statement": "In every reachable state get_asset_id(L) = a implies get_asset_location(a) = L, and every registered location is valid. The converse is false: two ids can register the same location, the second takes over the reverse lookup, and unregistering either one makes the location unresolvable while the other id is still registered. If no id is ever registered for a location that is in use at that time, the maps are mutually inverse.", "quantifier": "all histories", "why_tests_cant": "invariant plus adversarial history", "anchors": ["asset-registry/src/lib.rs: register_reserve_asset, unregister_reserve_asset, valid_asset_location"]}
{"id": "C53", "title": "Registration accepts exactly the documented location shapes", "statement": "register_reserve_asset accepts a location iff its last junction is AccountId32, AccountKey20, PalletInstance or Parachain, or it has no junctions, or it ends in PalletInstance, GeneralIndex; only the configured origin succeeds; a failing call changes nothing.", "quantifier": "all locations", "why_tests_cant": "all junction lists", "anchors": ["asset-registry/src/lib.rs: valid_asset_location"]}
{"id": "C54", "title": "Dropped assets: what is trapped and what is lost", "statement": "drop_assets hands the trap exactly the fungible holdings with amount at least the minimum balance whose location is registered, or is unregistered and the native one; amounts are unchanged; of a registered asset that the assets pallet does not know (any more) every amount is trapped; all non-fungibles are lost; the weight is default + one fungible weight per registered and one native weight per unregistered fungible + the trap's weight, saturating.", "quantifier": "all holdings and registries", "why_tests_cant": "all maps", "anchors": ["primitives/xcm/src/lib.rs: IntegriteeDropAssets::drop_assets"]}
{"id": "C55", "title": "Fungible matching agrees with the registry", "statement": "matches_fungibles succeeds exactly for fungible assets whose location the registry resolves and whose amount converts, and returns that id and amount.", "quantifier": "all assets and registries", "why_tests_cant": "all inputs", "anchors": ["primitives/xcm/src/lib.rs: ConvertedRegisteredAssetId::matches_fungibles, AsAssetLocation"]}
{"id": "C56", "title": "Slot swap messages", "statement": "send_swap_ump sends at most one message, and only if the origin is authorised and {self,other} = {Shell id, Integritee id} with distinct members; the Transact payload is [70, 3] followed by the two 32-bit little-endian ids in call order (distinct requests give distinct payloads); a failed send leaves no event.", "quantifier": "all origins, ids, weights, fees, router behaviours", "why_tests_cant": "all inputs; the pallet's tests are disabled", "anchors": ["xcm-transactor/src/lib.rs: send_swap_ump", "primitives/xcm-transactor/src/lib.rs: RelayCallBuilder::swap_call, construct_transact_xcm, RegistrarCall"]}
{"id": "C57", "title": "Failing calls have no effect", "statement": "Whenever a call of any of the pallets returns an error or panics, no storage item, balance, lock, event or outgoing message changes. All bodies but four (confirm_processed_parentchain_block, unshield_funds, publish_hash, confirm_imported_sidechain_block) return their errors before the first write; those four rely on the storage rollback of the dispatcher.", "quantifier": "all calls, origins, states", "why_tests_cant": "all error paths of all calls (several calls write before they check)", "anchors": ["enclave-bridge/src/lib.rs: get_sovereign_enclave_and_touch_shard, publish_hash", "teerdays/src/lib.rs: unbond", "claims/src/lib.rs: process_claim"]}
{"id": "C58", "title": "Pallets do not write each other's storage", "statement": "A call of one pallet changes only that pallet's own storage, the balances/locks/vesting it is documented to change, and the event log.", "quantifier": "all calls, origins, states", "why_tests_cant": "frame property over all calls", "anchors": ["*/src/lib.rs: #[pallet::call] impls"]}
{"id": "C59", "title": "TEERdays-bonded tokens cannot be shielded away", "statement": "No call of these pallets brings an account's free balance below its TEERdays lock if it was above it before; in particular an account can never shield or transfer bonded tokens.", "quantifier": "all histories", "why_tests_cant": "crosses two pallets through the lock", "anchors": ["enclave-bridge/src/lib.rs: shield_funds", "teerdays/src/lib.rs: bond"]}
{"id": "C60", "title": "Accumulated amounts stay within their types", "statement": "In every reachable state from a well-formed genesis, bonded values, pending amounts and token-times are within the balance type, and no TEERdays or bridge call panics as long as now + UnlockPeriod and the confirmation counters are within 64 bits.", "quantifier": "all histories", "why_tests_cant": "overflow freedom over histories", "anchors": ["teerdays/src/lib.rs: unbond", "enclave-bridge/src/lib.rs: unshield_funds"]}
{"id": "C61", "title": "Token-time accrues on tokens that are no longer locked", "statement": "Expected: as long as an account has a bond, its tokens are locked. False: unbonding everything, bonding again during the unlock period and withdrawing leaves a bond without any lock; the account keeps accruing token-time on it although all its tokens are spendable, even after they are gone.", "quantifier": "existential counterexample history", "why_tests_cant": "needs a four-call history across an unlock period", "anchors": ["teerdays/src/lib.rs: bond, unbond, withdraw_unbonded, try_withdraw_unbonded"]}
{"id": "C62", "title": "Every event is attributable to a call", "statement": "The event log only grows, and each event in it was emitted by an operation of the history whose kind, origin and arguments fit the event: bond, registration, confirmation, oracle, claim and asset events name the signer that sent the call; purge, whitelist and security-flag events require the root origin.", "quantifier": "all histories, all events", "why_tests_cant": "tests look at the last event of one call; the claim is that no other call emits it", "anchors": ["*/src/lib.rs: Self::deposit_event"]}
{"id": "C63", "title": "PEM certificate chains are read entry by entry", "statement": "extract_certs applied to a file of PEM entries (with line breaks anywhere in the base64 text and any number of newlines between entries) yields exactly the decoded certificates in order. Entries that are empty or not base64 are skipped silently, and the following ones move up. Text outside the markers is not ignored: a comment line becomes part of the next certificate.", "quantifier": "all files of entries without dashes in their text, all base64 decoders", "why_tests_cant": "unbounded strings; the tests use three well-formed files", "anchors": ["teerex/sgx-verify/src/lib.rs: extract_certs, PemFile"]}
{"id": "C64", "title": "A claim with vesting locks its schedule and nothing else", "statement": "A successful claim with a vesting schedule puts the vesting lock of exactly the unvested part on the destination; along every later history in which nobody adds a vesting schedule or lock for that account, the lock is at least the part of the schedule still unvested. The claim freezes at most what it pays if the schedule is not larger than the claim. False in general: a schedule larger than the claim freezes funds the destination owned before, and anybody can submit the claim.", "quantifier": "all states, claims and histories", "why_tests_cant": "locks and balances interact over time; the tests check one schedule at one block", "anchors": ["claims/src/lib.rs: process_claim, mint_claim"]}
{"id": "C65", "title": "Swap messages address assets as the sender sees them", "statement": "Expected: the fee asset and the beneficiary in the slot swap message denote, for the relay chain which interprets them, the relay chain's asset and the sending parachain. False for every parameter: written relative to the parachain they denote these, read by the relay chain they denote neither.", "quantifier": "all ids, weights and fees", "why_tests_cant": "needs the interpretation of relative locations on two chains; the pallet's tests are disabled", "anchors": ["primitives/xcm-transactor/src/lib.rs: construct_transact_xcm", "xcm-transactor/src/lib.rs: send_swap_ump"]}
{"id": "C66", "title": "An IAS report is accepted exactly if genuine", "statement": "verify_ias_report accepts a certificate exactly if its Netscape comment extension (first occurrence of the object identifier) splits into report, signature and signing certificate, the signing certificate chains up to the pinned root at the fixed instant 1573419050, the signature is valid over the report, and the report and quote body decode to the returned measurement, signer, report data, build mode, status and timestamp.", "quantifier": "all byte strings, all behaviours of the crypto libraries", "why_tests_cant": "both directions over all inputs", "anchors": ["teerex/sgx-verify/src/lib.rs: verify_ias_report, parse_report, verify_signature, verify_server_cert", "teerex/sgx-verify/src/netscape_comment.rs: NetscapeComment::try_from"]}
{"id": "C67", "title": "A registration stores exactly what was attested", "statement": "register_sgx_enclave succeeds exactly if the attestation is genuine (C66, C35), fresh enough (IAS) or on a listed TCB level (DCAP), of the caller's key (unless proxied), and debug mode and skipping are allowed where used; the new state differs only by the one enclave entry, which is the attested content, and one event.", "quantifier": "all origins, proofs, urls, states (DCAP: reachable states)", "why_tests_cant": "equivalence over all inputs and the whole resulting state", "anchors": ["teerex/src/lib.rs: register_sgx_enclave, add_enclave, verify_report, verify_dcap_quote, get_tcb_info"]}
{"id": "C68", "title": "Which calls are accepted, exactly", "statement": "For every call of teerdays, enclave-bridge, sidechain, teeracle and claims and for the removal and administrative calls of teerex and the asset registry: the call succeeds if and only if a stated condition on origin, arguments, stored entries and balances holds (in reachable states for enclave-bridge and sidechain).", "quantifier": "all origins, arguments and states", "why_tests_cant": "tests try single accepted and rejected cases; nothing shows that no other input is accepted or that a documented one is never rejected", "anchors": ["*/src/lib.rs: #[pallet::call] impls"]}
{"id": "C69", "title": "What accepted calls do, exactly", "statement": "For every call of teerdays, enclave-bridge, sidechain, teeracle, claims, asset-registry and xcm-transactor and the removal and flag calls of teerex: whenever it succeeds, the resulting state is determined by a stated pointwise description (which map entry becomes what, which lock becomes what, which balances change by how much, the exact list of new events), and everything else is unchanged. (Registrations in teerex: C67, C38.)", "quantifier": "all origins, arguments and states", "why_tests_cant": "tests look at the one storage item they expect to change; nothing shows the values for all inputs and that nothing else changes", "anchors": ["*/src/lib.rs: #[pallet::call] impls"]}
{"id": "C70", "title": "Which error a refused call returns, exactly", "statement": "For every call of every pallet the answer (success, the particular error, or a panic) is that of the first unmet demand in a stated, ordered list of demands on origin, arguments and state; if all are met the call succeeds. For enclave registrations and collateral the list goes down to the bytes: which field, length, certificate or signature of the proof is at fault.", "quantifier": "all origins, arguments and states (reachable ones for enclave-bridge, sidechain and teerex)", "why_tests_cant": "tests check single wrong inputs with one fault; the order of checks and absence of other answers need all inputs", "anchors": ["*/src/lib.rs: #[pallet::call] impls, #[pallet::error]", "teerex/sgx-verify/src/lib.rs: verify_ias_report, verify_dcap_quote, extract_tcb_info"]}
{"id": "C71", "title": "The checks shipped with the migrations accept exactly what they should", "statement": "The try-runtime checks around the first migration accept a resulting state exactly if the version did not rise or is 1 with the old counter cleared and the debug flag carried over; they accept every run of the first migration; those of the second pass exactly from version 1; in sequence both pass exactly on chains below version 2. Two natural readings are refuted: the checks refuse a chain on which the upgrade is a no-op, and they do not notice enclaves left in the old registry.", "quantifier": "all migration states (version u16, counter u64), all resulting states", "why_tests_cant": "try-runtime runs the checks on one chain state; what they miss is not visible there", "anchors": ["teerex/src/migrations.rs: pre_upgrade, post_upgrade"]}
{"id": "C72", "title": "Which calls are free", "statement": "A signed call costs its sender no fee exactly if it is a purge, an attestation, or a successful move of a claim; of these only the payout of the sender's own pre-claimed claim and a move by the configured origin change anything. Refuted: failing calls cost a fee (a purge by any account is admitted, fails and is free). Publishing a hash is charged with topic count and data length exchanged: it is undercharged exactly if there are more topics than bytes of data.", "quantifier": "all senders, calls, states, storage prices up to 10^12", "why_tests_cant": "fees and weights are not looked at by any test in the repository", "anchors": ["enclave-bridge/src/lib.rs: weight of publish_hash, purge_enclave_from_shard_status", "enclave-bridge/src/weights.rs, benchmarking.rs: publish_hash", "claims/src/lib.rs: attest, move_claim, PrevalidateAttests"]}
{"id": "C73", "title": "Declared storage writes cover what calls change", "statement": "A successful call changes only storage entries from an explicit list determined by the call, its sender and the state. For all calls with a weight in the repository except confirm_processed_parentchain_block, shield_funds, unshield_funds, set_security_flags and a sidechain confirmation that enacts a due upgrade, the number of entries is at most the number of writes the declared weight pays for; for those it is refuted with reachable witnesses.", "quantifier": "all origins, arguments and states", "why_tests_cant": "benchmarks measure single runs; some weights are placeholders that no test compares with the code", "anchors": ["*/src/weights.rs", "*/src/lib.rs: #[pallet::weight]"]}
{"id": "C74", "title": "The unused helpers of sgx-verify read what they say", "statement": "The key read from an enclave certificate is exactly the content, minus its first two bytes, of the length-prefixed field after the first occurrence of the prime256v1 identifier. Refuted: that it is a 64-byte uncompressed point. extract_tcb_info_from_raw_dcap_quote gives, for every byte string, the answer of the first unmet demand in a stated list, agrees with the full verification wherever that accepts, and depends on no signature, hash or certificate path. Refuted: that its result is authentic. A key made a signer or report data is read back; the signer of 64 bytes is that of a 32-byte key exactly if the upper half is zero.", "quantifier": "all byte strings, all behaviours of the crypto libraries", "why_tests_cant": "the key reader has no test; the helper is tested on one genuine quote", "anchors": ["teerex/sgx-verify/src/ephemeral_key.rs: EphemeralKey::try_from", "teerex/sgx-verify/src/lib.rs: extract_tcb_info_from_raw_dcap_quote"]}
{"id": "C75", "title": "Collateral and report documents are read as they say", "statement": "The JSON document of an enclave identity or TCB info is read exactly if each field of the declared type occurs once (or the document is an array in declaration order) with a value of its type: strings, integers within their width, hexadecimal strings of the exact length without escapes, readable dates, listed status names, 16 components; the values read are the ones written, whatever the order and whatever other fields there are. What the two registration calls store is what the document says. Of an IAS report the last entry of a name counts. A level with an unlisted status makes the whole document unreadable. Refuted: every status of Intel's interface is read (ConfigurationNeeded is not). PCE id, TCB type and evaluation number have no influence.", "quantifier": "all JSON documents, all date parsers", "why_tests_cant": "the derived readers have no specification in the code; tests use three genuine documents", "anchors": ["teerex/sgx-verify/src/collateral.rs: EnclaveIdentity, TcbInfo, TcbLevel, TcbLevelFull, TcbComponent, deserialize_from_hex, serialize_to_hex", "teerex/sgx-verify/src/lib.rs: deserialize_enclave_identity, deserialize_tcb_info, parse_report", "primitives/teerex/src/lib.rs: TcbStatus"]}
{"id": "C76", "title": "Every enclave and every payout traces back to evidence", "statement": "In every history from genesis: the stored quoting-enclave identity and TCB levels are the content of the last accepted document, authentic and in force when sent; the security flags are those of the last call of root or of genesis; every sovereign (proxied) enclave in the registry was filed by its own account (registrar) in an accepted call with the evidence its method asks for - a genuine, fresh IAS report; a quote genuine under the collateral documented at that time; or skipping allowed by root or genesis - and neither replaced nor removed since. Hence every accepted call reserved to enclaves traces back to such evidence, and on a chain that never allows skipping, funds leave a vault only on behalf of a key in a genuine report or quote of the measurement in force for the shard.", "quantifier": "all genesis states and histories, all behaviours of the crypto libraries", "why_tests_cant": "a statement about whole histories across three pallets; tests set up the registry directly", "anchors": ["teerex/src/lib.rs: register_sgx_enclave, register_quoting_enclave, register_tcb_info, set_security_flags, unregister_*", "enclave-bridge/src/lib.rs: unshield_funds, get_sovereign_enclave_and_touch_shard", "sidechain/src/lib.rs: confirm_imported_sidechain_block", "teeracle/src/lib.rs: update_oracle, update_exchange_rate"]}
{"id": "C77", "title": "After registration only the measurement counts", "statement": "Two chains whose states agree in everything but what the registry says of its enclaves beyond account and measurement (report data, signer, time stamp, url, build mode, method, status; proxied enclaves, collateral, flags) accept the same calls of all pallets other than teerex and stay in agreement along every history without teerex calls. Hence refuted: that an enclave loses its powers when its attestation has expired, when root forbids the mode it was registered in, or because of its recorded status.", "quantifier": "all states, calls and histories", "why_tests_cant": "non-interference between two runs; tests never let an attestation expire before using it", "anchors": ["teerex/src/lib.rs: get_sovereign_enclave", "enclave-bridge/src/lib.rs: get_sovereign_enclave_and_touch_shard, publish_hash, update_shard_config", "teeracle/src/lib.rs: update_oracle, update_exchange_rate"]}
{"id": "C78", "title": "Bonded tokens can always be taken out again, and nobody else can delay it", "statement": "In every reachable state an account with a bond and no pending unlock can unbond it in full; whatever others do meanwhile, the unlock stays due exactly UnlockPeriod after the unbond, and from then on withdraw_unbonded succeeds and leaves no TEERdays lock, bond or pending unlock on the account. More generally, from every reachable state an account with a positive balance can free itself of its TEERdays lock - including dust that an earlier unbond left locked - by own calls and waiting, keeping its balance; without other locks the whole balance is then spendable, and it includes the bond if nobody bonded during an unlock.", "quantifier": "all configurations, genesis states, histories, accounts, all calls of others in between", "why_tests_cant": "a liveness claim over all continuations by other parties; tests try one continuation", "anchors": ["teerdays/src/lib.rs:229-334", "primitives/teerdays/src/lib.rs:19-24"]}
{"id": "C79", "title": "Overflow checks change nothing but panics", "statement": "A build with overflow checks and one without (release wasm) behave identically on every call that does not panic in the checked build, hence along every history without such a panic; they differ only where now + UnlockPeriod leaves u64, an unshield counter leaves u64, or the claims total leaves the balance type.", "quantifier": "all configurations, origins, calls, states, histories", "why_tests_cant": "two builds have to be compared on all inputs; the overflowing inputs are out of reach of tests", "anchors": ["teerdays/src/lib.rs:261", "enclave-bridge/src/lib.rs:265", "claims/src/lib.rs:248-266"]}
{"id": "C80", "title": "Storage entries never overlap and are read back as written", "statement": "No raw storage key of any item of any pallet equals or extends another one, even if Blake2_128 collides; what is written to an entry is read back, removing an entry makes it read as its default, other entries are untouched, clearing an item removes all its entries and no others. Every state of the model whose values are within their Rust types has a store that holds it, updates keep store and model in step, and a store determines the state.", "quantifier": "all layouts with distinct pallet name hashes and 16-byte Blake2_128, all keys, values, stores and states", "why_tests_cant": "collisions of keys and ambiguous concatenations in double maps are properties of all pairs of keys", "anchors": ["teerex/src/lib.rs:224-266", "teerex/src/migrations.rs:5-46", "enclave-bridge/src/lib.rs:129-151", "sidechain/src/lib.rs:83-86", "teeracle/src/lib.rs:70-104", "teerdays/src/lib.rs:155-166", "claims/src/lib.rs:117-140", "asset-registry/src/lib.rs:69-73"]}
{"id": "C81", "title": "Stored values and calls have unambiguous encodings", "statement": "Every stored type and every call of all pallets decodes from its encoding whatever follows, has exactly one encoding (other forms of compact numbers are refused), and two encodings never start with each other. The places where the code encodes or decodes itself agree: the vault account of a shard is the shard id and never fails to decode, the relay chain call carries the two ids, the pool tag determines the address, the pre-upgrade state is read back. A blob longer than the limit is refused when the call is decoded, so OracleBlobTooBig is never answered to a decoded call.", "quantifier": "all values, calls, byte strings, runtime pallet indices", "why_tests_cant": "round trips and uniqueness range over all byte strings", "anchors": ["primitives/teerex/src/lib.rs:31-398", "primitives/enclave-bridge/src/lib.rs:26-72", "primitives/teerdays/src/lib.rs:6-12", "primitives/xcm-transactor/src/lib.rs:56-119", "enclave-bridge/src/lib.rs:213-246", "claims/src/lib.rs:425", "teerex/src/migrations.rs:55-126", "teeracle/src/lib.rs:189-216"]}
{"id": "C82", "title": "Storage never leaves the ranges of its types", "statement": "In every state reached from a typed genesis by decodable calls of 32-byte accounts, every key and every value of all pallets is a value of its Rust type: arrays have their lengths, numbers fit their widths (also where additions wrap in builds without overflow checks), status lists have at most ten members, vectors are countable. So each entry decodes to itself and the whole state can be read back from the raw store.", "quantifier": "all layouts, configurations whose oracles return values of their Rust types, genesis configurations, histories of typed operations", "why_tests_cant": "the numbers of the model are unbounded; that none of the saturating, wrapping and checked computations leaves its range concerns all histories", "anchors": ["teerdays/src/lib.rs:171-295", "enclave-bridge/src/lib.rs:160-415", "sidechain/src/lib.rs:91-160", "teeracle/src/lib.rs:148-226", "teerex/src/lib.rs:293-556", "claims/src/lib.rs:142-379", "asset-registry/src/lib.rs:97-132"]}
{"id": "C83", "title": "The migrations are exact on the raw store", "statement": "Run on any store, whatever bytes it holds, the migrations change exactly the keys of the items they purge, the debug flag and the storage version: nothing outside pallet teerex, and neither registered enclaves, the quoting enclave nor the flag for skipping attestations. No key of version 0 and no TCB info survives, decodable or not; TCB info of version 1 is never read as the current type; the try-runtime checks of the first migration always pass, those of the second exactly from version 1. On a store holding a modelled state they are the migrations of C42. The weight of the second migration covers the keys it changes; that of the first is short by at most one (and is in the store of the repository's test).", "quantifier": "all stores (finite maps from byte strings to byte strings), storage layouts, storage versions", "why_tests_cant": "the tests run one store of each version with a single well-formed entry", "anchors": ["teerex/src/migrations.rs:5-32", "teerex/src/migrations.rs:42-50", "teerex/src/migrations.rs:55-126", "teerex/src/migrations.rs:138-190"]}
{"id": "C84", "title": "How calls get into blocks", "statement": "With extrinsics made explicit (unsigned calls are validated, signed ones checked by the attest extension and charged a fee before they run, calls that panic are dropped) every chain is a history of the model, so all other properties hold of chains. An unsigned extrinsic gets into a block exactly if it is a claim with a valid signature of an address with an open claim, naming exactly the required statement. It then pays that claim to the named account and lowers nobody's balance, or fails and changes nothing. After a payment no unsigned extrinsic of that address is accepted again unless a claim is minted for or moved to it. A failing unsigned extrinsic stays valid and can fill blocks for nothing (a vesting claim for an account that already vests does this). A signed extrinsic that fails costs exactly the fee, from unlocked balance, and changes nothing else; a successful move of a claim is refunded in full.", "quantifier": "all configurations, states, extrinsics, fees and chains", "why_tests_cant": "the tests call dispatchables directly; they never run validation, extension, fee and dispatch in sequence", "anchors": ["claims/src/lib.rs:381-430", "claims/src/lib.rs:564-594", "claims/src/lib.rs:332-336", "claims/src/lib.rs:377"]}
{"id": "C85", "title": "The exact bytes of stored values, keys and calls", "statement": "Every value in storage, every storage key and every call is encoded as the byte string written out for it from the type definitions: fields in declaration order, little-endian numbers, compact lengths and amounts, the variant and call indices of the source. Entries of asset-registry (the pallet with bounded storage) take at most 622 bytes including the hashed key, the size its weights assume, and this is reached.", "quantifier": "all values and keys of the Rust types, all calls, all runtime number widths, pallet indices, XCM codecs and hash functions", "why_tests_cant": "tests never look at encodings; a changed field order or variant index makes existing chain data unreadable without failing a test", "anchors": ["primitives/teerex/src/lib.rs:31-43", "primitives/teerex/src/lib.rs:190-200", "primitives/enclave-bridge/src/lib.rs:26-72", "primitives/sidechain/src/lib.rs:27-33", "primitives/teerdays/src/lib.rs:6-12", "asset-registry/src/weights.rs:61-65", "asset-registry/src/lib.rs:70-74"]}
{"id": "C86", "title": "What calls depend on and change, entry by entry; independent calls commute", "statement": "For every call there is a list of storage entries (and account balances, locks, vesting, clock, block number) such that its result, its changes, its events and messages are the same in any two states that have the same in these entries, and a list of entries outside of which it changes nothing. Hence two operations neither of which changes what the other depends on or changes can be swapped, operations that change nothing a history looks at can be left out of it, bonds of other accounts make no difference to an account, and calls on different shards do not influence each other.", "quantifier": "all configurations, states, origins, calls and environment operations; histories of any length", "why_tests_cant": "tests run one call after the other on a few accounts; that a call does not look at, or touch, the entry of somebody else is a statement about all pairs of states", "anchors": ["teerdays/src/lib.rs:168-343", "enclave-bridge/src/lib.rs:153-518", "sidechain/src/lib.rs:88-169", "teeracle/src/lib.rs:146-269", "teerex/src/lib.rs:285-664", "claims/src/lib.rs:187-400", "asset-registry/src/lib.rs:94-182"]}
{"id": "C87", "title": "Intel's documents can be written and read back", "statement": "The JSON, base64 and RFC 3339 readers behind sgx-verify, given as computable functions, invert the corresponding writers: every JSON value with 64-bit integers, valid strings and fewer than 128 levels, every byte string, every instant of the years 0 to 9999 is read back from its text. Hence every enclave identity and TCB info (also wrapped with its signature) is read back from what its serialiser writes, two documents with the same text are equal, and the pallet extracts from a written document exactly the fields of the value. Every document the reader accepts with dates in those years survives rewriting as a value; its bytes need not (a TCB info among the test data with other letter case is a witness).", "quantifier": "all JSON values, byte strings, instants, identities, TCB infos, signatures and accepted texts; all RSA and ECDSA checks", "why_tests_cant": "tests deserialise four files; whether every value survives the trip, at which nesting or year it stops, and whether equal texts mean equal values are statements about infinitely many texts", "anchors": ["teerex/sgx-verify/src/collateral.rs:33-237", "teerex/sgx-verify/src/lib.rs:492-528", "teerex/sgx-verify/src/lib.rs:711-748", "teerex/sgx-verify/src/netscape_comment.rs:57-60"]}
{"id": "C88", "title": "No tokens out of nothing", "statement": "The event log is a complete statement of every account, and the total issuance changes over any stretch of history by exactly what the log says was created minus destroyed. No call creates tokens except a claim payout (exactly the claimed amount, taken out of the claims pot, for the account the claimant authorised); no call destroys tokens except shielding and unshielding, which lose at most the payer's dust, announced by an event. Hence circulating tokens plus open claims never exceed genesis balances, genesis claims, minted claims and what the rest of the runtime mints; if that cap fits the balance type, no bridge payment fails for overflow and every claim of at least the existential deposit arrives in full. As long as nobody bonds while unbonding, everything bonded and unbonding is backed by existing tokens; in general it is not (witness).", "quantifier": "all histories of calls and environment operations, all states for the per-call statements, all configurations", "why_tests_cant": "total issuance is not looked at by any test; conservation has to hold for every interleaving of claims, transfers, fees, dust and failing calls", "anchors": ["claims/src/lib.rs:472-502", "claims/src/lib.rs:248-266", "enclave-bridge/src/lib.rs: shield_funds, unshield_funds", "teerdays/src/lib.rs: bond, unbond, withdraw_unbonded"]}
{"id": "C89", "title": "The authorities can always restore service", "statement": "From every reachable state root can hand a shard over to a new configuration: purging the listed enclaves and installing the configuration at once leaves nobody listed, the configuration in force from then on, and nothing else changed. After that any registered enclave with the configured fingerprint can pay out whatever the vault can pay and finalise every chain of sidechain blocks that continues the last final one, so neither funds nor finality are lost for good (in particular the stall of C24 is repaired). Root can admit every registered enclave to a data source at the price of at most one other fingerprint, and its reports are then accepted. Every open claim can be made payable to every destination its owner signs for by three root calls, without touching other claims; minting it again is not enough, since a schedule is never removed by minting.", "quantifier": "all reachable states (all states for claims), all shards, configurations, enclaves, chains of blocks of any length, data sources and claims", "why_tests_cant": "a test shows one repair in one state; that a repair exists in every reachable state, and that the plan works for lists and chains of every length, needs induction over both", "anchors": ["enclave-bridge/src/lib.rs: purge_enclave_from_shard_status, update_shard_config, unshield_funds", "sidechain/src/lib.rs: confirm_imported_sidechain_block", "teeracle/src/lib.rs: add_to_whitelist, remove_from_whitelist", "claims/src/lib.rs:248-266", "claims/src/lib.rs:350-378"]}
{"id": "C90", "title": "How much token-time a supply can produce", "statement": "As long as no account bonds while its own unbonding is pending, the token-time of all accounts together never exceeds the total issuance integrated over time: no interleaving of bonding, extra bonding, unbonding, withdrawing, transfers, claims and updates gains any, and every single account's token-time is at most the cap on the supply times the age of the chain. Without the restriction this is false, without limit: the same tokens can be passed through any number of fresh accounts (bond, unbond, bond again, wait for the unlock period, withdraw, transfer) and leave in each of them a bond of the full amount although nothing is locked there and its balance is zero, and all these bonds accrue from then on.", "quantifier": "all chains, all histories of all pallets, all numbers of accounts and amounts", "why_tests_cant": "the bound is about the sum over all accounts along arbitrary interleavings and the farm about chains of accounts of every length; a test sees one history of a few accounts", "anchors": ["teerdays/src/lib.rs:174-193 (bond)", "teerdays/src/lib.rs:229-269 (unbond)", "teerdays/src/lib.rs:312-334 (try_withdraw_unbonded)", "primitives/teerdays/src/lib.rs:19-24"]}
{"id": "C91", "title": "What a client can learn from the events", "statement": "A client that only reads the events in order, with the time of their block, can maintain exact copies of the TEERdays bonds and pending unlocks, the finalised sidechain blocks, the exchange rates and whitelists, the accounts of sovereign enclaves with address, status and method, the collateral, the security flags and the asset registry. It cannot know the shard status (which enclave confirmed), shard configurations, executed call hashes, oracle data, measurements of enclaves, proxied enclaves, or claims and preclaims: there are histories with the same events and times that differ there. A published hash is found under the measurement of its publisher and under every topic given (at most five), and names its publisher truthfully; but a search by measurement also finds hashes of other enclaves, since topics are free.", "quantifier": "all chains, all histories of all pallets (refutations by pairs of histories)", "why_tests_cant": "that a copy never drifts has to hold after every interleaving of all calls of all pallets; that something cannot be reconstructed needs two runs that look the same", "anchors": ["teerdays/src/lib.rs:126-135", "enclave-bridge/src/lib.rs:77-111", "enclave-bridge/src/lib.rs:300-306, 504-509 (deposit_event_indexed)", "sidechain/src/lib.rs:57-67", "teeracle/src/lib.rs:106-123", "teerex/src/lib.rs:77-97", "asset-registry/src/lib.rs:75-80"]}
{"id": "C92", "title": "The benchmarks pass on exactly these runtimes, and what they measure", "statement": "Each benchmark of every pallet passes (its set-up succeeds, the measured call is accepted and its check holds) exactly if: for TEERdays the existential deposit is at most what is bonded and left; for shield and unshield a quarter of the largest balance is zero or at least the deposit; publish_hash for at most 100 bytes and 5 topics; whitelists if they have room for one entry; unregistering if the renewal period is at most the time they set; asset registry if root may modify it and the asset exists; register, rate and oracle only if debug enclaves are allowed at genesis; claims if the total has room for all they mint and genesis does not use their keys. The claims benchmarks are meant to run with 10,000 claims but store two. The update_other benchmark measures a call that changes nothing. None of the benchmarks of confirm, unshield and sidechain blocks measures the enactment of a due upgrade.", "quantifier": "all configurations, all genesis states, all accounts and keys the benchmarks are given", "why_tests_cant": "the benchmark tests run on one mock runtime with one genesis; which other runtimes they fail on, and what the measured calls leave out, cannot be seen there", "anchors": ["teerdays/src/benchmarking.rs:31-68", "enclave-bridge/src/benchmarking.rs:46-187", "sidechain/src/benchmarking.rs:37-70", "teeracle/src/benchmarking.rs:46-107", "teerex/src/benchmarking.rs:60-166", "asset-registry/src/benchmarking.rs:31-50", "claims/src/lib.rs:1405-1596", "test-utils/src/lib.rs:34-41"]}
{"id": "C93", "title": "What the fuzz targets of the attestation library report", "statement": "Run on any byte string, no fuzz target makes the code under test panic. Decoding a quote reports nothing: exactly the strings with 1012 bytes, two length-prefixed strings and anything after them decode, e.g. 1020 or more zeros. Each other target reports exactly: the JSON target every enclave identity and every TCB information (so its assertion is false, without any forgery, of every such document), the certificate target every certificate with readable platform data (also false without forgery), the signature target the inputs whose first 64 bytes are a valid signature of the fixed document under Intel's collateral key, and the report target the genuine reports; the last two report nothing unless a signature is valid.", "quantifier": "all byte strings, all behaviours of the crypto libraries", "why_tests_cant": "a fuzzer samples inputs; which inputs it could ever report, and whether a report means a forgery, is a statement about all of them", "anchors": ["teerex/sgx-verify/fuzz/fuzz_targets: decode_quote, deserialize_json, extract_tcb_info, signature_check, verify_ias_report", "teerex/sgx-verify/src/lib.rs: DcapQuote, extract_tcb_info, deserialize_enclave_identity, verify_ias_report"]}
{"id": "C94", "title": "Declared storage reads and what calls depend on", "statement": "The number of storage reads a call's declared weight pays for is fixed, and at realistic prices it is what a read costs. For every call except confirm_processed_parentchain_block, shield_funds, unshield_funds and confirm_imported_sidechain_block (and claims, whose weights the runtime chooses) everything that decides how the call ends and what it does is kept in at most that many entries of the database. For those four it is not: they depend on more entries in reachable states (refuted with witnesses). The entries listed for an operation (C86) are also needed: for each operation there is a reachable state in which changing any one of them changes how it ends or what it does, and one in which every entry it is listed to change does change.", "quantifier": "all configurations, origins, calls and states; all prices up to 10^12", "why_tests_cant": "a benchmark counts the reads of one run in one state; that no run of a call depends on more than it pays for is a statement about all pairs of states", "anchors": ["*/src/weights.rs", "enclave-bridge/src/lib.rs: confirm_processed_parentchain_block, shield_funds, unshield_funds", "sidechain/src/lib.rs: confirm_imported_sidechain_block", "teerdays/src/lib.rs: bond_extra"]}
{"id": "C95", "title": "Events on the wire", "statement": "Each event of the eight pallets, and each record of the event log (phase, event, topics), has exactly the bytes spelled out: pallet index, index of the event in its declaration, fields in their order and encodings. No two different values share bytes, not even as prefixes, and the bytes are read back to the event and its topics. In every history whose inputs have values of their types every deposited event has values of its field types, so this applies to all of them. Two histories from the same genesis whose logs consist of the same bytes end with the same bonds, pending withdrawals, sidechain finality, exchange rates, whitelists, sovereign enclaves as far as events show them, quoting enclave, TCB infos, security flags and asset locations.", "quantifier": "all codec widths, pallet indices, configurations, genesis states and histories of typed operations", "why_tests_cant": "tests compare events as values inside the runtime; that the bytes determine them for clients that only read the log is a statement about all pairs of events", "anchors": ["teerdays/src/lib.rs:126-135", "enclave-bridge/src/lib.rs:76-111", "sidechain/src/lib.rs: Event", "teeracle/src/lib.rs: Event", "teerex/src/lib.rs: Event", "claims/src/lib.rs: Event", "asset-registry/src/lib.rs: Event", "xcm-transactor/src/lib.rs: Event"]}
{"id": "C96", "title": "Errors on the wire", "statement": "Each error of the eight pallets is written as the spelled-out bytes: 3, the pallet's index, the number of the error in the pallet's declaration, three zeros; a wrong origin is the byte 2 and the error given as text the byte 0. No two errors share their bytes, not even as prefixes, and they are read back. For every kind of call (registrations by attestation method) the listed errors are exactly those it can return: no reachable state makes it return another one, and for each listed one there is a configuration, a history and a call of that kind that returns it. So exactly 85 of the 96 declared numbers ever appear on the chain; the other eleven, among them BadState, EnclaveNotFoundInShardStatus, OracleBlobTooBig and PublicKeyIsInvalid, never do. The transaction pool refuses claims with exactly the codes 0, 1 and 3, every other unsigned call as not callable, and a signed attest with exactly the codes 1 and 3; the code NoPermission is never used.", "quantifier": "all pallet indices, configurations whose TCB levels have 16 components, genesis states, histories, origins and calls (oracle blobs within the bound of their type)", "why_tests_cant": "tests compare errors as values and provoke one error per test; that a client reading the numbers learns the error, and that a declared error is dead, are statements about all executions", "anchors": ["teerdays/src/lib.rs:138-153", "enclave-bridge/src/lib.rs:114-127", "sidechain/src/lib.rs:70-81", "teeracle/src/lib.rs:126-141", "teerex/src/lib.rs:100-222", "teerex/sgx-verify/src/lib.rs:68-107", "claims/src/lib.rs:101-115", "claims/src/lib.rs:380-425", "claims/src/lib.rs:574-594", "asset-registry/src/lib.rs:83-92", "xcm-transactor/src/lib.rs:72-92", "primitives/claims/src/lib.rs:30-48"]}
{"id": "C97", "title": "Within eight limits no call ever panics, and each limit is needed", "statement": "A history of calls from genesis contains no panicking call if eight limits hold: with overflow checks the clock plus the unlock period fits 64 bits, the clock fits a signed 64-bit number, with overflow checks the claims of genesis and all that root asks to mint fit the balance type, with overflow checks no release is confirmed more than 2^64-1 times, the vesting schedules of claims end, at genesis and when minted, accounts that register while skipping attestation have at most 64 bytes, and the documents of Intel are not dated before 1970. Then a build with overflow checks and one without do exactly the same. For each of the eight there is a history that meets the seven others and contains a panicking call.", "quantifier": "all configurations, genesis states and finite histories of calls and environment steps", "why_tests_cant": "a test shows that one call did not panic; the absence of panics in all histories, and that a bound is not superfluous (one needs 2^64 calls), cannot be tested", "anchors": ["teerdays/src/lib.rs:261", "enclave-bridge/src/lib.rs:232-268", "claims/src/lib.rs:257", "claims/src/lib.rs:480-495", "teerex/src/lib.rs:401-420", "teerex/src/lib.rs:590-636", "teerex/sgx-verify/src/collateral.rs:136-163", "teerex/sgx-verify/src/collateral.rs:190-215"]}
{"id": "C98", "title": "What outsiders can take: nothing from guarded accounts, everything transferable from any other", "statement": "Take any coalition: accounts it signs for, enclave measurements it can get registered, Ethereum addresses it signs for. Whatever it calls, in any order, without root or another privileged origin: an account it does not own never loses free balance, provided the coalition has no enclave or the shard of the same name as the account has a configuration naming, now and later, an enclave that is not theirs; such a shard keeps its configuration, its finalised block and (unless it bears one of their measurements) its list of operators; the bond, the pending withdrawal, the lock and the accrued token-time of others are as if nobody had called; the claim, vesting terms and statement of an address whose key they lack and which is not preclaimed by them stay; the rates, data and whitelist of an oracle source stay if the whitelist names none of their enclaves; flags, registered assets and messages to the relay chain stay and the total of open claims does not grow. The proviso on shards is needed: the vault of a shard is the account of the same name, and any registered enclave may configure an unconfigured shard, so any registered enclave, of whatever measurement, takes any transferable amount from any account by two calls.", "quantifier": "all configurations, reachable states, coalitions and finite histories of their calls interleaved with environment steps; for the theft all states, accounts and payable amounts", "why_tests_cant": "the tests make single calls with wrong signers; they do not let an adversary combine calls of several pallets, and no test configures a shard bearing the name of an ordinary account", "anchors": ["enclave-bridge/src/lib.rs:200-266", "enclave-bridge/src/lib.rs:317-374", "teerdays/src/lib.rs:150-300", "claims/src/lib.rs:170-300", "teeracle/src/lib.rs:150-260", "teerex/src/lib.rs:130-330"]}
{"id": "C99", "title": "What outsiders can block", "statement": "Take the coalitions of C98. After any calls of theirs: an enclave of others that could operate a guarded shard still can, as long as its registration is not due for renewal; a whitelisted enclave of others can still feed its oracle source; a staker can still unbond and withdraw when due; the holder of a key can still collect their claim into any account without vesting schedule. Three services can be blocked: any registered enclave can configure a shard that has no configuration, after which the enclaves the shard is named after cannot operate it and, without root, never get it back; once ten accounts are listed as operators of a shard, no other account operates it until root removes one; a vested transfer to a preclaimed account makes its attest call fail.", "quantifier": "all configurations, reachable states, coalitions and finite histories; for the blocked services all states and histories without a purge by root, and a witness for the preclaimed account", "why_tests_cant": "denial of service needs sequences of calls of several parties, and that no sequence exists (or that no sequence helps any more) is not testable", "anchors": ["enclave-bridge/src/lib.rs:317-374", "enclave-bridge/src/lib.rs:414-490", "teerex/src/lib.rs:450-470", "teeracle/src/lib.rs:189-255", "teerdays/src/lib.rs:229-300", "claims/src/lib.rs:337-346", "claims/src/lib.rs:472-502"]}
{"id": "C100", "title": "A staker's account is a book of its own: nothing that others do matters to it", "statement": "The bonded amount, the token-time up to now, the pending unbonding and the TEERdays lock of an account, as well as the answer and the events of every bond, bond_extra, unbond and withdraw_unbonded it signs, are what a small book of that one account computes from its own calls, the time that passed and its free balance at its own calls. Two chains in which these agree treat the staker alike, whatever other accounts, pallets and blocks did in between, however often anyone called update_other and into however many blocks the time was cut.", "quantifier": "for all configurations, genesis states, prefixes and continuations of histories, all accounts, all pairs of histories with the same diary", "why_tests_cant": "A test runs one interleaving. The claim compares any two interleavings, including saturation, overflow and wrap-around of the unlock time, dust and zero bonds.", "anchors": ["teerdays/src/lib.rs:174-334", "primitives/teerdays/src/lib.rs:14-25"]}
{"id": "C101", "title": "What stands in storage is what the last accepted call put there, and only that", "statement": "In every history from genesis: a source's exchange rate for a trading pair is r exactly if the last accepted rate update for that pair and source carried r, r is not zero, and its sender then was a registered enclave whose measurement was on that source's whitelist; the same for oracle data. A measurement is on a whitelist exactly if root's last accepted word on that source and measurement was to add it. An asset id maps to a location exactly if the last accepted registration or removal of that id was a registration of that location by the configured origin. A shard's sidechain head is b exactly if b is what the last accepted confirmation by the shard's leading signer carried. A signer is listed for a shard exactly if the last accepted call that shows them at work on it (confirmation, unshielding, configuration update, hash published with this measurement, sidechain block) came after any purge of them, and the listed measurement and block are those of that call. The configuration a shard is under is that of the last accepted update that was its first or whose delay ran out before the next update was sent. An open claim stands exactly if it stands since genesis, or the last accepted call concerning that address was a mint of that amount by root, or a move of a claim of that amount to it by root or the configured origin.", "quantifier": "all configurations, genesis states, histories of accepted and rejected operations of any length, sources, pairs, measurements, assets, shards, signers, addresses and values", "why_tests_cant": "a test reads back an entry right after the call that wrote it; that the entry is still that value after any number of other calls, and that no other call in any order can produce or change it, is a statement over all histories", "anchors": ["teeracle/src/lib.rs:150-246", "asset-registry/src/lib.rs:99-150", "enclave-bridge/src/lib.rs:172-490", "sidechain/src/lib.rs:93-165", "claims/src/lib.rs:215-380"]}
{"id": "C102", "title": "Who can change which entry: an exact access matrix", "statement": "If an operation changes an entry of the state reached by a history, its caller has the role and meets the condition this property lists for that entry: an enclave's registration changes only by the account's own attested registration or, once expired, by anybody's removal; collateral only by authentic documents; a shard's status and configuration only by its operator, by an enclave of the configuration in force, or by root; an executed call and a vault's funds only by the operator; a sidechain head only by the operator that leads; a rate or oracle datum only by a registered enclave on the source's whitelist; a stake only by its owner or a refresh; a claim only by root, the move origin, or a payment the owner of the key signed for that destination; flags and whitelists only by root; assets only by the asset origin. Of the 28 kinds of entries and 43 kinds of operations, exactly the 82 listed pairs occur: each of them changes an entry in some reachable state, every other pair never does. Root changes no balance, lock, vesting schedule, stake, registration, collateral, executed call, sidechain head or oracle value; an unsigned extrinsic only pays a claim as its key's owner signed; an account without an enclave changes of others at most by paying them, refreshing a stake, removing expired registrations and bringing authentic collateral.", "quantifier": "all configurations, genesis states, histories of any length, operations by any origin and entries of the state", "why_tests_cant": "tests check that single unauthorised calls are refused; that no call by anybody, in any state, reaches an entry by another way than the listed ones is a statement about all calls, states and entries at once", "anchors": ["teerex/src/lib.rs:268-640", "enclave-bridge/src/lib.rs:153-490", "sidechain/src/lib.rs:93-165", "teeracle/src/lib.rs:150-246", "teerdays/src/lib.rs:170-390", "claims/src/lib.rs:215-480", "asset-registry/src/lib.rs:99-150"]}
{"id": "C103", "title": "What submitting a call again does, and what must happen before it is accepted a second time", "statement": "For every call this property lists what the same call by the same origin does when it is submitted again directly after it was accepted. Bonding, unbonding, withdrawing, whitelisting and its reversal, removing an expired registration, claiming, attesting and registering or unregistering an asset are refused with the error listed, so a repetition has no effect. Registrations, collateral, rates, oracle data, flags, shard status and configuration in force end up as after the first submission. Bonding extra, shielding, minting a claim and swapping take effect again, an executed call is counted again but pays nothing, and a confirmed sidechain block is refused unless its sender no longer leads. Between two accepted submissions of the refused calls, whatever else happens in between, some accepted call undid the first: an unbonding before a second bond, a withdrawal before a second unbonding, a removal before a second whitelisting, a registration of that account before a second removal, an unregistration before a second asset registration. A claim is paid a second time only if root or the move origin brought a claim to that address in between.", "quantifier": "all configurations, genesis states, histories of any length, calls by any origin, and histories of any length between the two submissions", "why_tests_cant": "tests submit a few calls twice; the effect of a replayed or retried extrinsic in every state, and that nothing among all operations can reopen a closed call but the listed ones, concern all states and all histories", "anchors": ["teerdays/src/lib.rs:170-330", "enclave-bridge/src/lib.rs:153-490", "sidechain/src/lib.rs:93-165", "teeracle/src/lib.rs:150-246", "teerex/src/lib.rs:268-640", "claims/src/lib.rs:215-480", "asset-registry/src/lib.rs:99-150", "xcm-transactor/src/lib.rs:90-170"]}
{"id": "C104", "title": "How storage grows, and what can never be removed", "statement": "Exactly which entries of the storage maps an accepted call makes appear and which it removes is given by a table over all calls (a bond makes the bond appear, an unbonding the pending withdrawal and, if what is left is below the existential deposit, the bond disappear; a confirmation the shard's status; an unshielding also the call's counter; a configuration by an enclave the configuration and the status; a claim removes claim, schedule and statement; ...); refused calls and all operations outside the pallets leave the set of entries alone. Consequently the number of entries after any history is at most that at its beginning plus what the table allows for its accepted calls, at most three each, and each value of the table is attained. TCB information, shard status and configuration, unshielding counters, the last sidechain block, oracle data and whitelists are never removed by anything once they are there; every other kind of entry can be removed. An account without enclave makes appear at most its own bond, pending withdrawal and enclave entries and the TCB information of an authentic document. A registered enclave can configure any number of new shards: all calls are accepted, no balance changes, there are two more entries for each, and they stay for good.", "quantifier": "all states, origins, calls, operations and histories; for the last part all reachable states, registered enclaves and lists of shards", "why_tests_cant": "Absence of any way to remove an entry, a bound on storage over every history and unbounded growth by one account are statements about all executions; tests execute a few calls and look at single entries", "anchors": ["enclave-bridge/src/lib.rs:129-151", "enclave-bridge/src/lib.rs:315-400", "sidechain/src/lib.rs:83-86", "teerex/src/lib.rs:224-266", "teeracle/src/lib.rs:70-104", "teerdays/src/lib.rs:155-166", "claims/src/lib.rs:117-140", "asset-registry/src/lib.rs:68-73"]}
{"id": "C105", "title": "What the genesis build puts into storage", "statement": "Running the two genesis builds of the workspace (flags of teerex; claims, total, schedules, statements and pre-claims of claims) panics exactly if the runtime checks for overflow and the listed claims exceed the balance type; otherwise it ends in the state all other properties start from, except that without overflow checks a sum beyond the type wraps. Of repeated entries the last one counts: for the value of an address, for the account a pre-claim is for, for the schedule; for the statement the last entry that asks for one, even if a later entry for the address asks for none. What is listed is what can be claimed plus what was overwritten, so total and open claims agree exactly if only zeros were overwritten. If nothing is listed twice the order of the entries does not matter. Nothing else is stored. A chain with overflow checks that starts at all never refuses a claim for lack of funds; without them, and with claims of distinct addresses beyond the type, the payouts of every history without minting stay below what is claimable by more than the largest balance, and claims are refused.", "quantifier": "all configurations (balance type, overflow checks), all lists of claims and schedules, all histories", "why_tests_cant": "the tests start from one genesis with four distinct addresses and a small sum; repeated entries, overflow and order concern all lists", "anchors": ["claims/src/lib.rs:142-182", "teerex/src/lib.rs:268-283", "claims/src/lib.rs:480-520"]}
{"id": "C106", "title": "Strings of the oracle in builds with and without the standard library", "statement": "The type of sources, trading pairs and data names is Vec<u8> in the runtime and String in every build with the standard library (clients, tests, native runtimes). Both write the same bytes. Such a build reads a call exactly if the runtime does and all its strings are UTF-8 (sequences of characters in the sense of RFC 3629: no surrogates, no overlong forms, nothing beyond U+10FFFF), and then reads the same call; the events of a block it reads all or, if a single string of a single event is not UTF-8, none. A string that is not UTF-8 gets into an event only with an accepted oracle call of root or of a registered enclave whose measurement is whitelisted for the source it names. If all strings submitted are UTF-8 all stored keys and all events are, and clients read every block; if root only ever whitelists sources that are UTF-8, all sources are, and only pairs and data names can be otherwise. That clients built with the standard library can always read all events is false: one whitelisted enclave can hide a block's events from them.", "quantifier": "all byte strings, all calls and event records, all states, all histories; all indices of pallets in a runtime and all widths of its types", "why_tests_cant": "the tests are compiled with the standard library and build their strings from literals: neither the runtime's type nor a string that is not UTF-8 occurs in them", "anchors": ["primitives/common/src/lib.rs:30-36", "primitives/teeracle/src/lib.rs:9-12", "teeracle/src/lib.rs:106-124", "teeracle/src/lib.rs:146-262"]}
{"id": "C107", "title": "The one average age per staker against the ages of the tokens", "statement": "Keep the stake of an account as a list of tranches, each with the moment it was bonded, seen from nothing but the bonded amount and the clock. If the youngest tokens leave first when the stake shrinks, the ages of those that stay add up to at least the account's token-time at this moment, at every point of every history. If the oldest leave first and nothing saturates, the ages of those that stay exceed token-time by at most one unit per token still bonded and unbond sent (rounding of the average). Without unbonds token-time is exactly the sum of the ages of the tokens. So spreading a stake over two accounts neither gains nor loses token-time as long as nobody unbonds; that it never matters is false: with two accounts the owner chooses to unbond the younger tokens and keeps more.", "quantifier": "all configurations, genesis configurations and histories; all accounts; bond amounts within the balance type", "why_tests_cant": "the tests unbond once from a stake of one age, where pro rata, youngest first and oldest first agree", "anchors": ["teerdays/src/lib.rs:199-269", "primitives/teerdays/src/lib.rs:19-24"]}
{"id": "C108", "title": "What waiting does to the answer to a call", "statement": "Let nothing but time pass. The answer to every call other than the eleven listed in `timed` is the same at every later time. withdraw_unbonded opens at the due time for good; unbond changes only when the due time would overflow; removals of enclaves open when the registration is older than the renewal period, for good. Calls for a shard change their answer at most once, when the stored upgrade falls due. An IAS report is refused before its date, refused from a day after it, and given one and the same answer in between. A quote is given the same answer whenever its certificates are valid, and the same whenever they are not. Collateral is accepted only inside its dates and, once accepted, exactly while they and the certificates last. So the times at which a call is accepted form an interval, provided its certificates are valid during one period, which holds of X.509 chains whose intermediate certificates have different subjects. That a call once accepted stays accepted is false.", "quantifier": "all configurations, reachable states, callers, calls and sequences of blocks without calls", "why_tests_cant": "tests ask once before and once after a boundary; they cannot show that the answer never flips back, nor that no other answer depends on the time", "anchors": ["teerdays/src/lib.rs:229-334", "teerex/src/lib.rs:295-516", "teerex/src/lib.rs:585-650", "enclave-bridge/src/lib.rs:172-374", "sidechain/src/lib.rs:92-160"]}
{"id": "C109", "title": "Chains that are upgraded on the way", "statement": "Let teerex' storage migrations run at any point of a history, in any order, any number of times, on a chain that starts at genesis with any old version and any old registry. The chain reaches nothing that a chain without migrations does not reach: there is a history without migrations, obtained by leaving out registrations with a quote and by letting Root set the flags where the old flag is taken over, whose state agrees in every stored value except that it may have more TCB information, and in every event except those of the flags. So every invariant proved of histories that does not speak of TCB information survives upgrades, for example the ledger of the vaults. The upgrade from version 1 costs TCB information only: every other call ends and acts as before, and registrations with a quote that would have been accepted are refused for missing TCB information. Once it has been registered again for the same processors everything is as if there had been no upgrade. That upgrades change no answer is false.", "quantifier": "all configurations, genesis states, old versions and old registries, and all histories with migrations at any point", "why_tests_cant": "tests run a migration once on a small storage; they cannot show what holds of all later histories", "anchors": ["teerex/src/migrations.rs:34-190", "teerex/src/lib.rs:295-446", "teerex/src/lib.rs:520-555"]}
{"id": "C110", "title": "The signers of a shard stand in line", "statement": "The list of signers of a shard, whose first entry alone finalises sidechain blocks, is a line. In every history from genesis one signer stands before another exactly if the former has been listed without interruption for longer. Newcomers join at the end, only by an accepted call of their own. Nobody overtakes: later on those standing before a signer are exactly those who stood before them and whom root has not taken out, so a signer comes to lead exactly when root has taken out everybody before them, and a signer who finalises a block has outlasted everybody before them. Whoever is taken out starts again behind all who stayed, but loses no right: every call of enclave-bridge accepted before, by anyone, is accepted after. Without root taking anybody out the line only grows: an enclave that is idle, or no longer registered, keeps its place.", "quantifier": "all configurations, genesis states, histories and shards, and all pairs of a state in a history and a later one", "why_tests_cant": "tests list two or three signers in one order; they cannot show that no sequence of calls ever changes the order", "anchors": ["enclave-bridge/src/lib.rs:379-490", "sidechain/src/lib.rs:92-160"]}
{"id": "C111", "title": "Token-time is proportional to the stake, and more stake means more of it up to rounding", "statement": "Let two stakers, on one chain or on two, make the same TEERdays calls at the same times, one of them with k times the amounts. If nothing is cut off (by balances, the existential deposit or the largest balance) they get the same answers, and bond, token-time, what is being unbonded and the lock are exactly k times as much, whatever others do in between: there is no economy of scale, not even by rounding at unbonding. If instead the second staker never has less bonded and both unbond the same amounts at the same times, the second has at least the first one's token-time, up to what each of the second one's unbondings left bonded (one millisecond per token and unbonding). That more stake never means less token-time is false: bonding one unit more before unbonding can cost token-time.", "quantifier": "all configurations, all pairs of histories and stakers with such calls, and all factors", "why_tests_cant": "tests look at one staker; they cannot compare all pairs of histories", "anchors": ["teerdays/src/lib.rs:174-334", "primitives/teerdays/src/lib.rs:8-25"]}
{"id": "C112", "title": "A shard is a book of its own: nothing that others do matters to it but payments and registrations", "statement": "Who is listed for a shard, its active and planned configuration, its latest finalised sidechain block, and every answer to a call about it (confirm, unshield, publish, update of the configuration, purge, sidechain import) are computed by a small book of one shard from its diary alone: the calls about it with their origins, the measurement under which each caller was registered at that moment, the outcome of the payment part of each unshielding, and how many blocks passed. So two chains in which a shard had the same diary give the same answers and end with the same shard, whatever other shards, stakers, claimants and oracles did. The payments cannot be left out of the diary: what others pay into the shard's account decides whether an unshielding is accepted.", "quantifier": "for all runtimes, genesis states, histories, points of a history and shards; the comparison for all pairs of chains", "why_tests_cant": "Non-interference compares two whole histories of arbitrary length with arbitrary other operations interleaved; a test runs one interleaving.", "anchors": ["enclave-bridge/src/lib.rs:172-199", "enclave-bridge/src/lib.rs:232-267", "enclave-bridge/src/lib.rs:282-374", "enclave-bridge/src/lib.rs:379-490", "sidechain/src/lib.rs:93-161"]}
{"id": "C113", "title": "An oracle entry is a book of its own, and its rate is the last one accepted", "statement": "The whitelist of a data source, the rate of a trading pair and the blob under a name of that source, and every answer to a call about these, are computed by a small book from the calls about them and the measurement under which each caller was registered at that moment; other sources, pairs, names and pallets, and the passing of time, do not matter. The rate a reader sees is the one in the last call accepted from an enclave whitelisted at that moment, 0 if that was a deletion or there was none: rates never expire, and taking an enclave off the whitelist does not take back what it wrote.", "quantifier": "for all runtimes, states, histories, sources, pairs and names; the comparison for all pairs of chains", "why_tests_cant": "Non-interference compares two whole histories of arbitrary length with arbitrary other operations interleaved; a test runs one interleaving.", "anchors": ["teeracle/src/lib.rs:70-104", "teeracle/src/lib.rs:150-262"]}
{"id": "C114", "title": "A claim is a book of its own, and pays what was filed when it was taken", "statement": "The amount, vesting terms and statement filed under an Ethereum address, and every answer to a call about them, are computed by a small book from the calls about that address, whether the destination had a vesting at that moment, what was filed under an address moved here, and whether the pot sufficed; other claims, balances and pallets, and the passing of time, do not matter. As long as the total has not wrapped around, the pot always suffices for a claim. Everything ever claimed by the address, in sum, is what was filed each time it was taken.", "quantifier": "for all runtimes, states, histories and Ethereum addresses; the comparison for all pairs of chains; the pot for all histories from genesis without wrap-around", "why_tests_cant": "Non-interference compares two whole histories of arbitrary length with arbitrary other operations interleaved; a test runs one interleaving.", "anchors": ["claims/src/lib.rs:117-140", "claims/src/lib.rs:215-266", "claims/src/lib.rs:296-378", "claims/src/lib.rs:472-502"]}
