# Design

Target: golemfactory/golem-messages (Python, `/repo`), modelled in Rocq (Coq 8.16.1) with the standard
library only. Logical root `Verif`, sources in `rocq/theories`, build with
`coq_makefile -f _CoqProject -o Makefile && make`.

## 1. Approach

* **Values.** Python values are one inductive type `pyval` (None, bool, int, float bit pattern, str as
  code points, bytes, list, tuple, dict including the schema dictionaries, enum members, containers,
  masks, messages, opaque CBOR tags). Exceptions are values (`result A := Ok a | Err e`) of a type `exn`
  that mirrors `exceptions.py` and the builtins that can be raised.
* **Code.** Every function is a total Gallina function that mirrors the Python branch by branch; its
  comment cites file and lines and states simplifications. Mutation is state passing.
* **Wire.** CBOR (`cbor==1.0.0`, encoder and decoder), `struct` packing, UTF-8, hex, uuid and IP address
  parsing, version parsing, LRU caches, and IEEE division, log and ceil where the code uses floats are
  modelled concretely.
* **Cryptography** is a record of functions (`crypto` in Crypto.v) passed to the model. The laws used are
  the predicate `crypto_ok`, a hypothesis of the theorems that need it. `toy_ok` proves that a concrete
  instance satisfies it, and every example runs on that instance.
* **Environment.** Clock readings, uuid clock sequences, random samples, encryption functions and our own
  version are universally quantified arguments.

## 2. Layout

* Model: Base, Py, Utf8, Cbor, Text, Ids, Register, Fl, Helpers, Mask, Crypto, Ecies, Ecc, Promissory,
  SemVer, Version, Validators, Data, Classes, Message, TaskLogic, Wire, Threads.
* Proofs: the `*Proofs` and `*Facts` files, RoundTrip, FrameRT. Samples, SampleTrips and SampleLoads hold
  the concrete messages used by the examples.
* Results: `Props_*.v` hold the theorems of MANIFEST.json and nothing else, each closed by a lemma and
  followed by `Print Assumptions`. `Cnn_ex` examples show that the hypotheses are met by concrete,
  non-trivial cases.
* `seeded/LOG.jsonl` records the mutation tests: wrong edits of the model, the theorems that failed, and
  the theorems that were tightened because an edit had gone unnoticed.

## 3. Trusted base

* The kernel of Coq 8.16.1, its virtual machine (`vm_compute` in finite checks and examples; coqchk
  repeats these without it) and the OCaml compiler and runtime beneath.
* `Print Assumptions` answers "Closed under the global context" for every theorem of MANIFEST.json: no
  axioms, neither ours nor the standard library's. A whole-library check (coqchk) also lists seven
  constants of the standard library that no theorem uses, because an imported file brings them along:
  `Coq.ssr.ssrunder.Under_rel.Under_rel`, `.Under_rel_from_rel`, `.Under_relE`, `.under_rel_done`,
  `.Over_rel`, `.over_rel`, `.over_rel_done`.
* No kernel check is switched off; there is no `Admitted`, no `Axiom`, no functor or module type.
* The faithfulness of the model to the Python source, that is the comments' citations. The tables of
  Classes.v are compared in C63 with tables transcribed a second time by a script that reads the source
  text.
* Hypotheses of theorems that stand for the outside world:
  * `crypto_ok`: lengths of digests, keys, signatures and of key agreement; signing then recovering gives
    the signer's key; both sides of a key agreement get the same secret; AES-CTR is an involution; an
    ethereum signature recovers to the account's address, which is the checksummed hash of the public
    key. Nothing is assumed about the hardness of anything: where collision resistance would be needed
    the conclusion names the two explicit preimages.
  * `check_ok` (C64): OpenSSL's key check accepts a key pair that belongs together.
  * `sample_ok` (C36, C38): `random.sample` returns the requested number of distinct members.
  * `floor_log2_ok` (C38): `math.log2` is accurate to a relative margin of 2^-41 below powers of two.
  * `describes` (C61): the text `git describe` prints.
  * size bounds where stated (for example lengths below 2^64, integers below 2^53, nesting within the CBOR
    decoder's limit).

## 4. What is modelled

| source | modelled | left out |
|---|---|---|
| message/base.py | all of Message, Hello, RandVal, Disconnect, ChallengeSolution; verify_time, verify_version | logging; keyword arguments in double underscores; of `__repr__` the parts shown but not their text, `FieldError.__str__` |
| message/tasks.py, concents.py, p2p.py, resources.py | every class: slots, enumerations, overrides, properties, ownership, validity, promissory notes | docstrings, logging |
| message/__init__.py, register.py | register and import order of registrations | |
| datastructures/ | enumerations, frozen and validating dicts, containers, TaskHeader, Node, stats, masks, promissory notes | of `__repr__` the parts shown but not their text |
| cryptography.py | key checks, ecdsa sign and verify, ECCx, ECIES with key manager and caches, kdf | loading OpenSSL (1-75), the curve arithmetic and ciphers (parameters) |
| serializer.py, shortcuts.py, settings.py, validators.py, helpers.py, utils.py, idgenerator.py, exceptions.py, constants.py | everything | |
| version.py | call_git_describe, get_version as functions of the outputs of git and the file's content | running git |
| factories/helpers.py, TaskToComputeFactory.with_signed_nested_messages and the factories it uses | Factories.v | random draws are arguments; factory_boy's evaluation order is written out |
| the replies of factories/tasks.py 240-334 and factories/concents.py (without those below) | Replies.v | parts, draws and clock readings are arguments; hook order of factory-boy 2.9.2 |
| the other factories: factories/concents.py 81-94, 148-163, 241-301, 368-372, factories/p2p.py, factories/base.py, factories/datastructures/p2p.py | Grants.v | as above |
| CTDBlenderExtraDataFactory, setup.py, tests | | test and packaging code |

Simplifications: calls are atomic, except in Threads.v, where the steps of ECIES, of the id generator and
of dumping one message object interleave (C86-C88; other state is not shared by the library); object identity matters only for cache managers; dict
order is insertion order; float arithmetic ignores overflow and subnormals where noted in Fl.v; text in
exceptions is kept only where the code reads it (field names).

Where a property as first written turned out false in part, its statement in properties.jsonl was
refined to what holds, the exception is named there, and a `_refuted` theorem exhibits it.

## 5. Per property

**C01 Header codec is lossless and exact** (proved). Modelled: `Header` packing and unpacking with `struct` format `!HQ?` (message/base.py 87-88, 223-262). Proved by arithmetic on big-endian encodings for all integers; the layout is stated with `be_enc` on explicit offsets.
Theorems: `C01_roundtrip`, `C01_layout`, `C01_out_of_range`, `C01_unpack_exact`, `C01_unpack_inverse`.

**C02 Frame layout** (proved). Modelled: `Message.serialize` as a state-passing function. Slices of the frame are computed for every message and key.
Theorems: `C02_layout`.
Remarks: Signatures given in are 65 bytes; Hello appends its 32-byte version field.

**C03 Plain round trip** (proved). Modelled: `dump`, `load`, every slot kind's serialization and deserialization, nested messages, CBOR. A lemma per slot kind, then induction over the nesting depth (`rank` of the class).
Theorems: `C03_same_message`, `C03_any_form`.
Remarks: Exact (an equality) for contents in wire form, slot by slot otherwise. Depth below the decoder's recursion limit and encodable sizes are hypotheses.

**C04 Encrypted round trip** (proved). As C03 with an encryption function; once for any inverse pair, once for the modelled ECIES in any reachable cache state (C44).
Theorems: `C04_encrypted`, `C04_dump_load`, `C04_in_clear`.
Remarks: For any inverse pair of functions, and for the library's own ECIES in every reachable cache state.

**C05 An existing signature is never replaced** (proved). State-passing `serialize` and `sign_message`; the signature is followed through any list of serialize calls by induction.
Theorems: `C05_kept`, `C05_resign_refused`, `C05_same_signature`.

**C06 Loaded with a sender key means signed by that key** (proved). Inversion of `deserialize`: the frame loads with a key iff it loads without one and the signature recovers to the key.
Theorems: `C06_sender_exact`, `C06_mismatch`, `C06_empty_key`.
Remarks: Exact condition for every non-empty key; an empty key disables verification (C06_empty_key).

**C07 The signed hash binds type, time and content** (proved). The hashed bytes are computed explicitly; two signed messages with equal hash have equal type, time and content or the two explicit preimages collide. Uses prefix-freeness of CBOR.
Theorems: `C07_hash_input`, `C07_binds`.
Remarks: Both SHA-1 inputs are explicit in the conclusion.

**C08 Signature does not depend on transport encryption** (proved). The message's own `encrypted` flag is not hashed. The nested flags are (`C08_nested_covered`); `C08_nested_refuted` gives the counterexample to full independence.
Theorems: `C08_independent`, `C08_nested_refuted`, `C08_nested_covered`.
Remarks: Independence of the message's own flag, and coverage of nested flags up to an explicit SHA-1 collision; C08_nested_refuted exhibits an invalidated outer signature.

**C09 Freshness window** (proved). Time is in microseconds; the window is decided by integer comparison and `lia`.
Theorems: `C09_window`, `C09_verify_time_exact`, `C09_verify_time_errors`.

**C10 Header admission** (proved). Inversion of header checks in `deserialize` in both directions.
Theorems: `C10_admitted`, `C10_refused`.

**C11 Short frames** (proved). All byte strings shorter than a header and signature.
Theorems: `C11_short`.

**C12 Hostile bytes cause MessageError, with three named exceptions** (proved). Case analysis over every class; every exception of every step is tracked, including those of CBOR, `struct`, containers and vetting. Three classes leak other exceptions, which are named.
Theorems: `C12_errors`, `C12_other_classes`, `C12_always_message_error_refuted`.
Remarks: Only MessageError subclasses for every class but three; those three leak named builtin exceptions (C12_always_message_error_refuted).

**C13 Nested messages have the declared class** (proved). Induction over nesting through `loaded`, the invariant of everything that can be loaded.
Theorems: `C13_declared_classes`, `C13_sent_is_present`, `C13_required_refuted`.
Remarks: Present nested slots have a declared class; required slots can be bypassed by omission (C13_required_refuted).

**C14 Type of signed nested messages** (proved). The signed bytes contain the type; the counterexample is a frame in which a nested header states another type.
Theorems: `C14_signed_type_in_header`, `C14_same_type_refuted`.
Remarks: The signed bytes bind the type; the header type of a nested message is not compared with its slot (C14_same_type_refuted).

**C15 Every shipped type carries its slots** (proved). The round trip of C03 for each class and slot; false for StartSessionResponse.
Theorems: `C15_slots`, `C15_each_slot`, `C15_start_session_refuted`.
Remarks: False for StartSessionResponse (C15_start_session_refuted); all other types proved.

**C16 Nested lists round trip** (proved). Induction over the list; the empty list is refused by the receiver, shown by computation.
Theorems: `C16_lists`, `C16_empty_list`, `C16_empty_refuted`, `C16_list_for_single`, `C16_single_for_list`.
Remarks: Non-empty lists proved; the empty list is refused on arrival (C16_empty_refuted).

**C17 Hello version gate** (proved). `semantic_version` parsing is modelled; the accepted language is stated independently as a grammar and shown equal to the parser; the gate is stated as arithmetic on major, minor and patch; numbers may be written in the decimal digits of any script of Unicode 9.0 (the table of their zeros is in Text.v).
Theorems: `C17_hello_admitted`, `C17_hello_refused`, `C17_gate_exact`, `C17_parser_exact`, `C17_parser_ascii`, `C17_unparsable_is_mismatch`, `C17_errors`, `C17_own_version_refuted`.
Remarks: verify_version decides exactly the stated set; own X.Y.0-prerelease versions accept nobody (C17_own_version_refuted).

**C18 Hello version on the wire** (proved). The 32-byte Pascal string is modelled; a version survives iff it is ASCII with at most 31 characters.
Theorems: `C18_survives_exact`, `C18_hashed_version`, `C18_long_version_refuted`.
Remarks: Exact in both directions; C18_long_version_refuted shows a version that does not survive.

**C19 Registry history** (proved). The register is a state machine; invariants by induction over any history of registrations for any type of classes.
Theorems: `C19_never_rebound`, `C19_first_registration_wins`, `C19_duplicate_refused_unchanged`, `C19_registration_visible`, `C19_get_type_inverse`, `C19_other_classes`.
Remarks: Any history of registrations.

**C20 Shipped registry is a bijection** (proved). The decorators' list in import order is a table; the register built from it is compared with `type_of` for all integers.
Theorems: `C20_class_to_number_and_back`, `C20_number_to_class_and_back`, `C20_numbers_distinct`, `C20_contains_exactly_the_numbers`, `C20_numbers_fit_header`, `C20_every_registration_succeeds`.

**C21 Generated ids carry the seed** (proved). uuid1 bit layout and the id generator's replacement of the node field, for all seeds.
Theorems: `C21_id_carries_seed`, `C21_id_accepts_exactly_same_prefix`, `C21_hex_variant`, `C21_node_of_hex_seed`, `C21_derived_id_keeps_seed`.
Remarks: All seeds, clock readings and clock sequences.

**C22 Generated ids are unique in a process** (proved). Monotone timestamp invariant over any history of calls, including failing ones.
Theorems: `C22_ids_unique`.
Remarks: Clock readings below 2^60 ticks (year 5236); all call mixes including failing calls.

**C23 Loaded TaskToCompute is vetted** (proved). Inversion of `load` for TaskToCompute. For the sender's side `generate_ethsig` is followed by `verify_ethsig` on its result, using the signing laws of `crypto_ok`.
Theorems: `C23_vetted`, `C23_generated`, `C23_generates`.
Remarks: Everything the vetting of a loaded TaskToCompute guarantees, by inversion of load.

**C24 Vetting of nested TaskToCompute** (proved). Refuted by a concrete frame; the positive part by following the vetted message through the round trip.
Theorems: `C24_nested_refuted`, `C24_vetted_stays_vetted`.
Remarks: Refuted for hostile peers; messages vetted by their sender stay vetted after transport.

**C25 Ownership validation is exact** (proved). Equivalence against `chain_keys` and `signed_by`, which are stated on the message and not with the model's helpers.
Theorems: `C25_exact`, `C25_wrong_signer`, `C25_signed`, `C25_only_invalid_signature_refuted`.
Remarks: Exact, for all keys and signatures; failures other than InvalidSignature exist (C25_only_invalid_signature_refuted).

**C26 Ownership chain covers every nested task message** (proved). Induction over nesting; equivalence with ownership of every task message that can be reached.
Theorems: `C26_exact`, `C26_errors`, `C26_no_list_slots`, `C26_every_message_refuted`.
Remarks: Exact for task messages; a WantToComputeTask in the chain is not checked (C26_every_message_refuted).

**C27 verify_owners** (proved). Equivalence by inversion; mismatch and empty keys separately.
Theorems: `C27_exact`, `C27_mismatch`, `C27_empty_key_refuted`.
Remarks: Exact; empty keys skip the comparison (C27_empty_key_refuted).

**C28 Nested signatures survive transport** (proved). C03 on nested values along every path.
Theorems: `C28_nested_signatures`.
Remarks: Every path through nested messages, every key, also keys for which verification fails.

**C29 Payment timestamp window** (proved). Integer time arithmetic with correctly rounded conversion of the timestamp; the exact bounds for huge integers and for floats come from an analysis of the rounding (PayFacts.v, theorems in Props_Check.v).
Theorems: `C29_int_exact`, `C29_float_exact`, `C29_window`, `C29_outside`, `C29_overflow`, `C29_not_a_number`, `C29_float`, `C29_infinite`, `C29_nan`, `C29_arrives_in_window_refuted`.
Remarks: Exact for integers and floats and timestamps below 2^52; NaN is always accepted (C29_nan, C29_arrives_in_window_refuted).

**C30 Rejection validity** (proved). Equivalence against a statement by reason and attachment; exceptions for other values are listed.
Theorems: `C30_valid`, `C30_errors`, `C30_from_requestor`.
Remarks: Exact for reasons and attachments the slots can hold.

**C31 Verdict consistency** (proved). Equality of TaskToCompute messages only; counterexample for reports.
Theorems: `C31_equal`, `C31_same_report_refuted`.
Remarks: Exact; only TaskToCompute messages are compared (C31_same_report_refuted). The error text calls repr(self).

**C32 Frozen/validating dictionaries keep their schema** (proved). Invariant over any sequence of constructor and item assignments; `dict_built` follows the constructor entry by entry.
Theorems: `C32_schema_invariant`, `C32_built`, `C32_assignment_effect`, `C32_undeclared_key_refused`, `C32_ctd_ids_checked`.
Remarks: All constructor arguments and assignment sequences; refused assignments leave the dict as it was (item assignment is a single store after the checks).

**C33 Containers enforce their declaration** (proved). Equivalence for all container classes with a declarative success condition; failure kinds by inversion. Leaving one field out of arguments that succeed (C33_left_out): the five required fields of a task header are written out in the statement, and so is what every other omitted field holds. Order of arguments: Props_Order.v, from lookup in a permuted list without repeated names.
Theorems: `C33_success_exact`, `C33_bad_declaration_fails`, `C33_failure_kinds`, `C33_header_failure`, `C33_always_field_error_refuted`, `C33_header_fields`, `C33_node_fields`, `C33_roundtrip`, `C33_left_out`, `C33_keyword_order`.
Remarks: Exact success condition and failure kinds for all seven container classes; 'always FieldError' refuted: errors while building a nested object surface as MessageError. C33_left_out lists the required fields and the defaults explicitly.

**C34 Task header round trip and signature** (proved). Round trip in memory and through CBOR; hash binding as in C07. The bytes hashed for a header start with a CBOR map head and those hashed for a message with the head of a list of two, so they differ (Props_Separate.v). Order: C34_owner_order; the claim of the docstring is C34_sorted_refuted.
Theorems: `C34_dict_roundtrip`, `C34_wire_roundtrip`, `C34_signing_keeps_hash`, `C34_signed_verifies_only_with_key`, `C34_verify_exact`, `C34_verify_errors`, `C34_missing_signature`, `C34_hash_binds`, `C34_owner_order`, `C34_sorted_refuted`, `C34_not_for_a_message`.
Remarks: Round trip for built and signed headers, in memory and over CBOR; exact equality when no attribute changes form on the way (plain_header). Hash binding is up to a SHA-1 collision of the explicit preimages. C34_not_for_a_message is up to collisions and up to recovery of one key from one signature for two digests, which crypto_ok does not rule out. The docstring of to_dict claims a sorted dict; C34_sorted_refuted shows two equal headers with different hashes.

**C35 Validators decide exactly their documented sets** (proved). Each validator as an equivalence with a set or grammar; IPv4 and IPv6 grammars are stated independently of the parser.
Theorems: `C35_varchar`, `C35_varchar128`, `C35_integer`, `C35_positive_integer`, `C35_port`, `C35_port_documented_range_refuted`, `C35_boolean`, `C35_dict`, `C35_version`, `C35_ipaddress`, `C35_only_field_errors`.
Remarks: Exact for every validator, grammars stated independently of the parsers; the documented port bound 65535 is refuted (C35_port_documented_range_refuted).

**C36 Mask arithmetic** (proved). Bits on `Z`; the random sample is any function that returns distinct members (`sample_ok`); histories by induction.
Theorems: `C36_from_bits_then_to_bits`, `C36_from_bits_refuses_other_bits`, `C36_to_bits_then_from_bits`, `C36_increase`, `C36_decrease`, `C36_generate`, `C36_negative_refused`, `C36_history`, `C36_binary_text`, `C36_binary_text_unique`, `C36_from_dict`.
Remarks: For every random.sample behaviour. The binary text is included.

**C37 Mask matching** (proved). A mask matches iff no bit is common; monotone under increase and decrease. The share of matching digests: induction on the number of bits, halving the lowest bit off mask and digest.
Theorems: `C37_matches_iff_no_common_bit`, `C37_empty_mask_matches_all`, `C37_increase_never_adds`, `C37_decrease_never_removes`, `C37_share`, `C37_determined`.
Remarks: sha256 is any function with 32-byte results.

**C38 Mask size for a task** (proved). Floats as exact dyadic numbers with correct rounding; `math.log2` is constrained by `floor_log2_ok` only. The share of workers: arithmetic on the least number of bits and the share of C37.
Theorems: `C38_mask_for_task`, `C38_no_potential_workers`, `C38_share`, `C38_none_desired`, `C38_monotone`.
Remarks: Up to 2^40 workers; math.log2 only assumed accurate to a relative margin of 2^-41 below powers of two.

**C39 Promissory notes sign/verify** (proved). Signing and verification over the record of cryptographic functions. `valid_iff` inverts `sig_valid`.
Theorems: `C39_raises`, `C39_valid_exactly`, `C39_signed_verifies_iff_own_address`, `C39_missing_signature_is_false`, `C39_malformed_signature_type_error`, `C39_signed_bytes_defined`.
Remarks: Signature scheme behind crypto_ok laws. Whatever eth_account raises when it cannot recover an address is one exception (ValueError) in the model.

**C40 Promissory notes bind their terms** (proved). Injectivity of the concatenated encoding, by lengths. `one_note` combines it with the exact condition of validity. With any payee: compared digit by digit, the length being part of what is signed; a text of odd length shifts all digits by one, which only zeros survive.
Theorems: `C40_one_signature`, `C40_any_payee`, `C40_one_payee`, `C40_zero_addresses_refuted`, `C40_same_bytes_same_terms`, `C40_any_length_refuted`.
Remarks: Over 20-byte hex addresses, as stated; for addresses of other lengths refuted (C40_any_length_refuted). The exception for zero addresses is needed: C40_zero_addresses_refuted.

**C41 Deposit amounts** (proved). Integer arithmetic.
Theorems: `C41_deposits`.

**C42 Maximum download time is sufficient and tight** (proved). Correctly rounded division and `ceil`; least sufficient time in whole seconds; monotone rounding gives the refused sizes.
Theorems: `C42_download_time_least`, `C42_download_time_monotone`, `C42_huge_sizes_refuted`, `C42_any_size`, `C42_refused`.
Remarks: Proved for sizes below 2^53 bytes (float division modelled as correctly rounded); refuted beyond that (C42_huge_sizes_refuted).

**C43 Subtask verification time and protocol times** (proved). As C42, with the datetime range; the waits by cases on the class. On messages: the function is read off the slots of a report; what it raises follows from the invariant of received messages, slot by slot.
Theorems: `C43_verification_time`, `C43_verification_time_monotone`, `C43_refused`, `C43_times`, `C43_report`, `C43_raises`, `C43_found`, `C43_time_left_refuted`, `C43_every_report_refuted`.
Remarks: Integer timestamps in datetime range, sizes below 2^53. That every accepted report leaves time for verification, or has a time at all, is false: C43_time_left_refuted, C43_every_report_refuted.

**C44 ECIES round trip under any cache history** (proved). The three LRU caches and per-manager clocks are the state; invariant over any history of calls of any managers.
Theorems: `C44_round_trip`.
Remarks: Assumes crypto_ok (Diffie-Hellman, AES-CTR involution, lengths); calls are atomic.

**C45 ECIES rejects malformed or altered data** (proved). Equivalence: `decrypt` succeeds iff the frame is well formed and the tag is right. From it: two accepted ciphertexts with one tag are compared part by part (sender key, middle, tag), and the ciphertext with a prefix of the shared data moved into it meets the acceptance condition.
Theorems: `C45_one_tag`, `C45_shared_moved`, `C45_accepts_exactly`, `C45_altered_tag_rejected`.
Remarks: Exact acceptance condition in every reachable cache state; the wrapping into DecryptionError by load is part of C12. golem-messages itself always passes empty shared data, so C45_shared_moved concerns other users of ECIES.

**C46 Ephemeral keys are renewed after the timeout** (proved). Invariants over histories; the renewal claim is refuted by a history.
Theorems: `C46_caches_bounded`, `C46_memoised_faithful`, `C46_cleanup_on_miss`, `C46_reused_whatever_the_clock`, `C46_renewal_refuted`.
Remarks: Cache bound, memo faithfulness and cleanup on a miss are proved; the renewal claim is refuted: on a cache hit the timeout is not consulted.

**C47 copy_and_sign** (proved). Direct, over deep copies as values.
Theorems: `C47_copy_and_sign`.

**C48 Serializer** (proved). CBOR round trip, prefix-freeness, exact dumpability and re-dumping by induction on values; depth and sizes explicit.
Theorems: `C48_round_trip`, `C48_prefix_free`, `C48_dumpable`, `C48_loaded_redumps`, `C48_tuple_key_refuted`.
Remarks: CBOR modelled concretely; every loadable value re-dumps; a tuple used as a dict key does not survive (C48_tuple_key_refuted). Sizes below 2^64 bytes.

**C49 Message equality** (proved). `__eq__` stated on serialized slots; reflexivity with its exact condition; symmetry and transitivity of `==` on values together, by induction on their depth, where for dicts a counting argument shows that distinct keys and equal sizes make the inclusion mutual; induction over values: equal values have equal wire forms, so equal messages arrive equal. Flags of messages inside: C49_flag_inside (InsideFacts.v), by splitting the serialized slots at the part replaced.
Theorems: `C49_symmetric`, `C49_transitive`, `C49_received`, `C49_flag_inside`, `C49_flag_in_list`, `C49_equal_parts_refuted`, `C49_after_trip`, `C49_before_trip_refuted`, `C49_equality`, `C49_encrypted_ignored`, `C49_reflexive`, `C49_equal_hash_refuted`.
Remarks: Exact equality condition; reflexive, symmetric and transitive (C49_reflexive, C49_symmetric, C49_transitive); equality survives the wire (C49_after_trip), inequality need not (C49_before_trip_refuted); equal messages may hash differently (C49_equal_hash_refuted).

**C50 Chain accessors** (proved). Induction over nesting of the accessors' search.
Theorems: `C50_first_provider`, `C50_from_chain`, `C50_one_task`, `C50_one_task_refuted`.
Remarks: Totality and origin for everything loadable; mixing two tasks is possible when a value is missing (C50_one_task_refuted).

**C51 File lookup in transfer tokens** (proved). Search by category; first match in order (Props_Tasks.v). Received tokens, on their own or inside another message (Props_Files.v, FilesFacts.v): the `files` slot holds None or a list of FileInfos with a known category, by the invariant `loaded` of everything deserialized; the lookup is then total. A token whose payload leaves `files` out is accepted and its lookup raises TypeError: C51_lookup_refuted.
Theorems: `C51_received`, `C51_operation`, `C51_lookup_refuted`, `C51_first`, `C51_none`, `C51_exclusive`, `C51_kind`.
Remarks: All token messages and categories. That a lookup in a received token cannot fail is false: C51_lookup_refuted (a token without files is accepted).

**C52 Hex and uuid helpers are inverse and accept exactly the texts they should** (proved). Hex and uuid helpers as functions on bytes and text; the texts `uuid.UUID` accepts are given by a grammar of `int(text, 16)` proved equal to the parser, by induction over the text. `int(text, 16)` reads digits and blanks of any script, as Python does (the tables are those of Unicode 9.0, Python 3.6).
Theorems: `C52_hex_round_trip`, `C52_hex_round_trip_refuted`, `C52_uuid_round_trip`, `C52_uuid_text_round_trip`, `C52_hex_text_exact`, `C52_uuid_text_exact`, `C52_digits`, `C52_blanks`.
Remarks: Proved for non-empty byte strings; encode_hex(b'') raises IndexError (C52_hex_round_trip_refuted).

**C53 A failed dump can be retried** (proved). State after a failed `serialize`, for every failure.
Theorems: `C53_refuted`, `C53_retry_without_key`, `C53_retry_exact`.
Remarks: C53_retry_exact covers every failure; C53_refuted shows that retrying with the key fails.

**C54 Node public info and equality of nodes** (proved). Container update as a function; idempotence. Equality (`node_eq` of ContShown.v) goes through the dicts of both nodes; C54_equal reduces it to the fields.
Theorems: `C54_equal`, `C54_comparable_refuted`, `C54_fills_only_missing`, `C54_idempotent`, `C54_stays_valid`, `C54_super_node`, `C54_super_node_exact`.
Remarks: All nodes.

**C55 Lists of peers and task headers are validated elementwise** (proved). Elementwise inversion of `deserialize_slot`.
Theorems: `C55_peers`, `C55_tasks`, `C55_sent`.
Remarks: Every element of a received list satisfies its schema.

**C56 Constructor precedence** (proved). The constructor as a function of header, received slots and keywords, for every class (Message.v `msg_init`); unknown keywords in Props_Keywords.v.
Theorems: `C56_unknown_keyword`, `C56_precedence`, `C56_start_session`, `C56_start_session_refuted`.
Remarks: Exact for every class; C56_start_session_refuted is the instance that loses a received value.

**C57 Key derivation returns the length asked for** (proved). Length of the derived key for every requested length.
Theorems: `C57_kdf_length_exact`, `C57_kdf_length_refuted`.
Remarks: False for some lengths (33..56 and others); exact length proved, counterexample given. The library only asks for 32.

**C58 Promissory notes of messages** (proved). Promissory notes built from messages; the answer stated on the two signatures and the exact bytes they sign; letter case of addresses matters. What is raised: by cases along sig_valid, with the slots of a received message known from the loading invariant. When there is an answer: the signed bytes of both notes exist (signed_bytes_total), so only recovering the address is left.
Theorems: `C58_raises`, `C58_answer_refuted`, `C58_answers`, `C58_provider_answers`, `C58_concent_raises`, `C58_all_raise`, `C58_type_error`, `C58_overflow`, `C58_own_key`, `C58_other_key`, `C58_both_notes`, `C58_after_trip`, `C58_provider`, `C58_account_refuted`.
Remarks: Assumes crypto_ok including that an eth account address is the checksummed keccak of its public key; letter case matters for providers (C58_account_refuted). That every accepted TaskToCompute gets an answer is false: C58_answer_refuted.

**C59 Relaying is lossless** (proved). Induction over the list of hops with the invariant of received messages. For Hello (Props_Relay.v, RelayFacts.v): the replacement character never gets past the version's parser (`parsed_no_fffd`, stage by stage), so an accepted version is ASCII and survives the trip; then induction over the hops (`pass_whole`).
Theorems: `C59_any_number_of_hops`, `C59_whole`, `C59_version`, `C59_relay`.
Remarks: C59_relay and C59_any_number_of_hops are about the other classes; C59_whole covers Hello too, whose version string is not part of the slots.

**C60 Whatever is received whole can be sent again** (proved). Totality of `slots` and of CBOR on `loaded` and complete messages; on `loaded` messages `slots` fails with FieldError only (`slots_field`).
Theorems: `C60_can_be_sent_again`, `C60_incomplete_refuted`, `C60_sent_or_field_error`.
Remarks: C60_can_be_sent_again for every accepted complete message; C60_incomplete_refuted shows that completeness is needed. C59_any_number_of_hops builds on it.

**C61 Version numbers taken from git stay valid and interoperable** (proved). version.py as functions of git's output and of the file's content; validity through the grammar of C17.
Theorems: `C61_from_git`, `C61_white`, `C61_valid_exact`, `C61_interoperate`, `C61_version_file`, `C61_build_tag_refuted`.
Remarks: git's output format is an assumption of the statement (describes); the subprocess calls themselves are not modelled.

**C62 A version cut to Hello's field passes the same gate unless cut at a separator** (proved). Cuts of a version after 31 characters, case by case over where the cut falls.
Theorems: `C62_cut_version`, `C62_same_gate_refuted`.
Remarks: Cuts inside the prerelease are excluded by the length hypothesis; C62_same_gate_refuted shows the separator exception on a version git describes.

**C63 The protocol as a peer sees it** (proved). Literal tables of the protocol compared with the classes, then derived facts about every received frame.
Theorems: `C63_unsigned_from_anyone`, `C63_signed_from_one`, `C63_nested`, `C63_nowhere_else`, `C63_required`, `C63_required_sent`, `C63_enums`, `C63_enum_text`, `C63_signers`, `C63_signers_accepted`, `C63_slots_sent`, `C63_every_type`, `C63_container_fields`, `C63_task_source`.
Remarks: Tables of type numbers, slot names, enumeration texts, roles and task sources are literals in ProtocolFacts.v, transcribed from the source independently of Classes.v; the row lemmas compare both. C63_required is about None sent explicitly: leaving a required slot out is not refused (C13).

**C64 Key pair objects** (proved). The constructor's loop is a function of the number of rounds (None while still looping); exact results by induction over the rounds. pyelliptic and OpenSSL are parameters.
Theorems: `C64_constructed`, `C64_given`, `C64_given_refused`, `C64_returns_refuted`, `C64_generated`, `C64_valid_exact`, `C64_short_coordinate`, `C64_signed`, `C64_verify_exact`.
Remarks: pyelliptic's generator and OpenSSL's key check are parameters; check_ok assumes the check accepts exactly the pairs that belong together. C64_returns_refuted exhibits a key for which the constructor never returns.

**C65 Accepted evidence was really signed by the parties** (proved). `reach` is the walk of `validate_ownership_chain`. A received message is `loaded`, so are the messages inside it; the keys used for a message come from a TaskToCompute inside it. `task_paths` counts the slots leading to a TaskToCompute and shows that all but seven types reach one at most. Unforgeability is a hypothesis about the signatures in the message at hand (`genuine`), not about all signatures; a collision is named by the two messages (`sha1_collision`), because *some* collision always exists. `C65_one_pair_refuted` exhibits the accepted mixed message.
Theorems: `C65_one_pair`, `C65_one_task`, `C65_one_pair_refuted`, `C65_evidence`, `C65_terms`, `C65_sender`.

**C66 An honest exchange is accepted by everyone who checks it** (proved). `honest` is an inductive description of what parties following the protocol build, independent of the checks: it only mentions slots, `header_sign` and `sign_message`. By induction the keys found by the chain accessors are the parties' keys (`honest_keys`), and every message inside is honest, so `C25`'s condition holds for each. For the trip, `ends` relates a message to what arrives; the accessors, the keys, the header signature and all signatures agree at the two ends (`task_arrives`, `header_arrives`, `reach_arrives`). `C66_sender_receiver` goes in one direction only: an enum member in a plain slot arrives as its text.
Theorems: `C66_accepted`, `C66_inside`, `C66_arrives`, `C66_delivered`, `C66_sender_receiver`.

**C67 The shipped factories build what the library accepts** (proved). `Factories.v` models the factories with the random draws as arguments; a TaskToCompute is built step by step exactly as factory_boy evaluates the declarations and hooks. `signed_task_built` computes the result for symbolic draws: the header's and the messages' payloads are short enough to be hashed (`bnd`), so each signing step succeeds; the acceptance then follows from `C66` and from `generated_ethsig`. Cloning is `slots()` followed by the constructor: `slots_again` shows by induction on the nesting that the constructor inverts `slots()` on well-formed contents. Draws are bounded by `task_ok`; made-up names and ids are at most 128 scalar characters.
Theorems: `C67_clone`, `C67_clone_received`, `C67_hello_clone_refuted`, `C67_timestamp`, `C67_uuid`, `C67_version`, `C67_signed_task`.
Remarks: The claim that a clone verifies like the original is false for Hello (C67_hello_clone_refuted); the statement names the exception. factory_boy itself is not modelled: the order of declarations and hooks is written out.

**C68 Showing messages and containers** (proved). `msg_repr` returns the parts of the text instead of the text (the formatting of values by repr is not modelled); `slots_field`, by induction on the nesting, shows that `slots()` of a received message raises nothing but FieldError. Containers: `cont_repr` of ContShown.v, by the round trip of containers (C33).
Theorems: `C68_container`, `C68_node_shown`, `C68_node_tells_refuted`, `C68_received`, `C68_built_refuted`.
Remarks: False for constructed messages (C68_built_refuted); the statement says so. The text is represented by its parts.

**C69 Replies built by the shipped factories are accepted and delivered** (proved). Modelled: the factories of replies in Replies.v (factories/tasks.py 240-334, factories/concents.py 64-145, 213-238, 342-381) on top of Factories.v. The inductive predicate `made_up` says which messages the factories make of each other's. By induction on it every such message is small, well formed and honest (C66), so acceptance, cloning and delivery follow; `C69_total` shows that no factory call in the predicate fails.
Theorems: `C69_total`, `C69_accepted`, `C69_delivered`, `C69_payment`.
Remarks: The parts of a reply come from the factories themselves; a verdict's acknowledgement and ForceReportComputedTask hold the same report. Delivery needs the receiver's CBOR recursion depth to suffice.

**C70 What the signature of a message from a factory covers** (proved). Modelled: the order of post-generation hooks of factory-boy 2.9.2 (by creation counter, so the inherited `sign` runs first). `C70_verifies` for `reply`, which is every factory without own hooks; for the others the payload with and without the assigned part is shown to differ at the first slot that differs (`first_diff`, by prefix-freeness of the encodings), and C08's hash binding turns equal hashes into a SHA-1 collision. The failures are witnessed with the toy primitives in `C70_signed_refuted`.
Theorems: `C70_verifies`, `C70_reject`, `C70_response`, `C70_results_response`, `C70_token`, `C70_signed_refuted`.
Remarks: The naive claim that a message from a factory given sign__privkey verifies is false; the statement names the exceptions (C70_signed_refuted).

**C71 Named variants of the factories set their reason and part** (proved). Modelled: the classmethods of factories/tasks.py 290-312 and factories/concents.py 320-339, with the reason given as an option and the random draw as an argument. By computation for all arguments; the inverted condition is stated exactly and witnessed in `C71_response_refuted`.
Theorems: `C71_reject`, `C71_response`, `C71_response_refuted`.
Remarks: False for with_reject_report_computed_task in the code (C71_response_refuted).

**C72 Keyword arguments that are not slots** (proved). Modelled: `getattr(self, key, None) is None` of message/base.py 117 on the attributes set so far (`unset`), with the names of every class body in Attrs.v. By induction on the keywords and on permutations of them; the dependence on order is witnessed in `C72_order_refuted`.
Theorems: `C72_names`, `C72_properties`, `C72_address`, `C72_only_slots`, `C72_order`, `C72_order_refuted`, `C72_errors`.
Remarks: That the order of keywords never matters is false in the code (C72_order_refuted).

**C73 What can be dumped, and what is raised otherwise** (proved). Modelled: `Message.serialize` of message/base.py 212-245 with every `serialize_slot` (Message.v `serialize`, `ser_slot`, `wire`). What a slot may hold is the inductive `slot_holds`, message by message `sendable`; exactness by induction over the nesting of messages and lists, errors by the same induction and one over the nesting of containers.
Theorems: `C73_formed`, `C73_payload`, `C73_dump`, `C73_errors`, `C73_slots`.

**C74 Which bytes load, and to what** (proved). Modelled: `cbor.loads` behind serializer.py 35 (Cbor.v `dec`, `widen`). The specification is the inductive relation `spelt` (CborSpec.v), which mentions no decoder; soundness by induction on the relation, completeness by induction on the nesting limit and on the number of items. What floats denote is stated on sign, exponent and fraction (CborFloat.v).
Theorems: `C74_loads`, `C74_refused`, `C74_unique`, `C74_text`, `C74_half`, `C74_single`, `C74_patterns`.

**C75 A signature accepted on arrival need not verify later** (proved). Props_Later.v, LaterFacts.v, TwinFacts.v. The two hashes, of the received payload (check_sender) and of the slots serialized again (verify_signature), are compared under recovery of the same key; `broken` names exactly the three ways they could differ and still both verify. The forged frame is built for every accepted frame of every class that signs, Hello included, in the clear or encrypted, and every payload that decodes to the same value (twin_any), in particular with bytes appended (decoder ignores what follows, C74). Relative to crypto_ok only.
Theorems: `C75_later`, `C75_sent`, `C75_other_bytes`, `C75_appended`, `C75_verifies_later_refuted`.
Remarks: The converse, that whatever is accepted on arrival verifies afterwards, is false: C75_verifies_later_refuted.

**C76 The encrypted flag is the choice of whoever writes the frame** (proved). Props_Flag.v, FlagFacts.v. Non-interference of the flag: two runs of deserialize that agree on the parts named end alike (only_content); the frames in the clear, sealed by someone else and flagged without a key are instances. For Hello the frame is taken to be long enough to hold signature and version (108 bytes).
Theorems: `C76_only_content`, `C76_in_clear`, `C76_sealed`, `C76_no_key`, `C76_accepted_only_encrypted_refuted`.
Remarks: That a class to be encrypted is accepted only encrypted is false: C76_accepted_only_encrypted_refuted.

**C77 Which frames are accepted, and as which message** (proved). Props_Accept.v; the rules are in ReadSpec.v (what values are read as) and at the top and in the section on frames of AcceptFacts.v, and use the spelling relation of C74 (CborSpec.v). Each reading function is proved exact against its rule on decoded values (ReadProofs.v), nested messages by induction on the bound on nesting (ReadExact.v), the class checks and the frame in AcceptFacts.v. The rules use of the model only data tables (slot names and kinds, members, documented keys and defaults), py_iter and Python equality, dumps for the two header numbers under the signature, short_hash for the offer under ethsig, decode_hex and uuid_parse; the window for a float payment_ts is stated on its mantissa and exponent (`recent`, PayFacts.v).
Theorems: `C77_frames`, `C77_slots`, `C77_one_reading`, `C77_one_message`, `C77_class_checks`, `C77_containers`.

**C78 The Concent's replies that carry a file transfer token** (proved). Props_Grants.v; model in Grants.v (each factory as a function of its parts, draws, clock and key), proofs in GrantFacts.v: the sizes of what the factories build are bounded so that cbor can encode it, the token slot is a message of the right shape, and acceptance follows from the chain theorem C69 uses, in which the token takes no part. `C78_token_refuted` shows an accepted reply whose token verifies with none of the three keys.
Theorems: `C78_total`, `C78_accepted`, `C78_delivered`, `C78_token_refuted`.
Remarks: C78_token_refuted: an accepted reply need not hold a token that verifies.

**C79 Payment requests from the factories cannot be built signed, nor sent empty** (proved). Props_Grants.v, by computation for all arguments: the inherited hook `sign` runs before the factory's own (Grants.v payment_factory), and the slot does not allow None.
Theorems: `C79_key`, `C79_built`, `C79_one`, `C79_empty`, `C79_rejected_empty`, `C79_recipient`.

**C80 Tokens, payments, authorizations, session requests, greetings and peers from the factories can be sent** (proved). Props_Grants.v; one lemma for dumping and loading any message whose slots are small (GrantFacts.v small_delivered), on top of the round trip of C02; the inductive `sent` lists the factories covered. `C80_peer_refuted` is port 65535, which the factory draws and the validator refuses.
Theorems: `C80_delivered`, `C80_hello`, `C80_peer`, `C80_peers`, `C80_peer_refuted`.
Remarks: C80_peer_refuted: the factory may draw port 65535, which the validator refuses.

**C81 What is raised for a frame that is refused, and in which order it is checked** (proved). Props_Refuse.v; the rules are the inductives `refused` and `unread` of RefuseFacts.v, one constructor per check, each requiring the earlier checks to have been passed in the terms of C77. Both directions, so the rules also exclude each other. What the class checks raise is C84's `unchecked`.
Theorems: `C81_raised`, `C81_raises`, `C81_one_fate`.

**C82 Which slot the refusal of a message is blamed on** (proved). Props_Refuse.v; the inductive `blame` of BlameFacts.v over `stuck`, the first slot that cannot be read in the terms of C77, and `slot_fault` of C83. An equivalence with what `load_attrs` raises, by induction on the bound on nesting.
Theorems: `C82_blame`, `C82_read_or_blame`, `C82_nested_field_error`.

**C83 Which field is named when a container, a frozen dict or a single slot is refused** (proved). Props_Fault.v; the inductives `unbuilt` (containers), `unfrozen` (frozen dicts) and `slot_fault` of FaultFacts.v, over the fields of C77. `failing r o` says that `r` raises, naming field `o` or, for None, something that is no FieldError; each theorem is an equivalence, proved by following the fold over slots or items (FaultProofs.v).
Theorems: `C83_node`, `C83_header`, `C83_stats`, `C83_dict`, `C83_file`, `C83_slot`, `C83_named`.

**C84 What the checks of a class raise for a received message** (proved). Props_Check.v; the inductives `unchecked`, `bad_task`, `bad_id` and `foreign` of CheckFacts.v, one constructor per failure. Exhaustive (`vet_fate`), mutually exclusive (`unchecked_unique`) and disjoint from C77's `checked`. That a received WantToComputeTask can always be serialized for its hash, and a TaskToCompute unless that is missing, is proved from what received attributes are (LoadFacts.v, TotalFacts.v).
Theorems: `C84_raised`, `C84_one_reason`, `C84_not_both`, `C84_foreign`, `C84_hash`.

**C85 What ownership validation raises, and for which message of a chain** (proved). The rules (`disowned`, `bad_header`, `no_key`, `bad_hex`, `wrong_role`) are inductive and mention only slots, keys, hashes and signatures; each is proved equivalent to the function's error. The order of the chain is the inductive `visited`, proved to exist, to be unique and to list what C26 calls reachable; that the first failure in it decides is proved by induction over the nesting of messages. Not covered: a Concent key that is neither bytes nor None.
Theorems: `C85_raised`, `C85_hex`, `C85_chain`, `C85_order`, `C85_owners`.

**C86 ECIES in several threads gives what it gives in one** (proved). Small-step model of encrypt and decrypt over shared caches (Threads.v); an invariant on the caches and on every call in progress, kept by every step of every call; simulation of the atomic functions; a decreasing measure for termination; the lost sharing of ephemeral keys by an explicit run.
Theorems: `C86_alone`, `C86_sealed`, `C86_opened`, `C86_round_trip`, `C86_finishes`, `C86_reused_refuted`.
Remarks: Proved for every interleaving; that one manager shares the ephemeral key between encryptions to one recipient holds only one call at a time (C86_reused_refuted).

**C87 Ids generated by several threads carry their seed but can collide** (proved). Small-step model of uuid1; invariant over all interleavings; both collisions by explicit schedules from the start of the process.
Theorems: `C87_alone`, `C87_carries_seed`, `C87_equal_ids`, `C87_finishes`, `C87_unique_refuted`, `C87_later_refuted`.
Remarks: Seed and termination for every interleaving; uniqueness across threads is refuted by two schedules.

**C88 Dumping one message object from several threads** (proved). Small-step model of serialize on the shared flag and signature; two invariants over all interleavings (any frame; calls that agree); simulation of the atomic function; four explicit schedules for what goes wrong.
Theorems: `C88_alone`, `C88_agreeing`, `C88_frame`, `C88_finishes`, `C88_secret_refuted`, `C88_readable_refuted`, `C88_plain_refuted`, `C88_signed_refuted`.
Remarks: Agreeing calls and the make-up of any frame for every interleaving; the four ways in which disagreeing calls disturb each other are exhibited.

**C89 Text is hashed, signed and turned into keys as its UTF-8 bytes, and everything else is refused precisely** (proved). Seeds.v models the functions for a message or seed of any value (elsewhere they take bytes only, as the library calls them) and proves by case analysis which bytes get hashed, using the equivalence of encoding and decoding UTF-8 (CborSpec.utf8_iff); refusals and acceptance are equivalences; C89_bytes ties the functions to those of Data.v, C89_made to the constructor of Ecc.v.
Theorems: `C89_text`, `C89_bytes`, `C89_injective`, `C89_refused`, `C89_sign_fails`, `C89_verify_exact`, `C89_verify_fails`, `C89_round_trip`, `C89_type_refuted`, `C89_made`.
Remarks: C89_type_refuted: a signature does not distinguish text from the bytes of its encoding. Assumption: rlp 0.6.0's str_to_bytes is bytes(x, 'utf-8') for anything that is not bytes (read from memory of that library, not available in the sandbox).

**C90 A shown promissory note tells which note it is** (proved). Shown.v builds the text of the f-string; cutting at the first comma gives back each field, the decimal digits of the amount give back the number (SemVer.dec_str_spec), and what can be signed has no comma: decoded hexadecimal text has none, and neither has a text read as a uuid (by the exact description of such texts, C52).
Theorems: `C90_signable`, `C90_no_comma`, `C90_text_refuted`, `C90_missing_refuted`, `C90_bool_amount`.
Remarks: C90_text_refuted and C90_missing_refuted show the exceptions. Values other than text, numbers, booleans and None are not shown by the model.

**C91 What was received before makes no difference, so frames can be replayed while fresh** (proved). Replay.v threads the caches through a list of events: a load decrypts at most one ciphertext (decrypted_part; C91_one_decryption proves that nothing else reaches the decrypting function) and leaves the caches as that decryption does. By induction over the events the invariant of the caches (EciesProofs.einv) holds, under which decryption gives the same result from any two cache states, exceptions included. The times follow from the exact dispatch of admitted frames (C09).
Theorems: `C91_each`, `C91_one_decryption`, `C91_decryption_made`, `C91_again`, `C91_span`, `C91_unchecked`, `C91_once_refuted`.
Remarks: C91_once_refuted: no protection against replays within the window of freshness.

**C92 How far the clocks of sender and receiver may be apart** (proved). Clocks.v composes the constructor (the timestamp is the clock in whole seconds), the layout of dumped frames (C02) and the exact dispatch of loaded ones (C09); the bounds follow from a - 999999 <= 10^6 * (a / 10^6) <= a, and C92_tight gives both outcomes for every difference in between.
Theorems: `C92_guaranteed`, `C92_refused`, `C92_tight`, `C92_whole_seconds_refuted`.
Remarks: C92_whole_seconds_refuted contradicts the docstring of verify_time ('deliberately ignores microseconds').

**C93 Rules between the slots of a message: which are enforced by loading and which are only documented** (proved). `Rules.v` builds, for attributes that are possible slot by slot, a dict of slots that is read as them (`independent`), from the inductive specification `read` of C77; `only_these` goes through all classes; `own_key` specialises C06's exact characterisation. The `_refuted` theorems of `Props_Rules.v` give frames signed by the Concent (or a client) which load.
Theorems: `C93_independent`, `C93_only_these`, `C93_own_key`, `C93_own_key_refuted`, `C93_one_answer_refuted`, `C93_attached_refuted`.
Remarks: The documented rules themselves are refuted (C93_own_key_refuted, C93_one_answer_refuted, C93_attached_refuted); the statement says what holds instead. C93_independent is about decoded slots; the frames of the refutations are actual bytes.

**C94 Signing and verifying with a hash given by the caller (msg_hash)** (proved). `Given.v` models the optional parameter of the four methods (`hash_or`, `sign_with`, `verify_with`, `ethsig_with`, `check_ethsig_with`) next to the models without it, shows that they agree where they should and, from the laws of signing, that nothing but the hash matters otherwise.
Theorems: `C94_own`, `C94_own_ethsig`, `C94_content_ignored`, `C94_verified`, `C94_ethsig_verified`, `C94_ethsig_made`, `C94_loading`, `C94_intact_refuted`.
Remarks: The docstring of verify_signature is refuted for a given hash (C94_intact_refuted). A given hash is bytes in the model.

**C95 What objects share: signed copies and defaults of dicts** (proved). `Heap.v` models messages, dicts and lists as objects with places (`heap`), what an object shows (`view`), reachability, `copy.copy`+signing and `_set_defaults` with `deepcopy`; `HeapFacts.v` proves that views depend on reachable places only, refines the value model's `copy_and_sign` and `dset_defaults`, and derives the statements by induction on sequences of changes.
Theorems: `C95_copy`, `C95_own_attributes`, `C95_untouched`, `C95_follows`, `C95_stays_signed_refuted`, `C95_defaults`, `C95_defaults_apart`.
Remarks: That a signed copy stays correctly signed whatever is done to the original is refuted (C95_stays_signed_refuted); the statement says which changes are harmless. Containers (Node, TaskHeader, ...) are values here, not objects.

**C96 Dumping a message that other messages contain** (proved). `HeapDump.v` runs the value model's `serialize` on what an object shows and stores flag and signature at its place (`dump_at`); that what can be shown is acyclic (`shown_acyclic`, by induction on the depth) makes the dumped object show exactly what `serialize` leaves; `all_settled` is an induction on the sequence of dumps.
Theorems: `C96_dump`, `C96_acyclic`, `C96_again`, `C96_contained_refuted`.
Remarks: That dumping a contained message leaves the signature of the containing one valid is refuted (C96_contained_refuted): its flag is covered.

**C97 A frame altered on its way is refused** (proved). `hashed_of` reads the hashed content off a frame, `one_for_two` states what a signature good for two contents means. `sender_exact` gives for both frames what the signature recovers; equal digests and equal hash inputs give equal type, time and payload (`hash_input_inj`), and the load is then determined (`base_flag`). For Hello an induction over the grammar of versions (`version_chars`) shows that an accepted version holds no character that `encode('ascii','replace')` changes, so the hashed version is the version. `retyped` runs the load of the same bytes behind the number of any unsigned type; `made_ping` is the case of 1001, which has no slots.
Theorems: `C97_same_signature`, `C97_plain`, `C97_made_ping`, `C97_retyped`.
Remarks: The type of a frame can be changed to any of the twelve types that are not signed (C97_made_ping, C97_retyped); C97_same_signature and C97_plain therefore ask that both types are signed.

**C98 A message can be passed on encrypted to someone it was not sent to** (proved). Composition: what `load` decrypts is encrypted again for the third party (`encrypt_total`), put behind the same header and signature, decrypted there in any cache state (`roundtrip`, C44) and accepted (`sealed_accepted`, C76). That an accepted Hello is long enough to be cut up is `hello_long`: an empty ciphertext is never decrypted.
Theorems: `C98_passed_on`, `C98_encrypted_for_me_refuted`.
Remarks: Intended reading refuted on a RemoveTask (C98_encrypted_for_me_refuted). Task messages name their parties inside; verify_owners (C27) with one's own key is what tells.

**C99 What the ethereum signature of a TaskToCompute shows, and what it does not** (proved). `verify_ethsig` shown equal to the check of the offer's signature with `ethsig` in place of the provider's; the frame round trip (C03) then carries any TaskToCompute with the same three slots, or with the provider's signature, to acceptance; one header signature recovers to one key. The docstring's claim is refuted by a frame. The address: the decoded text is compared with what eth_utils makes of it, for every slot value that decodes.
Theorems: `C99_address`, `C99_address_refuted`, `C99_of_the_offer`, `C99_nothing_else`, `C99_taken_over`, `C99_provider_named`, `C99_one_owner`, `C99_control_refuted`.
Remarks: Exact condition (C99_of_the_offer), independence of everything else (C99_nothing_else), takeover in general (C99_taken_over, C99_provider_named), what does identify the requestor (C99_one_owner). The docstring's claim that the requestor controls the address is refuted (C99_control_refuted). That the address belongs to the key whose signature is checked is false for keys given as bytes: C99_address_refuted.

