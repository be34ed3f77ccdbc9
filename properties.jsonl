{"id": "C01", "title": "Header codec is lossless and exact", "statement": "Every (type, timestamp, encrypted) triple in the 16-bit/64-bit/bool ranges serializes to exactly 11 bytes and unpacks to the same triple; bytes of any other length are refused with HeaderError.", "quantifier": "all header triples in range; all byte strings", "why_tests_cant": "There are 2^81 header triples and unboundedly many byte strings of a wrong length; tests sample a handful.", "anchors": ["golem_messages/message/base.py:serialize_header", "golem_messages/message/base.py:unpack_header"]}
{"id": "C02", "title": "Frame layout", "statement": "The bytes produced by serializing any message are the 11-byte header, then the message's signature (65 zero bytes when nobody signed it), then the payload; a receiver slicing at offsets 11 and 76 recovers exactly these parts.", "quantifier": "all messages, keys and encryption functions for which serialization succeeds", "why_tests_cant": "the frame must parse for every payload and signature, not for a sample", "anchors": ["golem_messages/message/base.py:serialize", "golem_messages/message/base.py:deserialize", "golem_messages/message/base.py:_fake_sign"]}
{"id": "C03", "title": "Plain round trip", "statement": "Dumping a well-formed message of any shipped type without encryption and loading the bytes returns the message the sender holds (same type, timestamp, signature and slot values, nested messages included), or the error of the type's own validity checks on that message. If the contents are in a form the wire changes (tuples, string enums, ids given as enums, ...) the message that arrives holds, slot by slot, the wire form of what was sent, and a second trip changes nothing more. StartSessionResponse counts as well-formed only without conn_id (see C15).", "quantifier": "all shipped message types, all well-formed slot contents (any nesting, sizes), all signing keys or none, all accepted times", "why_tests_cant": "Slot contents nest without bound and there are some sixty types, each with its own slots and checks; tests dump one instance of some of them.", "anchors": ["golem_messages/shortcuts.py:dump", "golem_messages/shortcuts.py:load", "golem_messages/message/base.py:serialize", "golem_messages/message/base.py:deserialize", "golem_messages/message/base.py:slots", "golem_messages/message/base.py:load_slots"]}
{"id": "C04", "title": "Encrypted round trip", "statement": "Dumping a message with an encryption function and loading with the matching decryption function returns the same message; only the transport flag says it was encrypted. Types that opt out of encryption are sent in the clear.", "quantifier": "all well-formed messages, all encryption/decryption pairs that invert each other on the payload", "why_tests_cant": "It ranges over all pairs of functions that invert each other, not just the one cipher a test uses, and over all contents.", "anchors": ["golem_messages/message/base.py:serialize", "golem_messages/message/base.py:deserialize_with_header", "golem_messages/shortcuts.py:dump", "golem_messages/shortcuts.py:load"]}
{"id": "C05", "title": "An existing signature is never replaced", "statement": "Serializing a message that already has a signature keeps that signature bit for bit, and asking to sign it again fails with SignatureAlreadyExists without changing the message; serializing twice yields the same signature.", "quantifier": "all messages, all keys, all sequences of serialize calls", "why_tests_cant": "It is about arbitrary sequences of calls on one object; tests make one or two calls.", "anchors": ["golem_messages/message/base.py:serialize"]}
{"id": "C06", "title": "Loaded with a sender key means signed by that key", "statement": "If load succeeds with a sender public key on a signing message type, the public key recovered from the 65 signature bytes over the hash of exactly (type, timestamp, received payload [, version for Hello]) is that sender key; otherwise load fails.", "quantifier": "all byte strings, all public keys, all shipped types", "why_tests_cant": "An attacker chooses the bytes; the claim is about every byte string and key, and a test only shows that the strings it tries are refused.", "anchors": ["golem_messages/message/base.py:deserialize_with_header", "golem_messages/message/base.py:verify_signature", "golem_messages/cryptography.py:ecdsa_verify"]}
{"id": "C07", "title": "The signed hash binds type, time and content", "statement": "Two (type, timestamp, payload) triples with the same hash input are equal; hence equal short hashes mean equal content or an explicit SHA-1 collision. For Hello the version string is bound too.", "quantifier": "all pairs of messages/payloads", "why_tests_cant": "It compares all pairs of unbounded strings; no finite set of pairs shows that an encoding is injective.", "anchors": ["golem_messages/message/base.py:get_short_hash", "golem_messages/message/base.py:Hello.get_short_hash"]}
{"id": "C08", "title": "Signature does not depend on transport encryption", "statement": "The hash that is signed, and hence the signature, does not change when the message itself is sent encrypted or in the clear. It does cover the headers of nested messages, their encryption flag included: two messages with the same hash have, at every path, nested messages with the same header, signature and content, or SHA-1 collides; so sending a nested message encrypted after the outer one was signed invalidates the outer signature.", "quantifier": "all messages and both encryption flags", "why_tests_cant": "It holds for every message and nesting; the nested flag only matters for messages of a particular shape that no test builds.", "anchors": ["golem_messages/message/base.py:get_short_hash", "golem_messages/message/base.py:serialize_message_single"]}
{"id": "C09", "title": "Freshness window", "statement": "With time checking on, a frame is admitted iff its timestamp lies between now-10min and now+5min inclusive (and is representable); older gives MessageTooOldError, newer MessageFromFutureError.", "quantifier": "all timestamps and all clock readings (microsecond resolution)", "why_tests_cant": "Off-by-one errors sit at the two boundaries, for every clock reading in microseconds; tests freeze one clock.", "anchors": ["golem_messages/message/base.py:verify_time", "golem_messages/settings.py:MSG_TTL"]}
{"id": "C10", "title": "Header admission", "statement": "A frame is only dispatched when its timestamp is strictly between 2010-01-01 and 3010-01-01 and its type is registered; the resulting object is an instance of the class registered for that type.", "quantifier": "all byte strings, clocks and keys", "why_tests_cant": "The bytes are chosen by the peer; the claim excludes dispatch for all frames not described, which are infinitely many.", "anchors": ["golem_messages/message/base.py:deserialize_header", "golem_messages/message/base.py:deserialize"]}
{"id": "C11", "title": "Short frames", "statement": "Any byte string of at most 76 bytes is refused with MessageError before anything else happens.", "quantifier": "all byte strings of length <= 76", "why_tests_cant": "There are 256^76 such byte strings; tests use one or two.", "anchors": ["golem_messages/message/base.py:deserialize"]}
{"id": "C12", "title": "Hostile bytes cause MessageError, with three named exceptions", "statement": "Loading arbitrary bytes either returns a message or raises a subclass of MessageError, unless the frame is a SubtaskResultsAccepted whose payment_ts is not an integer above -2^1023, a VerdictReportComputedTask missing a required part, or a TaskToCompute missing a required part or with a requestor key or id that is not hex text; such frames do let TypeError, OverflowError, AttributeError and binascii.Error escape.", "quantifier": "all byte strings, all keys, all clocks", "why_tests_cant": "That nothing but the named exceptions escapes is a claim about every hostile byte string; fuzzing finds exceptions but does not exclude them.", "anchors": ["golem_messages/message/base.py:deserialize", "golem_messages/message/base.py:load_slots", "golem_messages/message/tasks.py:is_valid", "golem_messages/message/tasks.py:deserialize_with_header"]}
{"id": "C13", "title": "Nested messages have the declared class", "statement": "In a loaded message, at every depth, each slot declared to contain a message holds an instance of the declared class (a non-empty list of them for list slots) or None; a required slot is None only if it was left out of what was sent - which loading does not notice, although the slot is declared required.", "quantifier": "all byte strings that load", "why_tests_cant": "The frame is chosen by the peer and messages nest; a test can only show that a particular wrong class is refused.", "anchors": ["golem_messages/message/base.py:load_slots", "golem_messages/message/base.py:deserialize_message"]}
{"id": "C14", "title": "Type of signed nested messages", "statement": "A nested message with the hash of a message signed as class c carries c's type number and timestamp in its own header (or the two SHA-1 inputs collide); loading does not compare that number with the slot's class, so a signature given for one type can be presented as another (ForceGetTaskResult as AckReportComputedTask), even passing the ownership chain.", "quantifier": "all nested frames in all slots", "why_tests_cant": "The confusion needs a pair of types whose payloads fit each other, and the claim excludes it for all pairs and contents but those named.", "anchors": ["golem_messages/message/base.py:deserialize_message_single", "golem_messages/message/base.py:get_short_hash"]}
{"id": "C15", "title": "Every shipped type carries its slots", "statement": "For each shipped type but StartSessionResponse the slot values written by the sender are the ones read by the receiver: constructing from the decoded payload yields the same slots for every header and signature. StartSessionResponse is the exception: its only slot is written and lost on reading.", "quantifier": "all shipped types and slot values", "why_tests_cant": "It is a claim for each of the types and for all values of each slot.", "anchors": ["golem_messages/message/tasks.py:StartSessionResponse", "golem_messages/message/base.py:load_slots"]}
{"id": "C16", "title": "Nested lists round trip", "statement": "A list slot of nested messages round trips element by element for every non-empty list of well-formed messages; a list in a single slot and a single message in a list slot are refused by the receiver. The empty list is the exception: it is written and every receiver refuses it.", "quantifier": "all lists of nested messages", "why_tests_cant": "Lists have any length and each element nests further; tests use lists of one or two.", "anchors": ["golem_messages/message/base.py:serialize_message", "golem_messages/message/base.py:deserialize_message", "golem_messages/message/p2p.py:RemoveTaskContainer", "golem_messages/message/concents.py:ForcePayment"]}
{"id": "C17", "title": "Hello version gate", "statement": "A Hello is accepted only if the peer's version has our major and minor number (prereleases of the lower bound and of the next minor excluded); unparsable versions give VersionMismatchError. The version parser accepts exactly major.minor.patch[-prerelease][+build] where the three numbers have no leading ASCII zero and may be written in the decimal digits of any script; among ASCII texts it accepts only the printed form of the version it returns, possibly followed by one newline.", "quantifier": "all version byte strings, all own versions", "why_tests_cant": "The gate reads arbitrary bytes as a version; tests list some versions, and the accepted set is infinite.", "anchors": ["golem_messages/message/base.py:verify_version", "golem_messages/message/base.py:Hello.deserialize_with_header"]}
{"id": "C18", "title": "Hello version on the wire", "statement": "The version string survives the 32-byte field of Hello exactly when it is ASCII and at most 31 characters long, and the field's content is covered by the signature; longer versions are cut and non-ASCII characters replaced.", "quantifier": "all ASCII version strings", "why_tests_cant": "It depends on the length and every character of the string; tests use the current version.", "anchors": ["golem_messages/message/base.py:Hello.serialize", "golem_messages/message/base.py:Hello.deserialize_with_header"]}
{"id": "C19", "title": "Registry history", "statement": "Over any sequence of register calls, a type number is never rebound, a failed registration changes nothing, and for every registered class library[get_type(c)] is c.", "quantifier": "all sequences of register calls", "why_tests_cant": "It is an invariant of arbitrary sequences of calls, failed ones included.", "anchors": ["golem_messages/register.py:MessageRegister"]}
{"id": "C20", "title": "Shipped registry is a bijection", "statement": "Type numbers and shipped message classes correspond one to one, and all type numbers fit the 16-bit header field.", "quantifier": "all shipped classes and all integers", "why_tests_cant": "It speaks about every integer and about classes nobody wrote a test for.", "anchors": ["golem_messages/register.py:library", "golem_messages/message/base.py", "golem_messages/message/tasks.py", "golem_messages/message/concents.py", "golem_messages/message/p2p.py"]}
{"id": "C21", "title": "Generated ids carry the seed", "statement": "An id generated from a seed always passes check_id_seed for it and for exactly those seeds with the same first six bytes (as a number); the hex variants do the same on the decoded seed; deriving a new id from an id keeps the node part.", "quantifier": "all seeds, all clock readings and clock sequences", "why_tests_cant": "It quantifies over all seeds, clock readings and clock sequences; tests use random ones and cannot show that other seeds are refused.", "anchors": ["golem_messages/idgenerator.py:generate_id", "golem_messages/idgenerator.py:check_id_seed", "golem_messages/idgenerator.py:generate_new_id_from_id", "golem_messages/idgenerator.py:hex_seed_to_node"]}
{"id": "C22", "title": "Generated ids are unique in a process", "statement": "All ids generated in one process are pairwise different even if the clock stalls or goes backwards.", "quantifier": "all histories of clock readings, seeds and random clock sequences", "why_tests_cant": "It is about whole histories of a process with stalling or turning clocks, which tests do not produce.", "anchors": ["golem_messages/idgenerator.py:generate_id"]}
{"id": "C23", "title": "Loaded TaskToCompute is vetted", "statement": "A TaskToCompute obtained from load has a valid ethereum signature by its requestor_ethereum_public_key over the nested offer, and both its task_id and subtask_id were generated from its requestor_id. On the sender's side generate_ethsig changes nothing but ethsig, succeeds for every usable key once an offer and a requestor_ethereum_public_key are in place, and its result passes verify_ethsig exactly if requestor_ethereum_public_key names the key that was used.", "quantifier": "all byte strings loading to TaskToCompute; all TaskToCompute messages and private keys for generate_ethsig", "why_tests_cant": "The frame is chosen by the peer; the claim is that no byte string loads to an unvetted TaskToCompute.", "anchors": ["golem_messages/message/tasks.py:TaskToCompute.deserialize_with_header", "golem_messages/message/tasks.py:verify_ethsig", "golem_messages/message/tasks.py:validate_taskid", "golem_messages/message/tasks.py:generate_ethsig"]}
{"id": "C24", "title": "Vetting of nested TaskToCompute", "statement": "A nested TaskToCompute is not vetted when the outer message is loaded; a TaskToCompute that satisfied the guarantees of C23 when the outer message was dumped still satisfies them after loading, at any depth.", "quantifier": "all messages, paths to nested TaskToCompute, keys and encryption", "why_tests_cant": "It is about all depths and contents of nested messages and all keys.", "anchors": ["golem_messages/message/base.py:deserialize_message_single", "golem_messages/message/tasks.py:TaskToCompute"]}
{"id": "C25", "title": "Ownership validation is exact", "statement": "validate_ownership of a task message succeeds iff the provider and requestor keys of the chain's TaskToCompute decode, a TaskToCompute's task header is signed by the requestor, and the message's signature verifies for one of the roles the type expects (key from the chain, or the given Concent key), with only well-formed 64-byte keys tried before it. If all expected keys are well-formed and none signed, the failure is InvalidSignature; a missing Concent key is a TypeError and a malformed key InvalidKeys instead.", "quantifier": "all task messages and keys", "why_tests_cant": "It ranges over all chains, keys, signatures and orders of roles; tests check some roles of some messages.", "anchors": ["golem_messages/message/tasks.py:TaskMessage.validate_ownership", "golem_messages/message/tasks.py:TaskToCompute.validate_ownership"]}
{"id": "C26", "title": "Ownership chain covers every nested task message", "statement": "validate_ownership_chain succeeds iff validate_ownership succeeds for the message and, recursively, for every task message reachable through its slots; its error is that of one of them. WantToComputeTask is not a task message, so its signature is not checked.", "quantifier": "all chains of any depth, all sets of keys", "why_tests_cant": "Chains nest to any depth and branch over several slots; tests build the usual ones.", "anchors": ["golem_messages/message/tasks.py:validate_ownership_chain"]}
{"id": "C27", "title": "verify_owners", "statement": "verify_owners succeeds iff each non-empty provider/requestor key given equals the one in the chain's TaskToCompute and the ownership chain is valid; a mismatch raises OwnershipMismatch. An empty key is not compared.", "quantifier": "all chains and all three keys given", "why_tests_cant": "An equivalence over all keys: tests show some matching and some wrong keys.", "anchors": ["golem_messages/message/tasks.py:verify_owners"]}
{"id": "C28", "title": "Nested signatures survive transport", "statement": "If a nested message's signature verifies before the outer message is dumped it verifies after it is loaded, for every key.", "quantifier": "all well-formed chains and keys", "why_tests_cant": "It depends on re-serialization being identical for every content, which a test checks for the contents it builds.", "anchors": ["golem_messages/message/base.py:get_short_hash", "golem_messages/message/base.py:slots", "golem_messages/message/base.py:load_slots"]}
{"id": "C29", "title": "Payment timestamp window", "statement": "A SubtaskResultsAccepted with integer payment_ts is valid iff timestamp-900s <= payment_ts <= timestamp; otherwise the error is ValidationError, except that the integers at or below -(2^1024 - 2^970), which round to no float, raise OverflowError, and a payment_ts which is no number raises TypeError. A finite float is valid iff it is not later than the timestamp and at most 900 s plus half the distance of the timestamp to the float below it earlier; infinities are refused; but the float NaN is valid at any time, so a received acceptance may carry no payment time at all.", "quantifier": "all payment_ts values and header timestamps", "why_tests_cant": "The boundaries have to be right for every pair of values, huge integers and non-integers included.", "anchors": ["golem_messages/message/tasks.py:SubtaskResultsAccepted.is_valid"]}
{"id": "C30", "title": "Rejection validity", "statement": "SubtaskResultsRejected is valid iff it has a reason, any attached ForceGetTaskResultFailed is about the same task and subtask, and ForcedResourcesFailure carries such an attachment, every failure being a ValidationError; from a requestor, additionally the reason must be in the list for the Concent mode, and a missing reason is an AttributeError.", "quantifier": "all rejection messages, with any attachment and reason", "why_tests_cant": "Reasons, attachments, ids and roles combine; tests cover some of the combinations.", "anchors": ["golem_messages/message/tasks.py:SubtaskResultsRejected.is_valid", "golem_messages/message/tasks.py:is_valid_for_requestor"]}
{"id": "C31", "title": "Verdict consistency", "statement": "VerdictReportComputedTask is valid iff both TaskToCompute messages in it are equal (or both absent). Every other outcome is ValidationError, provided the verdict itself can be shown (the error's text contains its repr); received verdicts always can (C68). The ReportComputedTask messages around them may differ.", "quantifier": "all verdict messages with any two chains inside", "why_tests_cant": "It compares all pairs of nested messages; tests use one equal and one unequal pair.", "anchors": ["golem_messages/message/concents.py:VerdictReportComputedTask.is_valid"]}
{"id": "C32", "title": "Frozen/validating dictionaries keep their schema", "statement": "After any sequence of constructor/item assignments, a frozen dict has exactly the declared keys, each present, values that were validated; failed assignments leave it unchanged. A new dict holds under each declared key the value given for it last or, if none was given, the documented default (empty text, list or dict, None, zero, FileInfo's category 'results'); a Peer has no defaults: all its keys must be given.", "quantifier": "all sequences of constructions and assignments with any keys and values", "why_tests_cant": "It is an invariant of arbitrary sequences of operations, failed ones included.", "anchors": ["golem_messages/datastructures/__init__.py:FrozenDict", "golem_messages/datastructures/__init__.py:ValidatingDict", "golem_messages/message/tasks.py:ComputeTaskDef", "golem_messages/message/concents.py:FileInfo", "golem_messages/datastructures/p2p.py:Peer"]}
{"id": "C33", "title": "Containers enforce their declaration", "statement": "Building a container succeeds iff all required fields are present, no unknown field is given, nested values can be built and every validator accepts; on success all fields are set. Failures are FieldError, or MessageError when building a nested object fails; for a task header only when its owner is a dict with a key that cannot be a keyword argument. The order in which the keyword arguments are given makes no difference to what is built nor to the error, except to which of several unknown arguments is named.", "quantifier": "all keyword dictionaries of all container classes", "why_tests_cant": "An equivalence over all dictionaries of arguments; tests leave out or spoil one field at a time.", "anchors": ["golem_messages/datastructures/__init__.py:Container.load_slots"]}
{"id": "C34", "title": "Task header round trip and signature", "statement": "A task header built from its own dict form equals the original and has the same hash; signing does not change the hash; verify accepts exactly signatures by the given key; a missing signature is InvalidSignature. Signatures of headers and of messages do not pass for each other: one signature that is good, with one key, for a header and for a message of any class means a collision of SHA-1 or SHA3-256 on different bytes, or a key recovered from one signature for two different digests. Neither the order of the keyword arguments nor that of the fields of the owner changes a header; but the dict is not sorted, as the docstring of to_dict says it is: two headers whose dicts are equal have different hashes, and one's signature is refused for the other, if a dict inside them (environment_prerequisites) is in another order.", "quantifier": "all task headers, messages and keys", "why_tests_cant": "It holds for all contents of a header and all keys, and for all pairs of a header and a message; tests build one header.", "anchors": ["golem_messages/datastructures/tasks.py:TaskHeader", "golem_messages/datastructures/__init__.py:Container.to_dict", "golem_messages/message/base.py:Message.verify_signature", "golem_messages/message/base.py:Message.get_short_hash"]}
{"id": "C35", "title": "Validators decide exactly their documented sets", "statement": "Each validator accepts exactly: text up to the maximum length (128 code points for varchar128); non-bool integers; positive integers; ports 1..65534 (the documented 1..65535 is refuted); booleans; dicts; the texts of the semantic version grammar (numbers in the decimal digits of any script, as semantic_version 2.8's \\d allows); and for addresses the IPv4 and IPv6 texts of the standard grammar, packed addresses of 4 or 16 bytes, integers below 2^128 and booleans. Every refusal is a FieldError of that field.", "quantifier": "all values a validator can be given", "why_tests_cant": "The accepted set is stated exactly, for all values of all types; tests list some accepted and some refused ones.", "anchors": ["golem_messages/validators.py"]}
{"id": "C36", "title": "Mask arithmetic", "statement": "Masks behave as sets of bits: from_bits/to_bits are inverse, increase(n) keeps the set bits and sets exactly min(n, 256-k) more, decrease(n) is the converse, generate(n) has min(n,256) bits, for every random choice; negative n is refused. The binary text of a mask reads back as its integer, has one digit per bit and a 1 for every bit that is set. from_dict makes a mask from a dict with exactly the key byte_repr, or the empty mask from the empty dict, and from nothing else.", "quantifier": "all masks, all n, all random samples, all operation sequences, all dicts", "why_tests_cant": "The results depend on random choices and on the operations before; tests see one run.", "anchors": ["golem_messages/datastructures/masking.py:Mask"]}
{"id": "C37", "title": "Mask matching", "statement": "An address matches iff its digest has no bit in common with the mask; the empty mask matches everyone; increasing a mask never adds a matching address, decreasing never removes one. Of the 2^256 digests a mask with k bits matches exactly 2^(256-k), and masks match the same digests exactly if they have the same to_bytes.", "quantifier": "all masks and addresses", "why_tests_cant": "It compares all pairs of masks and all addresses.", "anchors": ["golem_messages/datastructures/masking.py:Mask.matches", "golem_messages/datastructures/masking.py:Mask.to_bytes"]}
{"id": "C38", "title": "Mask size for a task", "statement": "For up to 2^40 workers get_mask_for_task(d,p) uses the least number of bits k (capped at 256) with p <= d*2^k, whatever the rounding of math.log2 within a relative error of 2^-41; no potential workers gives the empty mask. So with evenly spread digests at most d of p workers match and more than d/2, and all of them if p <= d. More desired or fewer potential workers never mean more bits; potential workers with none desired raise ValueError.", "quantifier": "all positive worker counts", "why_tests_cant": "It is about all pairs of counts and about the rounding of a logarithm near powers of two.", "anchors": ["golem_messages/datastructures/masking.py:get_mask_for_task"]}
{"id": "C39", "title": "Promissory notes sign/verify", "statement": "A note signed with a private key verifies iff the note's address_from is that key's address; a missing signature verifies as False; malformed signature tuples raise TypeError. What is signed is the ethereum prefix for 124 bytes followed by contract, sender, recipient, amount and subtask id. A signature of an int and two byte strings is valid exactly if the payer's address is recovered from it and the keccak of the signed bytes. For any note and any signature what is raised is TypeError, AttributeError, ValueError, binascii.Error or OverflowError, and nothing without a signature.", "quantifier": "all notes, private keys and values offered as signatures", "why_tests_cant": "It is about all notes, keys and signatures; tests sign one note with one key.", "anchors": ["golem_messages/datastructures/promissory.py:PromissoryNote"]}
{"id": "C40", "title": "Promissory notes bind their terms", "statement": "Two notes over 20-byte hex addresses with the same signed bytes have the same contract, payer, payee, amount and subtask. A signature that is valid for two notes of one payer is under the same terms both times, unless keccak has one value for their two texts or the signature recovers the payer from two values. For two notes of one payer over one contract both hold with any texts, of any length, as the payee (it comes from the offer and is not checked): the digits after its first two characters are the same up to letter case, unless contract and payer are both the zero address.", "quantifier": "all pairs of notes, all signatures, all texts as payee", "why_tests_cant": "It compares all pairs of notes; a test can only show two that differ.", "anchors": ["golem_messages/datastructures/promissory.py:hexmsg", "golem_messages/datastructures/promissory.py:hash"]}
{"id": "C41", "title": "Deposit amounts", "statement": "Required and suggested deposits are the documented multiples and required <= suggested for non-negative prices.", "quantifier": "all prices, negative ones included", "why_tests_cant": "It is arithmetic over all integers, and the order can fail for single prices only.", "anchors": ["golem_messages/helpers.py:requestor_deposit_amount", "golem_messages/helpers.py:provider_deposit_amount"]}
{"id": "C42", "title": "Maximum download time is sufficient and tight", "statement": "For sizes below 2^53 bytes, maximum_download_time(size, rate) minus the lead-in is the least whole number of seconds in which rate KB/s transfers size bytes; for larger sizes float rounding can make it too short, but by less than 1/64 s. A zero rate is refused, and so are sizes that take 2^47 seconds or longer.", "quantifier": "all sizes and transfer rates", "why_tests_cant": "Rounding of floats has to be right for every size and rate; it first goes wrong above 2^53.", "anchors": ["golem_messages/helpers.py:maximum_download_time"]}
{"id": "C43", "title": "Subtask verification time and protocol times", "statement": "The time allowed is 4*CMT + 3*download time + half the subtask timeout; it grows with size and deadline; it is refused exactly for dates outside the years 1 to 9999. CMT, FAT, AVCT and PDT are 4, 16 and 28 minutes and 12 hours; before being sent ForceReportComputedTask waits two transport times and one action time (145 s), less than CMT, and no other class waits. In a report the time is read from its size, the timestamp of its TaskToCompute and the deadline of the task, and is at least 19 minutes when the size is not negative and the deadline not before the timestamp. A time is computed only from numbers: a received report without a size, a TaskToCompute or a task has none. The size is not checked on loading: a properly signed report with a negative size can leave a negative time, and for one without a size TypeError is raised; what is raised for a received report is TypeError, AttributeError (only without a TaskToCompute), ValueError or OverflowError, never a MessageError.", "quantifier": "all sizes below 2^53, all timestamps, all deadlines; all message classes; all received reports", "why_tests_cant": "It is about all sizes, timestamps and deadlines and where dates stop being representable, and about every report that can be received.", "anchors": ["golem_messages/helpers.py:subtask_verification_time", "golem_messages/constants.py:MSG_DELAYS", "golem_messages/message/tasks.py:ReportComputedTask"]}
{"id": "C44", "title": "ECIES round trip under any cache history", "statement": "Whatever was encrypted before, to whomever and whenever, data encrypted to a public key decrypts with its private key to the same bytes and is exactly 113 bytes longer.", "quantifier": "all histories of encryptions, all data, keys, IVs and clock readings", "why_tests_cant": "What is cached depends on the whole history of calls; tests start from empty caches.", "anchors": ["golem_messages/cryptography.py:ECIES", "golem_messages/cryptography.py:ECIESKeyManager"]}
{"id": "C45", "title": "ECIES rejects malformed or altered data", "statement": "decrypt succeeds only if the data starts with 0x04, is at least 113 bytes and its tag is the HMAC of the IV and ciphertext under the derived key; otherwise it raises and load reports DecryptionError. Two ciphertexts with the same tag that are accepted with the same key and shared data are equal, unless they differ in the sender's ephemeral key only and both keys lead to the same shared point (then they say the same), or SHA-256 collides on the two shared points, or HMAC-SHA256 on the two middle parts. The tag does not fix where the ciphertext ends and the shared data begins: a prefix of the shared data can be moved into the ciphertext, which is then accepted with the rest of the shared data as a longer plaintext.", "quantifier": "all byte strings, all keys and shared data, after any history of encryptions and decryptions", "why_tests_cant": "The tests alter single bytes of one ciphertext; that no altered ciphertext passes, whatever was cached before, concerns all pairs of byte strings.", "anchors": ["golem_messages/cryptography.py:ECIES.decrypt", "golem_messages/cryptography.py:ECIES.encrypt", "golem_messages/message/base.py:deserialize_with_header"]}
{"id": "C46", "title": "Ephemeral keys are renewed after the timeout", "statement": "The caches never exceed 1024 entries and memoised pure functions return what the function returns. A cached ephemeral key is replaced after the timeout only when a lookup misses the cache: on a hit the timeout is not consulted, so a key in use is reused however old it is.", "quantifier": "all histories of calls and clock readings", "why_tests_cant": "It is an invariant of histories of any length, with more than 1024 entries and with long pauses.", "anchors": ["golem_messages/cryptography.py:ECIESKeyManager.get_ephem_key"]}
{"id": "C47", "title": "copy_and_sign", "statement": "copy_and_sign returns a message with the same content that carries a signature by the key if it had none, leaves the original untouched, and returns an already signed message unchanged.", "quantifier": "all messages and private keys", "why_tests_cant": "It holds for all messages and keys, and says that something is left untouched, which a test checks for single attributes.", "anchors": ["golem_messages/utils.py:copy_and_sign"]}
{"id": "C48", "title": "Serializer", "statement": "loads(dumps(v)) returns v up to the wire's view (tuples as lists, dict and str subclasses as dict and str) for every dumpable value whose dict keys stay hashable and distinct; encodings are prefix-free; dumping fails, with SerializationError, exactly for values with lone surrogates or unsupported objects in them; every value loaded from any bytes can be dumped and loads again unchanged.", "quantifier": "all values, all byte strings", "why_tests_cant": "Values nest without bound and all byte strings can be read; tests list examples.", "anchors": ["golem_messages/serializer.py:dumps", "golem_messages/serializer.py:loads"]}
{"id": "C49", "title": "Message equality", "statement": "Two messages are equal iff class, header type, timestamp, signature and slots are (and, for Hello, the version); the encrypted flag is ignored. Equality is reflexive on messages without a NaN, symmetric (whatever the comparison answers, it answers the other way round) and transitive: for all messages whose dicts hold no key twice, as Python's dicts never do, and without any condition for messages that were received. Messages that are equal when sent are equal when they arrive; the converse fails (a tuple and a list of the same items differ but arrive equal). Equal messages need not have the same hash. The encrypted flag of messages inside is not ignored: a message of which a part is replaced by an equal one equals what it was exactly if the flags of the two parts are equal, so messages made of equal parts need not be equal.", "quantifier": "all pairs and triples of messages, with values nested to any depth", "why_tests_cant": "It compares all pairs of messages, before and after transport.", "anchors": ["golem_messages/message/base.py:__eq__", "golem_messages/message/base.py:Hello.__eq__"]}
{"id": "C50", "title": "Chain accessors", "statement": "task_id, subtask_id, provider_id, requestor_id and task_to_compute of a message are those of the first provider slot that has a value; for received messages they never raise and come from a TaskToCompute inside the message, the same one for all accessors if no TaskToCompute inside lacks the value. Otherwise a message can mix values of two tasks.", "quantifier": "all messages, whatever is nested in them", "why_tests_cant": "Chains nest to any depth and which slot comes first depends on the class and on what is absent.", "anchors": ["golem_messages/message/tasks.py:_get_task_value"]}
{"id": "C51", "title": "File lookup in transfer tokens", "statement": "get_file_info returns the first file of the category, and None iff there is none; upload and download are mutually exclusive. In every received token, on its own or inside another message, either the files were left out of the payload, and then get_file_info raises TypeError, or every file is a FileInfo of a known category and get_file_info returns the first one of the category asked for, or None if there is none. A received token is for exactly one of upload and download unless its operation was left out, and then for neither. That a lookup in an accepted token never fails is refuted by a token with an empty payload.", "quantifier": "all lists of files, all received frames, senders and categories", "why_tests_cant": "File lists have any length and any repetitions, and payloads written by others can leave out or add anything.", "anchors": ["golem_messages/message/concents.py:FileTransferToken, FileTransferToken.deserialize_slot, FileTransferToken.get_file_info, FileTransferToken.FileInfo"]}
{"id": "C52", "title": "Hex and uuid helpers are inverse and accept exactly the texts they should", "statement": "decode_hex(encode_hex(b)) = b for all non-empty bytes (encode_hex of no bytes raises IndexError); decode_hex accepts exactly the texts (or bytes) whose lower case is the hex text of some bytes; bytes32_to_uuid(uuid_to_bytes32(u)) = u for all uuids; a text is read as a uuid exactly when, without urn:, uuid:, outer braces and dashes, it is 32 characters that int(text, 16) reads as a number, where decimal digits and blanks of any script count as the ASCII ones, so that one id has many spellings.", "quantifier": "all bytes, all uuids, all texts", "why_tests_cant": "All byte strings, uuids and texts; the exact set of accepted texts is infinite.", "anchors": ["golem_messages/utils.py", "golem_messages/idgenerator.py:check_id_seed"]}
{"id": "C53", "title": "A failed dump can be retried", "statement": "A failed dump either leaves the signature as it was, and then every further dump gives what it would have given, or it has signed the message: then dumping again without a key gives exactly what dumping with the key would have given, and dumping again with the key is refused with SignatureAlreadyExists.", "quantifier": "all messages, keys and failing encryption functions", "why_tests_cant": "The failure can occur at every step, with every message and key, and the claim is about all dumps after it.", "anchors": ["golem_messages/message/base.py:serialize"]}
{"id": "C54", "title": "Node public info and equality of nodes", "statement": "update_public_info fills only missing public values, keeps the others, and is idempotent. A node is a super node exactly when both addresses are known and equal; after the update that is when it had no public address or an equal one. Two nodes are equal exactly when all their fields are; comparing a node with anything but a node raises TypeError.", "quantifier": "all nodes, with any public values known or missing, and all pairs of nodes", "why_tests_cant": "All combinations of known and missing addresses, ports and names.", "anchors": ["golem_messages/datastructures/p2p.py:Node"]}
{"id": "C55", "title": "Lists of peers and task headers are validated elementwise", "statement": "Every element of a loaded Peers/Tasks message is a complete Peer (valid address, port and node) / a TaskHeader satisfying its declaration; only a list of containers, respectively an iterable of Peers, can be sent.", "quantifier": "all byte strings that load", "why_tests_cant": "The frame is chosen by the peer; the claim is that no byte string loads to a list with a bad element.", "anchors": ["golem_messages/message/p2p.py:Peers", "golem_messages/message/p2p.py:Tasks"]}
{"id": "C56", "title": "Constructor precedence", "statement": "A non-None value received in a slot is never overridden by a keyword argument; missing slots take the keyword value or None. StartSessionResponse is the exception: its slot always takes the keyword value, whatever was received. A keyword that is no slot, no property, no method and no class attribute of the class is an AttributeError.", "quantifier": "all classes, slots, keywords", "why_tests_cant": "Classes, slots, received values and keywords combine; tests use one class.", "anchors": ["golem_messages/message/base.py:Message.__init__"]}
{"id": "C57", "title": "Key derivation returns the length asked for", "statement": "_ckdf(key_material, key_len) returns the length computed by its block count, which is key_len for the 32 bytes the library asks for but not for every key_len.", "quantifier": "all key materials and lengths", "why_tests_cant": "only length 32 is ever used by the library; the repetition count is wrong for others", "anchors": ["golem_messages/cryptography.py:ECIESKeyManager._ckdf"]}
{"id": "C58", "title": "Promissory notes of messages", "statement": "verify_all_promissory_notes says yes about a TaskToCompute exactly if both signatures in it, whatever their origin, are ones by the account of requestor_ethereum_public_key: one of the note paying the deposit contract, one of the note paying the provider. So the notes a requestor signs (sign_all_promissory_notes) verify iff they were signed with the key of that account, before and after transport; the note a provider signs in SubtaskResultsVerify verifies iff the text of provider_ethereum_address is the signer's checksummed address. An address of the same account in other letter case is refused. For a received TaskToCompute verify_all_promissory_notes does not always answer: with a signature for the Concent present it raises TypeError (a signature that is not an int and two byte strings, or a provider_ethereum_address that is no text), AttributeError (no price), OverflowError (exactly a price outside 0 to 2^256 and a signature of three items), binascii.Error or ValueError, never a MessageError; without that signature it answers no. With addresses as provider and contract, a price in range and signatures that are absent or an int and two byte strings it answers, or raises ValueError when no address can be recovered from one of them; so for the provider's note in SubtaskResultsVerify. With such addresses and price it raises TypeError exactly if a signature that is looked at is present and not of this shape. For any message whatever, checking notes raises none of the library's own exceptions.", "quantifier": "all TaskToCompute/SubtaskResultsVerify messages with payable terms, all keys, contracts, prices below 2^256", "why_tests_cant": "all keys, addresses, prices and subtask ids, and every wire image of the message", "anchors": ["golem_messages/message/tasks.py:TaskToCompute.sign_all_promissory_notes", "golem_messages/message/tasks.py:TaskToCompute.verify_all_promissory_notes", "golem_messages/message/concents.py:SubtaskResultsVerify", "golem_messages/datastructures/promissory.py:PromissorySlotMixin"]}
{"id": "C59", "title": "Relaying is lossless", "statement": "A complete message that was received from the wire, a Hello included, and is dumped again without re-signing is received as the identical message by every further node, whatever route (encrypted or not) it came by and however many nodes it passes; a Hello provided each node accepts its version. The version of a received Hello is ASCII and at most 31 characters long, so it is sent on unchanged.", "quantifier": "all byte strings that load, all message types but Hello, all later receivers, clocks and verification keys", "why_tests_cant": "quantifies over everything that can be received, not only over messages built by the constructors", "anchors": ["golem_messages/message/base.py:deserialize", "golem_messages/message/base.py:serialize", "golem_messages/message/base.py:load_slots", "golem_messages/message/base.py:slots", "golem_messages/message/base.py:Hello.serialize, Hello.deserialize_with_header, verify_version"]}
{"id": "C60", "title": "Whatever is received whole can be sent again", "statement": "If Message.deserialize accepts a byte string and the resulting message is complete (no required slot missing at any depth), then slots() of that message succeeds, its result survives the cbor codec (text without lone surrogates, distinct hashable dict keys, no container or message object left inside), and serialize() without a key writes a frame; the message object is unchanged but for the encrypted flag of its header, which is reset. Exception proved beside it: an accepted message whose required nested message is missing (ReportComputedTask without task_to_compute) cannot be dumped: FieldError. Nothing else can happen: every accepted message, complete or not, is dumped or the error is a FieldError.", "quantifier": "all received byte strings, all message classes (63, Hello included), all environments of the receiver and of the sender, any nesting depth; encodings below 2^64 bytes", "why_tests_cant": "Dumping fails only for particular values deep inside a message (lone surrogates, enum members, unhashable or clashing keys, unset nested messages); tests reach a few of them, the theorem covers every byte string the network can deliver.", "anchors": ["golem_messages/message/base.py Message.serialize", "golem_messages/message/base.py Message.slots", "golem_messages/message/base.py serialize_slot", "golem_messages/datastructures/__init__.py Container.to_dict", "golem_messages/serializer.py dumps"]}
{"id": "C61", "title": "Version numbers taken from git stay valid and interoperable", "statement": "call_git_describe turns what git prints for a tagged commit into the tag without its prefix, and for a commit n after the tag with abbreviated hash h into tag+devn.gh. The latter is a valid semantic version exactly when the tag is a valid version without build metadata, and it then has the tag's major, minor, patch and prerelease, so that two checkouts on or after such tags pass each other's version gate exactly when their tags do (same major and minor, neither a prerelease of a .0 patch). get_version returns that version and leaves it in RELEASE-VERSION unless git failed or updating was switched off, in which case the file is untouched. After a tag with build metadata the version is one that every peer refuses.", "quantifier": "every prefix and tag without white space, every number of commits and hash, every file content, every pair of checkouts", "why_tests_cant": "There are no tests of version.py; the set of tags, commit counts and hashes is unbounded and the claim of validity is an equivalence.", "anchors": ["version.py:call_git_describe", "version.py:get_version", "golem_messages/__init__.py:__version__", "golem_messages/message/base.py:verify_version"]}
{"id": "C62", "title": "A version cut to Hello's field passes the same gate unless cut at a separator", "statement": "Hello carries 31 characters of the sender's version. If the version without its build metadata fits, the receiver's gate decides about the cut text exactly as about the whole version, except when the cut leaves a trailing '+' or '.', and then every receiver refuses the sender with VersionMismatchError. A version that git describes can hit that exception.", "quantifier": "every valid version whose part before the build metadata has at most 31 characters, every Hello carrying it, every receiver's version", "why_tests_cant": "It ranges over all versions of any length and all cut points; tests use one short version.", "anchors": ["golem_messages/message/base.py:Hello", "golem_messages/message/base.py:verify_version", "version.py:call_git_describe"]}
{"id": "C63", "title": "The protocol as a peer sees it", "statement": "Stated by wire type number and slot name, independently of the classes' declarations: twelve types are accepted whoever sent them and every other frame loads under at most one sender key; at every depth of a loaded message the slots that hold messages hold None or messages (or non-empty lists of messages) of the listed type and no other slot holds one; None sent in a required slot is refused; the enumerated slots hold None or one of the listed texts, and exactly the member whose text was sent; a message about a task is accepted as owned exactly when signed in one of the listed roles; every type sends exactly the listed slots, by name and in order; every container class has and sends exactly the listed fields; and the task accessors look through the listed slots in order.", "quantifier": "all 63 message types, all frames, all nesting depths, all slots, all keys and clocks", "why_tests_cant": "The tables range over every class and every received frame at every nesting depth; the test suite constructs one or two messages per class with a factory and never a frame whose nested slots hold something else.", "anchors": ["golem_messages/message/base.py:Message.deserialize_slot", "golem_messages/message/base.py:Message.slots", "golem_messages/message/tasks.py:TaskMessage.validate_ownership", "golem_messages/message/tasks.py:TaskMessage.task_to_compute", "golem_messages/message/concents.py", "golem_messages/message/p2p.py", "golem_messages/message/resources.py", "golem_messages/register.py:MessageRegister.get_type"]}
{"id": "C64", "title": "Key pair objects", "statement": "Every ECCx that its constructor returns holds a 32-byte private key and the 64-byte public key that belongs to it, and a private key given to it is kept. A given 32-byte key with a public key is accepted in the first round; a key that has none is refused with ValueError; a given key of any other length that has a public key makes the constructor loop forever. Of generated pairs the first whose private key has 32 bytes decides: if its coordinates do not make 64 bytes, or do not belong to it, the constructor raises CryptoError without another try. What one object signs has 65 bytes and another object verifies it exactly when the public keys are equal; verification succeeds exactly for 65-byte signatures that recover to the public key, and otherwise raises InvalidSignature.", "quantifier": "every private key, every sequence of generated pairs, every number of rounds, every message and signature", "why_tests_cant": "Tests use a few keys; the loop's termination and the rare short encodings range over all keys and all sequences of generated pairs.", "anchors": ["golem_messages/cryptography.py:ECCx", "golem_messages/cryptography.py:privtopub", "golem_messages/cryptography.py:verify_pubkey", "golem_messages/cryptography.py:ecdsa_sign", "golem_messages/cryptography.py:ecdsa_verify"]}
{"id": "C65", "title": "Accepted evidence was really signed by the parties", "statement": "When validate_ownership_chain accepts a received message all of whose TaskToComputes name the same provider and requestor, every task message inside it is signed, in a role its type allows, by that provider, that requestor or Concent; verify_owners alone gives this for every type that has room for one TaskToCompute only. It does not for the other types (2011, 2030, 4004, 4006, 4007, 4016, 4021): a RejectReportComputedTask accepted by verify_owners for one pair of keys may contain a CannotComputeTask of a provider who is neither. If the signatures are genuine (made by the holders of the keys), every message inside has the header and the serialized slots of a message such a party signed, and a TaskToCompute inside has the price, size, hashes, keys, compute_task_def and WantToComputeTask of a TaskToCompute the requestor signed, or the two messages are an explicit SHA-1 collision. A frame accepted with a sender key has the class, the timestamp and the payload of a message the key's holder signed, again up to a collision.", "quantifier": "all received messages, all depths of nesting, all keys, all sets of messages the parties have signed, all crypto primitives satisfying the laws", "why_tests_cant": "Tests check that one good chain passes and a few tampered ones fail; they cannot show that nothing else that passes was ever made up.", "anchors": ["golem_messages/message/tasks.py: TaskMessage.validate_ownership_chain, TaskMessage.verify_owners, TaskMessage.validate_ownership", "golem_messages/message/base.py: Message.get_short_hash, Message.verify_signature, Message.deserialize_slot", "golem_messages/message/concents.py"]}
{"id": "C66", "title": "An honest exchange is accepted by everyone who checks it", "statement": "If a TaskToCompute names the provider's and the requestor's public key, holds a task header signed by the requestor and is signed by the requestor, and every other task message holds only such messages (at least one in the slots its task is taken from) and is signed by one of the roles that may sign its type, then verify_owners accepts the whole message for the three parties' keys, as it does every task message inside. Dumping the message (by anyone, with or without a key or encryption) and loading it does not change that, and within the time window the loading succeeds if the message passes its type's own checks; in general, whatever well-formed message verify_owners accepts at the sender it accepts at the receiver.", "quantifier": "all messages built this way, at all depths of nesting and with all contents, all three parties' keys, all senders, encryption functions and receivers, all crypto primitives satisfying the laws", "why_tests_cant": "Tests build a handful of chains for some message types with three fixed key pairs and never check a chain after it went over the wire; a type whose roles or providers do not fit together would go unnoticed.", "anchors": ["golem_messages/message/tasks.py: TaskMessage.validate_ownership, TaskMessage.validate_ownership_chain, TaskMessage.verify_owners, TaskMessage.task_to_compute", "golem_messages/message/base.py: Message.sign_message, Message.serialize, Message.deserialize", "golem_messages/datastructures/tasks.py: TaskHeader.sign, TaskHeader.verify", "golem_messages/message/concents.py"]}
{"id": "C67", "title": "The shipped factories build what the library accepts", "statement": "TaskToComputeFactory.with_signed_nested_messages, given the requestor's and the provider's key pairs, returns for all random draws and clock readings a TaskToCompute that verify_owners accepts for the parties' keys and that passes the checks made on load (ethereum signature, task and subtask ids); the nested WantToComputeTask verifies with the provider's key and its header has the message's task id. clone_message returns an equal message for every received complete message, except that a Hello gets the cloning library's own version and then need not verify any more. A message whose timestamp was overridden does not have its old hash, unless SHA-1 collides. fake_golem_uuid's ids pass check_id for exactly the keys with the same first six bytes; fake_version's texts parse to the numbers drawn.", "quantifier": "all random draws within the factories' ranges, all key pairs, all received messages of all classes and nestings, all timestamps, all library versions, all crypto primitives satisfying the laws", "why_tests_cant": "The factories are what the tests are made with: a test sees a few random draws, so a draw for which the factory fails or builds a refused message shows up as a flaky test at best.", "anchors": ["golem_messages/factories/helpers.py: override_timestamp, clone_message, fake_golem_uuid, fake_version, MessageFactory", "golem_messages/factories/tasks.py: WantToComputeTaskFactory, ComputeTaskDefFactory, TaskToComputeFactory", "golem_messages/factories/datastructures/tasks.py: TaskHeaderFactory", "golem_messages/factories/datastructures/p2p.py: Node"]}
{"id": "C68", "title": "Showing messages and containers", "statement": "repr() of every received message, complete or not, returns a text: it shows the class, the header, the signature and, exactly if slots() succeeds, the slots (else '<unserializable>'). Not so for messages just constructed: repr of Peers(peers=5) raises TypeError. Every container that was built can be shown: all its slots in the order of their declaration, each as serialized; a Node shows its name and key only, so different nodes are shown alike.", "quantifier": "all received byte strings, all message classes, any nesting depth; all container classes and keyword arguments", "why_tests_cant": "repr runs the whole serialization of slots; log lines and error texts call it on whatever the network delivered, and a test sees only the values it was given.", "anchors": ["golem_messages/message/base.py:Message.__repr__", "golem_messages/message/base.py:Hello.__repr__", "golem_messages/message/concents.py:VerdictReportComputedTask.is_valid", "golem_messages/datastructures/__init__.py:Container.__repr__", "golem_messages/datastructures/p2p.py:Node.__repr__"]}
{"id": "C69", "title": "Replies built by the shipped factories are accepted and delivered", "statement": "Starting from a signed TaskToCompute, every reply the factories of factories/tasks.py and factories/concents.py build from parts they built themselves (reports, failures, acknowledgements, acceptances, rejections, Concent's forced messages and answers up to the verdict), each signed by a role that may sign it, is built without an exception, is accepted by verify_owners for the three parties' keys and clones to an equal message. Dumped and loaded within the time window it is loaded and accepted again. The one condition is on SubtaskResultsAccepted, which is valid exactly if its payment time was drawn at most 900 seconds before the message was built and not after.", "quantifier": "all random draws within the factories' ranges, all clock readings, all key pairs, all depths of nesting the factories produce, all crypto primitives satisfying the laws", "why_tests_cant": "The test suite takes these messages for granted: it builds a few of them with random draws, and a combination whose roles, reasons or nested parts do not fit would show only as an occasional failure elsewhere.", "anchors": ["golem_messages/factories/tasks.py: CannotComputeTaskFactory, TaskFailureFactory, ReportComputedTaskFactory, AckReportComputedTaskFactory, SubtaskResultsAcceptedFactory, SubtaskResultsRejectedFactory", "golem_messages/factories/concents.py", "golem_messages/factories/helpers.py: MessageFactory.sign, clone_message", "golem_messages/message/tasks.py: TaskMessage.verify_owners"]}
{"id": "C70", "title": "What the signature of a message from a factory covers", "statement": "A factory without hooks of its own that is given a private key returns, for every message class and all arguments, a message that verifies with the matching public key. Factories with hooks assign parts after the inherited sign hook has run: for RejectReportComputedTask, ForceReportComputedTaskResponse and ForceSubtaskResultsResponse with any part, and for FileTransferToken with the download hook, the signature is the one of the message without the parts (with operation upload), and the message built has another hash unless SHA-1 collides; such messages do not verify. A verdict whose acknowledgement was for another report than its ForceReportComputedTask does not verify either.", "quantifier": "all message classes, constructor arguments, private keys, parts of the right classes, clock readings, all crypto primitives satisfying the laws", "why_tests_cant": "Tests that use sign__privkey do so for some factories and verify what they built only where they need it; which fields a signature misses for which factory cannot be seen from samples.", "anchors": ["golem_messages/factories/helpers.py: MessageFactory.sign, optional_subfactory", "golem_messages/factories/tasks.py: RejectReportComputedTaskFactory", "golem_messages/factories/concents.py: ForceReportComputedTaskResponseFactory, ForceSubtaskResultsResponseFactory, FileTransferTokenFactory, VerdictReportComputedTaskFactory"]}
{"id": "C71", "title": "Named variants of the factories set their reason and part", "statement": "RejectReportComputedTaskFactory.with_task_to_compute, with_task_failure and with_cannot_compute_task and ForceReportComputedTaskResponseFactory.with_ack_report_computed_task return a message that holds the named part and the reason given or, if none is given, the variant's own reason. with_reject_report_computed_task does the opposite because its condition is inverted: a reason given is replaced by RejectFromRequestor, and without one the reason is whatever was drawn.", "quantifier": "all reasons given or drawn, all parts, all keys or none, all clock readings", "why_tests_cant": "The default reason of a factory is drawn at random, so a variant that forgets to set it is right in a quarter of the runs.", "anchors": ["golem_messages/factories/tasks.py: RejectReportComputedTaskFactory.with_task_to_compute, RejectReportComputedTaskFactory.with_task_failure, RejectReportComputedTaskFactory.with_cannot_compute_task", "golem_messages/factories/concents.py: ForceReportComputedTaskResponseFactory.with_ack_report_computed_task, ForceReportComputedTaskResponseFactory.with_reject_report_computed_task"]}
{"id": "C72", "title": "Keyword arguments that are not slots", "statement": "A keyword naming a method or class attribute is silently ignored, wherever it stands. A keyword naming a property (task_id, subtask_id, task_to_compute, provider_id, requestor_id and the like) is silently ignored if the received slots and the keywords before it already give the property a value, and is an AttributeError otherwise; for TaskToCompute's requestor_ethereum_address the TypeError or ValueError of computing it escapes. Whatever is accepted, the message is the one built from the slots alone. The order of keywords is irrelevant among slots, but not in general.", "quantifier": "all classes, received slots, lists of keywords in any order, values", "why_tests_cant": "The tests pass a few known keywords; that a misspelt or computed name is dropped or refused depending on its position is visible only over all orders and classes.", "anchors": ["golem_messages/message/base.py: Message.__init__", "golem_messages/message/tasks.py: TaskMessage, WantToComputeTask.task_id, TaskToCompute.requestor_ethereum_address, TaskToCompute.task_id"]}
{"id": "C73", "title": "What can be dumped, and what is raised otherwise", "statement": "Every message made from keyword arguments has all its slots. Such a message is dumped exactly if: no key is given for a message that already has a signature; every slot of it and of the messages nested in it holds what the slot's kind allows (a message of exactly the declared class or a list of those, None where allowed, a node, a list of peers or of task headers, or a value cbor can encode); its timestamp is an integer of 64 bits; its signature is None or bytes; a Hello's version is text; and, if it is to be signed here, its type can be encoded and the key is a valid secret. Otherwise the exception is determined by which of these fails: SignatureAlreadyExists, FieldError naming a slot of the message or of one nested in it, SerializationError, struct.error, TypeError (signature, or a task header with an integer mask), ValueError (key), AttributeError (Hello's version), TypeError, AttributeError or KeyError only for the lists of Peers and Tasks, or what the encryption raises.", "quantifier": "all classes, header fields, signatures, slot values nested to any depth, keys and encryption functions; sizes below 2^64", "why_tests_cant": "The tests dump well-formed factory messages and a few wrong ones; which of all possible slot values and nested messages make a dump fail, and that nothing else is ever raised, is a statement about every value.", "anchors": ["golem_messages/message/base.py: Message.serialize, Message.serialize_slot, Message.slots, Message.serialize_header, Hello.serialize", "golem_messages/message/p2p.py: Peers.serialize_slot, Tasks.serialize_slot", "golem_messages/datastructures/__init__.py: Container.to_dict"]}
{"id": "C74", "title": "Which bytes load, and to what", "statement": "Bytes load to a value exactly if they begin with a spelling of that value in the sense of RFC 7049 as far as cbor 1.0.0 supports it: unsigned and negative integers with heads of any width, byte and text strings in one piece or in chunks up to a break, lists and dicts of known or unknown length, dicts with hashable keys in which a repeated key keeps its place and takes the later value, bignums, other tags, false, true, null, undefined, and floats of two, four and eight bytes, nested at most to the recursion limit; anything may follow. All other bytes raise SerializationError. No bytes begin with two spellings. Text is read exactly if it is the encoding of Unicode scalars. Half and single precision floats are read to the double of the same sign and value, infinities and NaNs included.", "quantifier": "all byte strings, values and nesting limits", "why_tests_cant": "The tests load what they dumped, which uses one of the many spellings; the bytes that arrive are chosen by the peer, and the claim says for every byte string whether it is accepted and as what.", "anchors": ["golem_messages/serializer.py: loads", "golem_messages/message/base.py: Message.deserialize"]}
{"id": "C75", "title": "A signature accepted on arrival need not verify later", "statement": "A message accepted with its sender's key verifies with that key afterwards (verify_signature, verify_owners, relaying) if the payload bytes it came with are the ones its slots serialize to, and only then, unless SHA-1, SHA-3 or signature recovery is broken. Everything this library dumps verifies after loading with exactly the keys it verified with before. But a key holder can sign the same message, of any class that signs, in the clear or encrypted, written in other bytes (e.g. with bytes appended to the payload): that frame is accepted on arrival, and the accepted message is no evidence afterwards. The claim that whatever is accepted with a key verifies with it later is refuted by a TaskToCompute that its provider accepts but that no ReportComputedTask can be based on.", "quantifier": "all frames, decryption functions, keys, message classes that sign, and all payloads decoding to the same value", "why_tests_cant": "Tests load what the library dumped; the difference only shows for payloads written by another encoder, of which there are infinitely many, and 'only then' speaks of all of them.", "anchors": ["golem_messages/message/base.py: Message.deserialize_with_header, get_short_hash, verify_signature, Hello.deserialize_with_header", "golem_messages/message/tasks.py: TaskMessage.verify_owners"]}
{"id": "C76", "title": "The encrypted flag is the choice of whoever writes the frame", "statement": "What a frame is accepted as depends only on its type, time, signature, decrypted payload and (Hello) version; the flag is stored and otherwise ignored. So whoever can decrypt a frame can send it on in the clear and is accepted as its sender, whoever can read a frame can encrypt it to anyone, a Hello too though it is never encrypted by its sender, and load without a private key accepts plain frames that have the flag set. The claim that classes which are to be encrypted are accepted only encrypted is refuted.", "quantifier": "all frames, classes, decryption functions, keys and flag bytes", "why_tests_cant": "A test can try a frame; that nothing but the five parts matters, for two arbitrary frames and decryption functions, is a statement about pairs of byte strings of any length.", "anchors": ["golem_messages/message/base.py: Message.ENCRYPT, deserialize, deserialize_with_header, serialize", "golem_messages/shortcuts.py: load, dump"]}
{"id": "C77", "title": "Which frames are accepted, and as which message", "statement": "Message.deserialize returns a message m exactly if the bytes are a frame of m under an independently stated grammar: two bytes that are the registered number of m's class, eight bytes that are a time after 2010 and before 3010 (and, if times are checked, at most ten minutes old and five ahead), the flag byte, 65 bytes of signature, and a payload which, decrypted if the flag is set, starts with one CBOR item that is read as m's attributes. How decoded values are read as slots, nested messages, containers, enums and validating dicts is stated by rules, at every depth. A Hello ends in a padded version that must be compatible. With a sender's key, signed classes must be signed by it. TaskToCompute, SubtaskResultsAccepted, SubtaskResultsRejected and VerdictReportComputedTask must meet the conditions of their class; nothing is required of any other class. A frame is a frame of at most one message.", "quantifier": "all byte strings, clocks, decryption functions, keys, classes and messages, all nestings of decoded values", "why_tests_cant": "An exact description of an accepted language needs both directions over all byte strings: tests show frames accepted or refused one at a time, not that the rules leave out none and let in no other.", "anchors": ["golem_messages/message/base.py: Message.deserialize, deserialize_header, deserialize_with_header, deserialize_slot, load_slots, __init__, Hello.deserialize_with_header", "golem_messages/message/tasks.py: TaskMessage.deserialize_with_header, is_valid, TaskToCompute.deserialize_with_header, verify_ethsig, validate_taskid", "golem_messages/datastructures: Container, FrozenDict, tasks.TaskHeader, p2p.Node, p2p.Peer", "golem_messages/validators.py", "golem_messages/message/concents.py"]}
{"id": "C78", "title": "The Concent's replies that carry a file transfer token", "statement": "The factories of file transfer tokens, of the Concent's three replies that carry one (AckSubtaskResultsVerify, ForceGetTaskResultUpload, ForceGetTaskResultDownload), of commitments and rejections of payments, of client authorizations and of session requests succeed on what they draw, signed or not. Such a reply signed by the Concent is accepted by verify_owners for the three parties' keys and clones to itself; dumped and loaded within the time window it is accepted as well. This holds whatever the token: its signature is not looked at, and a token given the download operation by its factory verifies with nobody's key.", "quantifier": "all crypto satisfying the stated laws, all key pairs, draws and clock readings in range, all tokens from their factory with any list of at most 1000 files, any operation and any signing key, all requests from their factories", "why_tests_cant": "The factories draw at random, so a test sees one point; that the token takes no part in acceptance is about all tokens, including those signed by others.", "anchors": ["golem_messages/factories/concents.py: FileTransferTokenFactory, AckSubtaskResultsVerifyFactory, ForceGetTaskResultUploadFactory, ForceGetTaskResultDownloadFactory, ForcePaymentCommittedFactory, ForcePaymentRejectedFactory, ClientAuthorizationFactory", "golem_messages/message/tasks.py: TaskMessage.verify_owners", "golem_messages/message/concents.py: AckSubtaskResultsVerify, ForceGetTaskResultUpload, ForceGetTaskResultDownload, FileTransferToken"]}
{"id": "C79", "title": "Payment requests from the factories cannot be built signed, nor sent empty", "statement": "The factory of ForcePayment, given a private key, always raises FieldError for subtask_results_accepted_list: the message is signed before it gets its list. Without a key it returns a message holding the acceptances given, or else those generated, or else None; the named variant generates exactly one. With None the message can be neither signed nor dumped, and a ForcePaymentRejected made of it cannot be built signed and cannot be dumped. The two named variants of ForcePaymentCommitted hold their recipient whichever recipient is passed.", "quantifier": "all environments, clock readings, lists of acceptances given and generated, non-empty keys, encryption functions", "why_tests_cant": "The existing tests only build payment requests unsigned with tasks. That no key and no list make the signed construction work is a statement about all of them.", "anchors": ["golem_messages/factories/concents.py: ForcePaymentFactory, ForcePaymentCommittedFactory, ForcePaymentRejectedFactory", "golem_messages/factories/helpers.py: MessageFactory.sign", "golem_messages/message/base.py: Message.serialize_slot", "golem_messages/message/concents.py: ForcePayment"]}
{"id": "C80", "title": "Tokens, payments, authorizations, session requests, greetings and peers from the factories can be sent", "statement": "What the factories of FileTransferToken, ForcePayment (with a list), ForcePaymentCommitted, ForcePaymentRejected, ClientAuthorization, WantToStartTaskSession and SetTaskSession return can be dumped, with a key if it is unsigned; dumped with a key it verifies with the public key; and it loads within the time window as a message with the same header, signature and slots (up to how values travel). The same holds for Hello wherever the sender's version is accepted. A peer is built exactly if its address is an IP address and its port is 1 to 65534, and a list of such peers is a proper Peers message. The factory draws ports up to 65535, so it may raise.", "quantifier": "all crypto satisfying the stated laws, all draws and clock readings in range, all lists of at most 1000 acceptances, all receivers with the same cryptography", "why_tests_cant": "The factories draw at random: the port that cannot be built comes once in 65535 runs, and the round trip is about every draw.", "anchors": ["golem_messages/factories/p2p.py", "golem_messages/factories/base.py: HelloFactory", "golem_messages/factories/datastructures/p2p.py: Node, Peer", "golem_messages/factories/concents.py", "golem_messages/datastructures/p2p.py: Peer", "golem_messages/validators.py: validate_port", "golem_messages/message/base.py: Message.serialize, deserialize"]}
{"id": "C81", "title": "What is raised for a frame that is refused, and in which order it is checked", "statement": "Message.deserialize either returns a message (C77) or raises, and what it raises is fixed by the first check the frame fails, in this order: fewer than 77 bytes: MessageError; a time outside the two fixed bounds: HeaderError; an unregistered type number: HeaderError; with check_time, a time more than 600 s past or more than 300 s ahead: MessageTooOldError or MessageFromFutureError; an incompatible version behind a Hello: VersionMismatchError; the flag set and decryption failing: that error if it is a MessageError, else DecryptionError; no item in the payload: SerializationError; slots that cannot be read: as in C82; a sender's key given for a signed class that is not 64 bytes: InvalidKeys; a signature that is not the sender's: InvalidSignature; the checks of the class: as in C84. It is an equivalence: an exception is raised exactly if the rules name it. Every frame is accepted or refused, never both, and refused for one reason.", "quantifier": "all byte strings, decryption functions, clocks, keys, settings of check_time and environments whose own version is a version", "why_tests_cant": "the order shows only in frames that fail several checks at once; tests break one thing at a time, and the pairs of faults over all byte strings cannot be listed", "anchors": ["golem_messages/message/base.py: Message.deserialize, Message.deserialize_with_header, Message.deserialize_header, Hello.deserialize_with_header", "golem_messages/message/base.py: verify_time, verify_version", "golem_messages/exceptions.py"]}
{"id": "C82", "title": "Which slot the refusal of a message is blamed on", "statement": "If the slots of a message cannot be read, load_slots raises the error of the first slot, in the order of the class's slots, that cannot be read; slots before it were absent or readable and later ones do not matter. For every slot other than a nested message it is the FieldError, or the bare MessageError, that C83 gives for the value. A message slot not of the form [is_list, [header, sig, slots]] is a FieldError naming that slot. For a nested message (or the first bad one of a list) it is the nested message's own FieldError, and a FieldError naming the outer slot only if the nested one named no field; a fault in a nested message is never reported as a bare MessageError. Slots are read (C77) or blamed, never both, and the error is determined.", "quantifier": "all message classes and all values cbor can decode to as their slots, at every depth of nesting", "why_tests_cant": "which of several broken slots is named, through up to seven levels of nested messages, is a statement about all combinations of broken slots", "anchors": ["golem_messages/message/base.py: Message.load_slots, Message.deserialize_slot, Message.deserialize_message, Message.deserialize_message_single", "golem_messages/message/p2p.py", "golem_messages/message/tasks.py", "golem_messages/message/concents.py"]}
{"id": "C83", "title": "Which field is named when a container, a frozen dict or a single slot is refused", "statement": "A Container (Node, TaskHeader, ProviderStats and their parts) built from received keyword arguments raises for the first slot, in the order of the class, that is required and missing or whose value its validators refuse, and only if all slots are good for the first name, in the order given, that is no slot; each is a FieldError naming it. What cannot be keyword arguments (no dict, keys that are not strings, a key 'self') is not a FieldError. A nested Node, CpuStats and so on is refused for the field inside it. A frozen dict (ComputeTaskDef, Peer, FileInfo, CpuUsage, ThrottlingData) takes its items in the order given and raises for the first refused: a FieldError for task_id, subtask_id, category, address, port and node, another exception for a key it does not know or an item that is no pair. Missing keys are refused only by Peer, in the order address, port, node. Enum and number slots are always refused under the name of the slot.", "quantifier": "all slot kinds other than nested messages and all values cbor can decode to, with any number of items wrong at once", "why_tests_cant": "the claim says which of arbitrarily many faults is reported, for all combinations of faults and orders of items", "anchors": ["golem_messages/datastructures/__init__.py: Container, ValidatingDict, FrozenDict, SetItemDict", "golem_messages/datastructures/p2p.py: Node, Peer", "golem_messages/datastructures/tasks.py: TaskHeader", "golem_messages/datastructures/stats.py: ProviderStats", "golem_messages/message/tasks.py: ComputeTaskDef", "golem_messages/message/concents.py: FileInfo", "golem_messages/validators.py"]}
{"id": "C84", "title": "What the checks of a class raise for a received message", "statement": "After a message was read, four classes are checked further, and what is raised is exactly this. SubtaskResultsAccepted: TypeError if payment_ts is no number, OverflowError if it rounds to no float, else ValidationError outside the window of C29 (a bool always is). SubtaskResultsRejected: ValidationError. VerdictReportComputedTask: AttributeError if there is no TaskToCompute to look up because the Ack, the Force or the ReportComputedTask inside is missing; FieldError(want_to_compute_task) if the two TaskToCompute have the same header and signature but one lacks its WantToComputeTask; otherwise ValidationError if they differ. TaskToCompute, in this order: AttributeError without a WantToComputeTask; the error of decoding requestor_ethereum_public_key; InvalidKeys if it is not 64 bytes; InvalidSignature if ethsig is not its signature over the WantToComputeTask; TypeError without a compute_task_def; the error of decoding requestor_id; FieldError(task_id), then FieldError(subtask_id), for an id that is not a UUID whose node is the start of requestor_id. No message falls under two exceptions, and none that meets the requirements of C77 under any. The messages for which the exception is none of the library's own are listed exactly.", "quantifier": "all slots cbor can decode to, at every depth, and header times in the accepted range", "why_tests_cant": "which of several faults of one message is reported, and that nothing else can be raised, ranges over all combinations of missing and malformed parts", "anchors": ["golem_messages/message/tasks.py: TaskMessage.deserialize_with_header, TaskMessage.is_valid, TaskToCompute.verify_ethsig, TaskToCompute.validate_taskid, SubtaskResultsAccepted.is_valid, SubtaskResultsRejected.is_valid", "golem_messages/message/concents.py: VerdictReportComputedTask.is_valid", "golem_messages/idgenerator.py: check_id_hex_seed, check_id_seed", "golem_messages/utils.py: decode_hex"]}
{"id": "C85", "title": "What ownership validation raises, and for which message of a chain", "statement": "validate_ownership on a task message raises exactly what these rules say: for a TaskToCompute the signature of the task header is checked first (AttributeError without attachment or header, the error of unhexlify for a key that is no hex text, InvalidKeys for a key not 64 bytes long, InvalidSignature otherwise); then the provider's and the requestor's key are taken from the chain (AttributeError if there is no TaskToCompute or attachment, the error of unhexlify for a bad text); then the expected roles are asked in order, where a missing Concent key is a TypeError and a key of another length InvalidKeys, and only if every role has a key and none of them signed it is InvalidSignature. validate_ownership_chain asks the message, then what its slots hold, depth first in slot order, and raises what the first failing message raises; verify_owners compares the provider's key, then the requestor's, then walks the chain, and a different key is an OwnershipMismatch.", "quantifier": "all task messages with any contents, all Concent keys (bytes or None), all expected keys, all crypto primitives", "why_tests_cant": "all messages, chains and keys, and which of several failures is reported", "anchors": ["golem_messages/message/tasks.py:TaskMessage.validate_ownership", "golem_messages/message/tasks.py:TaskMessage.validate_ownership_chain", "golem_messages/message/tasks.py:TaskMessage.verify_owners", "golem_messages/message/tasks.py:TaskToCompute.validate_ownership", "golem_messages/utils.py:decode_hex"]}
{"id": "C86", "title": "ECIES in several threads gives what it gives in one", "statement": "The key manager behind shortcuts.ecies and its three LRU caches are shared by all threads of a process. Take every call of encrypt and decrypt apart into steps that each access one cache or last_cleanup_time once, and let the steps of any number of calls interleave in any order. Then every finished encryption to the public key of a private key succeeds, is 113 bytes longer than the data, and decrypts with that key to the data; every finished decryption ends, in value or exception, as the same call ends when calls are made one at a time after any history; what one thread encrypts another decrypts. No call waits for another: each ends within ten of its own steps whatever the others do. The atomic functions of C44-C46 are the runs of one call alone. One thing is lost: two simultaneous encryptions by one manager to one recipient may use different ephemeral keys, which never happens one at a time.", "quantifier": "all numbers of simultaneous calls, managers, data, keys, randomness and clock readings, and all interleavings of their steps (including evictions and cache clearing by other threads at any point)", "why_tests_cant": "A test runs a handful of schedules chosen by the scheduler; the races on the caches (a clear between a lookup and a store, a lookup answered by another thread's entry) need interleavings that hardly ever occur.", "anchors": ["golem_messages/cryptography.py:ECIES.KeyManager", "golem_messages/cryptography.py:ECIES.encrypt", "golem_messages/cryptography.py:ECIES.decrypt", "golem_messages/shortcuts.py:ecies"]}
{"id": "C87", "title": "Ids generated by several threads carry their seed but can collide", "statement": "uuid.uuid1 keeps the last timestamp in a module global that it reads up to three times and writes once. With any number of generate_id calls interleaved in any order: every id is accepted by check_id_seed for exactly the seeds whose first six bytes, as a big-endian number, are those of its own seed; two calls can get the same id only if those numbers agree and they drew the same 14-bit clock sequence; every call ends within four of its own steps. generate_id as in C21 is the run of one call alone. Uniqueness (C22) does not extend to threads: from the start of the process, three calls with three different clock readings can give two equal ids, and a call that begins after another has ended, at a later time, can get the same id as that one.", "quantifier": "all numbers of simultaneous calls, seeds, clock readings and clock sequences, all initial values of the global and all interleavings", "why_tests_cant": "The colliding schedules need three or four threads stopped between adjacent bytecodes and equal random clock sequences; tests do not produce them, and no number of passing runs shows that ids always carry their seed.", "anchors": ["golem_messages/idgenerator.py:generate_id", "golem_messages/idgenerator.py:check_id_seed"]}
{"id": "C88", "title": "Dumping one message object from several threads", "statement": "Message.serialize stores the encrypted flag and the signature in the message itself. With any number of serialize calls on one message object interleaved in any order: (1) if all calls encrypt or none does, and all are given the same key when the message has no signature yet, each call ends as it would end alone, or with SignatureAlreadyExists if it was given a key and another call has signed meanwhile; (2) in any case a returned frame is a header with the flag of one of the calls, the signature the message had or one made by one of the calls, and the payload, either encrypted by the call's own function or in the clear, the latter only if one of the calls does not encrypt; (3) every call ends within seven of its own steps; (4) serialize as all other properties have it is the run of one call alone. Calls that disagree get in each other's way: a call given an encryption function can return the payload in the clear, or encrypted but flagged as plain so that the receiver refuses it; a call given none can end with TypeError; a call given a key can return an unsigned frame.", "quantifier": "all messages, keys, encryption functions, numbers of simultaneous calls and interleavings of their steps", "why_tests_cant": "The leak needs a thread switch between two particular lines of serialize; a test suite that dumps each message once, in one thread, never sees it, and the positive part ranges over all interleavings.", "anchors": ["golem_messages/message/base.py:Message.serialize", "golem_messages/message/base.py:Message.serialize_header", "golem_messages/message/base.py:Hello.serialize", "golem_messages/shortcuts.py:dump"]}
{"id": "C89", "title": "Text is hashed, signed and turned into keys as its UTF-8 bytes, and everything else is refused precisely", "statement": "sha3, mk_privkey, ecdsa_sign and ecdsa_verify treat a text (str or an enum deriving from str) exactly as the bytes of its UTF-8 encoding; two texts standing for the same bytes are the same text, but a text and bytes may stand for each other, so a signature over text verifies for the bytes and the other way round, for the signer's public key and no other. Text with a lone surrogate raises UnicodeEncodeError and a value that is neither text nor bytes TypeError, and nothing else is refused by the hashing; in signing a bad private key is blamed first, in verifying the size of the public key first, then the message, then the signature. mk_privkey always makes 32 bytes, so ECCx of a made key keeps it in the first round or raises ValueError, and never loops.", "quantifier": "all values of any type as seed or message, all keys and signatures (any bytes), all crypto primitives satisfying the stated laws", "why_tests_cant": "the argument ranges over all texts of all scripts, all byte strings and values of all other types; a test signs a few ASCII literals", "anchors": ["golem_messages/cryptography.py:sha3", "golem_messages/cryptography.py:mk_privkey", "golem_messages/cryptography.py:ecdsa_sign", "golem_messages/cryptography.py:ecdsa_verify", "golem_messages/cryptography.py:ECCx.__init__"]}
{"id": "C90", "title": "A shown promissory note tells which note it is", "statement": "Two promissory notes that can be signed (text addresses beginning with 0x, a number as amount, text id and contract address) and are shown as the same text have the same addresses, amount, id and contract; the same holds for any such notes whose addresses and id contain no comma. It fails for other notes, since text is shown without quotes: different addresses can give the same text, and a missing contract is shown as the contract 'None' is. Nor are notes that are signed alike always shown alike: an amount True or False is signed as 1 or 0 and shown as the word.", "quantifier": "all pairs of notes of text fields and any integer amount, signable or comma free", "why_tests_cant": "injectivity is about all pairs of notes; a test compares the text of a few", "anchors": ["golem_messages/datastructures/promissory.py:PromissoryNote.__repr__", "golem_messages/datastructures/promissory.py:PromissoryNote.hexmsg", "golem_messages/datastructures/promissory.py:PromissoryNote.subtask_id_bytes"]}
{"id": "C91", "title": "What was received before makes no difference, so frames can be replayed while fresh", "statement": "In a process that loads frames one after the other and uses the ECIES caches in between, every frame gets the result (message or exception) it would get as the first thing a fresh process does: order, duplicates, hostile frames and evictions change nothing. A frame accepted once with time checking is accepted again, as the same message, at every time from five minutes before its timestamp to ten minutes after it and at no other time, hence for at most 15 minutes; without time checking at any time. That a frame is delivered at most once is refuted: an encrypted, signed and fresh frame is delivered twice, 15 minutes apart.", "quantifier": "all sequences of arriving frames (any bytes, any keys, any times) and other encryptions and decryptions, all pairs of times", "why_tests_cant": "all histories of a process and all times of arrival; tests load one frame in a fresh cache", "anchors": ["golem_messages/shortcuts.py:load", "golem_messages/message/base.py:Message.deserialize", "golem_messages/message/base.py:Message.deserialize_with_header", "golem_messages/message/base.py:verify_time", "golem_messages/cryptography.py:ECIES.decrypt"]}
{"id": "C92", "title": "How far the clocks of sender and receiver may be apart", "statement": "A message built when the sender's clock shows a and loaded when the receiver's shows b passes the time check whenever b-a lies between -300 s and 599.000001 s (the result is that of loading without the check), is too old whenever b-a exceeds 600 s and from the future whenever b-a is below -300.999999 s; in between the outcome depends on the fraction of the second the message was built in, for every such difference. verify_time's own note that microseconds are ignored is refuted: within one second of the receiver's clock the same message is accepted and refused.", "quantifier": "all messages of all classes, contents, keys and encryptions, all readings of both clocks in microseconds", "why_tests_cant": "the bounds are exact to the microsecond over all pairs of clock readings; tests freeze one clock at whole seconds", "anchors": ["golem_messages/message/base.py:verify_time", "golem_messages/message/base.py:Message.__init__", "golem_messages/message/base.py:Message.deserialize", "golem_messages/settings.py:MSG_TTL", "golem_messages/settings.py:FUTURE_TIME_TOLERANCE"]}
{"id": "C93", "title": "Rules between the slots of a message: which are enforced by loading and which are only documented", "statement": "What the slots of a message may hold when it is loaded is decided slot by slot: a list of attributes can be read from some decoded slots exactly if it has the names of the class and each value is possible for its slot by itself. Beyond that only TaskToCompute, SubtaskResultsAccepted, SubtaskResultsRejected and VerdictReportComputedTask check anything. Hence rules in docstrings and comments that relate slots to each other or to the signature are not enforced: a ClientAuthorization naming a key other than the one it is signed with loads (with the signer's key as the sender's), a ForceSubtaskResultsResponse loads with both an acceptance and a rejection, even of different subtasks, and with neither, and a ForceReportComputedTaskResponse with reason AckFromRequestor loads with nothing attached. The rule for ClientAuthorization is recovered by loading the frame with the key that the message names as sender's key: this succeeds exactly if the frame is signed with it.", "quantifier": "all message classes, all attribute lists and contents, all frames, keys, environments and crypto primitives; the failures are shown by frames", "why_tests_cant": "tests try combinations of slots one at a time; that no combination whatever is refused, and that no class but four has a check, are statements about all of them", "anchors": ["golem_messages/message/concents.py:ClientAuthorization", "golem_messages/message/concents.py:ForceSubtaskResultsResponse", "golem_messages/message/concents.py:ForceReportComputedTaskResponse", "golem_messages/message/tasks.py:TaskMessage.is_valid", "golem_messages/message/base.py:Message.deserialize_slot"]}
{"id": "C94", "title": "Signing and verifying with a hash given by the caller (msg_hash)", "statement": "With msg_hash None, empty or equal to the message's own hash, sign_message, verify_signature, generate_ethsig and verify_ethsig do what they do without it (for the ethereum signature: the hash of the WantToComputeTask). With any other msg_hash the content plays no part: every message can be signed, even one that has no hash, and the signature is accepted with that hash for messages of every class, header and content; what is verified is exactly that the signature recovers to the given key over the given hash. Loading with a sender's key verifies against the hash of the payload received. So the docstring's 'ensures that the message's content is intact' fails when a hash is given.", "quantifier": "all messages of all classes, all keys and hashes, all environments and crypto primitives satisfying the stated laws", "why_tests_cant": "that the content has no influence is a statement about all contents; the tests of the project never pass msg_hash", "anchors": ["golem_messages/message/base.py:Message._verify_signature", "golem_messages/message/base.py:Message.verify_signature", "golem_messages/message/base.py:Message._get_signature", "golem_messages/message/base.py:Message.sign_message", "golem_messages/message/tasks.py:TaskToCompute.generate_ethsig", "golem_messages/message/tasks.py:TaskToCompute.verify_ethsig"]}
{"id": "C95", "title": "What objects share: signed copies and defaults of dicts", "statement": "With messages as objects that refer to other objects: copy_and_sign returns an object showing the signed message, the original itself exactly if it was signed already, and leaves what every existing object shows unchanged. Later changes of the original's own attributes, and of any object that cannot be reached from the copy, never change the copy. Changes of nested messages, dicts and lists are seen by both, always equally, so a copy waiting in a queue does not necessarily stay correctly signed. The defaults that a frozen dict fills in are new objects, one for each key, referring to nothing, so changing one in place changes no other dict.", "quantifier": "all heaps of objects (sharing and cycles included), all messages, keys and all sequences of later changes of whatever kind", "why_tests_cant": "aliasing bugs show only after particular later changes of particular objects; the statement is about every sequence of changes of every object graph", "anchors": ["golem_messages/utils.py:copy_and_sign", "golem_messages/message/base.py:Message.sign_message", "golem_messages/datastructures/__init__.py:FrozenDict._set_defaults", "golem_messages/message/tasks.py:ComputeTaskDef"]}
{"id": "C96", "title": "Dumping a message that other messages contain", "statement": "With messages as objects: serialize gives the same bytes or exception as on values, changes no object but the message dumped (its flag and signature), and only objects that contain it can show anything else afterwards. Dumping signed messages again in the mode they were dumped in before, in any order and any number of times, changes no object at all. What can be dumped does not contain itself. Dumping a signed message in the other mode (encrypted instead of plain) breaks the signature of a message that contains it, although the flag is said not to pertain to the content: the signature of the outer message covers the flag of the inner one.", "quantifier": "all heaps of objects, messages, keys, encryption functions and all sequences of dumps", "why_tests_cant": "needs particular orders of signing, nesting and sending the same objects; the claim is about all of them", "anchors": ["golem_messages/message/base.py:Message.serialize", "golem_messages/message/base.py:Message.encrypted", "golem_messages/message/base.py:Message.serialize_message_single", "golem_messages/message/base.py:Message.get_short_hash"]}
{"id": "C97", "title": "A frame altered on its way is refused", "statement": "Two frames that carry the same signature and are accepted with the same sender key, of types whose signature is checked, hold the same message: class, type, time, attributes and, in a Hello, version. Otherwise that signature is good for two different contents, and it is said of exactly which bytes of the two frames SHA-1 or SHA-3 collide or which two digests recover the same key. For a frame that is not encrypted and not a Hello this means that not one byte may be altered, appended or cut off with the signature kept. What may be altered is the flag byte, the bytes after a Hello's version string, and the type: any frame but an encrypted Hello whose type is overwritten with 1001 is accepted as a Ping from whoever is named as its sender, with the time and signature of the message it was; likewise as any of the twelve types that are not signed, with all slots unset, if the payload names none of them.", "quantifier": "all pairs of byte strings accepted with one non-empty sender key, all clocks, decryption functions and time-check settings of the two calls, all hash and signature functions; for the last sentence all accepted frames and all keys", "why_tests_cant": "The tests alter one field of one frame; that no alteration at all passes concerns every pair of byte strings, and which part of the frame escapes the signature is not tested.", "anchors": ["golem_messages/message/base.py: Message.deserialize, Message.deserialize_with_header, Message.get_short_hash, Message.SIGN", "golem_messages/message/base.py: Hello.deserialize_with_header, Hello.get_short_hash", "golem_messages/shortcuts.py: load"]}
{"id": "C98", "title": "A message can be passed on encrypted to someone it was not sent to", "statement": "Whoever received any message, encrypted for them or in the clear, can encrypt its payload for anyone else and send it with the header, signature and (Hello) version they received; it is accepted there as the same message from the same sender, marked as encrypted. The signature does not name the receiver the sender encrypted for, so 'I could decrypt it and the sender's signature is right, hence the sender sent it to me' is refuted.", "quantifier": "all frames that load accepts with any key, all third parties with a valid key pair, all histories of encryptions and decryptions on the machines of the receiver and the third party, all random inputs", "why_tests_cant": "The tests send between two parties; a third party is in none, and the claim holds for every accepted frame and every state of the caches.", "anchors": ["golem_messages/shortcuts.py:dump, load", "golem_messages/message/base.py:Message.serialize, Message.deserialize_with_header, Message.get_short_hash", "golem_messages/cryptography.py:ECIES.encrypt, ECIES.decrypt"]}
{"id": "C99", "title": "What the ethereum signature of a TaskToCompute shows, and what it does not", "statement": "verify_ethsig accepts exactly if the nested offer (WantToComputeTask), carrying ethsig as its signature, is signed with requestor_ethereum_public_key; nothing else of the TaskToCompute matters to it. So it does not ensure, as its docstring says, that the requestor has control over the ethereum address: whoever receives a TaskToCompute can send their own for the same offer with the ethereum key and signature they received, and it loads; and a requestor can name the provider's key as their ethereum key and give the provider's own signature of the offer as ethsig, which loads and also passes validate_ownership_chain and verify_owners. What tells requestors apart is the task header inside the offer: two TaskToComputes for one offer that both pass validate_ownership name the same requestor_public_key. requestor_ethereum_address of a received TaskToCompute is the address of the key that made ethsig if the key is given as text; given as bytes, which loading and the checks of the owners accept too, it is made of the hexadecimal digits, so nobody has the key for it and the notes signed by the owner of the key do not verify.", "quantifier": "all TaskToComputes, offers, keys, frames, clocks and crypto primitives satisfying the laws; the failure is shown by a frame", "why_tests_cant": "Tests check that a signature made with the right key passes and one with a wrong key does not; that any accepted TaskToCompute or any signed offer yields further accepted ones, and that two accepted owners of one offer are always the same, is about all of them.", "anchors": ["golem_messages/message/tasks.py:TaskToCompute.verify_ethsig", "golem_messages/message/tasks.py:TaskToCompute.generate_ethsig", "golem_messages/message/tasks.py:TaskToCompute.validate_ownership", "golem_messages/message/base.py:_verify_signature", "golem_messages/datastructures/tasks.py:TaskHeader.verify", "golem_messages/message/tasks.py:TaskToCompute.requestor_ethereum_address", "golem_messages/utils.py:pubkey_to_address"]}
