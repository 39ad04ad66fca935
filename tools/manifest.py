"""Write MANIFEST.json from the theorems in rocq/theories/Prop*.v."""
import glob, json, os, re
here = os.path.dirname(os.path.dirname(os.path.abspath(__file__)))
thms = {}
for f in sorted(glob.glob(os.path.join(here, 'rocq/theories/Prop*.v'))):
    for m in re.finditer(r'^Theorem (C(\d+)_\w+)', open(f).read(), re.M):
        thms.setdefault('C' + m.group(2), []).append(m.group(1))
NOTES = {
 'C12': 'REFUTED: a phrase with a leading space is accepted by from_phrase and rejected by validate; C12_validate_accepts_less proves this for every mnemonic.',
 'C19': 'REFUTED: the Chinese list is not sorted, so the binary search of either Rust version misses words; the first word of the list is not found under its own prefix. C19_prefix_search_partial proves that whatever is returned are words of the list starting with the prefix, in list order. English is covered by C18.',
 'C23': 'REFUTED: for Simplified Chinese the PBKDF2 password is the GB18030 encoding of the phrase, which differs from the UTF-8 encoding for every mnemonic; C23_seed_chinese_partial proves what the seed is instead, C23_seed_value_refuted computes one seed and the standard one (by way of the 63-bit machine integers of the standard library).',
 'C45': 'REFUTED: the parsers ignore this rule; C45_root_metadata_ignored proves that every depth-0 key with arbitrary fingerprint and child number is accepted.',
 'C47': 'REFUTED: the four characters are computed for an all-zero key; for version 0x024285bb (Uprv) every private key of depth 3 or more is written as Uprw... and rejected by from_str (C47_unreadable_keys). C47_prefix_survives_partial proves that version, attributes and key always survive and the prefix does iff the text starts with its characters. The eight standard prefixes are covered by C39 - C41.',
'C59': 'REFUTED: private_key.rs:48 and public_key.rs:51 unwrap the parse of the tweak, so derive_child panics on every bad hash output (C59_bad_hash_panics); only XPrv::new reports it (C59_master_key_partial).',
'C62': 'REFUTED: ct_eq (extended_private_key.rs:182-200) takes both key byte strings from self, so keys with equal attributes and different secrets compare equal; C62_equality_compares_attributes_partial says what == decides.',
 'C69': 'REFUTED: the hint ignores buffered bits; after the first of 17 bytes it says at most 10 where 11 items follow. C69_size_hint_partial proves the lower bound, that the upper bound is short by at most one, and exactness before the first item.',
 'C71': 'REFUTED: the lower size hint of SplitWhitespace is 0, so nothing is reserved; C71_accepted_phrase_moved proves that every accepted phrase is moved at least once. Growth follows RawVec::grow_amortized of the Rust standard library.',
 'C110': 'REFUTED: mnemonic.rs:177-181 drops the plain vector, and the question marks of lines 152, 195, 198 and 217 drop it before it is wrapped (C110_entropy_left, C110_typing_error, C110_wrong_count). C110_accepted_partial proves that an accepted phrase leaves nothing in from_phrase.',
 'C111': 'REFUTED: seed.rs:33-35 uses plain strings and a plain vector (C111_plain_text, C111_everything_left).',
 'C113': 'REFUTED: a precision cuts words off, and fill letters join the words (C113_reads_back_refuted). C113_padded_reads_back_partial settles every case with white space as fill.',
 'C115': 'REFUTED: seed.rs:52-56 prints the seed, mnemonic.rs:288-292 the phrase (C115_debug_shows_everything).',
 'C119': 'REFUTED by C119_exchanged_words_refuted and, for every phrase, by C119_wrong_last_word. C119_noticed_partial proves the mistakes that are always noticed.',
 'C124': 'REFUTED in each of the four languages by C124_prefix_search_refuted. C124_prefix_search_partial proves that what is returned is right.',
 'C125': 'REFUTED by C125_detection_refuted and, for every mnemonic of the six languages, by C125_never_detected. C125_detection_partial proves it for English and Simplified Chinese.',
 'C126': 'REFUTED for five languages by C126_phrase_buffer_refuted. C126_phrase_buffer_partial proves it for the other three; C126_when_it_moves is the exact criterion.',
 'C129': 'REFUTED by C129_one_language_refuted for English/French and for the two Chinese lists. C129_one_language_partial proves it for all other pairs.',
 'C131': 'REFUTED for validate on 32 bits without overflow checks by C131_length_checked_refuted (C131_without_checks is the exact criterion, C131_with_checks says when it panics). C131_from_phrase proves it for from_phrase in every build.',
 'C132': 'REFUTED on 32 bits by C132_refused_refuted. C132_without_checks and C132_with_checks say what happens to every length.',
 'C136': 'REFUTED for every key type with two keys by C136_same_key_refuted. C136_equality says what == compares.',
 'C149': 'REFUTED by C149_keys_wiped_refuted. C149_keys_stay says which blocks keep their data, in every continuation.',
 'C153': 'REFUTED by C153_label_tells_refuted; C153_private_key_under_public_label covers every key and public prefix. C153_label_tells_partial is what holds: the readers of XPrv and XPub follow the label.',
 'C154': 'REFUTED by C154_only_registered_refuted. C154_versions_behind_a_label gives exactly the versions that are read under each label, C154_inner_versions_round_trip and C154_several_texts_of_a_key the consequences.',
 'C159': 'REFUTED by C159_stops_after_24_words_refuted; C159_long_phrases_read_in_full has a witness for every length and language. C159_all_words_looked_up and C159_up_to_the_first_unknown give the exact number of look-ups, C159_linear_work and C159_normalised_length the bounds that hold.',
 'C164': 'REFUTED by C164_one_text_refuted (m/5 and m/+05). C164_all_texts gives exactly the texts of every path, C164_printed_is_shortest, C164_root_has_one and C164_others_have_many what holds instead.',
 'C166': 'REFUTED by C166_refused_refuted. C166_when_refused is the exact criterion for every hexadecimal text; C166_printed_seed, C166_another_wallet and C166_entropy say what happens instead.',
 'C167': 'REFUTED by C167_refused_refuted (an English phrase of 64 bytes). C167_when_refused is the exact criterion; C167_by_number_of_words says which of the two lengths can occur and C167_taken_for_every_number_of_words has a witness for each; C167_chinese_partial: phrases in Simplified Chinese are always refused; missing: the English phrases of 64 and 128 bytes.',
 'C138': 'REFUTED by C138_seed_lengths_refuted (a seed of 24 bytes is refused). C138_refused_lengths is the exact criterion; C138_seed_lengths_partial covers the lengths for which the check is right; missing: 17 to 63 bytes other than 32, and 128 bytes, for which it is wrong.',
 'C139': 'REFUTED for the signing step by C139_builds_agree_refuted (a nonce whose point has abscissa n). C139_builds_agree_partial: the debug build returns the same or panics; missing: the panics. C139_step is the exact criterion for one step. Whether the generator of some key and message ever produces such a nonce is not decided.',
 'C96': 'REFUTED: mod.rs:73-83 return before the array is wiped; every text of 78 bytes with a wrong checksum (a typing error) leaves the whole key behind (C96_wrong_checksum_leaves_key). C96_wiped_partial proves that it is wiped whenever the text is accepted.',
 'C98': 'REFUTED: nothing wipes the buffer of Display (mod.rs:59-66); C98_display_leaves_text proves that it holds the text of the key.',
}
TODO = {}
REMEMBERED = {'C139': 'libsecp256k1', 'C143': 'subtle', 'C147': 'zeroize', 'C148': 'zeroize', 'C149': 'zeroize',
              'C150': 'once_cell', 'C151': 'once_cell', 'C160': 'libsecp256k1', 'C161': 'libsecp256k1',
              'C162': 'libsecp256k1', 'C163': 'libsecp256k1'}
claims = []
for l in open(os.path.join(here, 'properties.jsonl')):
    pid = json.loads(l)['id']
    if pid not in thms:
        continue
    names = thms[pid]
    bad = any(n.endswith('_partial') or n.endswith('_refuted') for n in names)
    c = {'property': pid, 'status': 'partial' if bad else 'proved', 'theorems': names}
    c['note'] = NOTES.get(pid, 'Proved for all inputs of the model.')
    if pid in REMEMBERED:
        c['note'] += (' The inner steps of ' + REMEMBERED[pid] + ' were modelled from memory of it and not compared'
                      ' with its source (DESIGN.md, section 3).')
    claims.append(c)
json.dump({'claims': claims}, open(os.path.join(here, 'MANIFEST.json'), 'w'), indent=1)
print(len(claims), 'claims')
