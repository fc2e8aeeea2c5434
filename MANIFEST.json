{
 "claims": [
  {
   "property": "C01",
   "status": "proved",
   "theorems": [
    "C01_decode_iff_iso7816",
    "C01_decode_in_bounds"
   ],
   "note": ""
  },
  {
   "property": "C02",
   "status": "proved",
   "theorems": [
    "C02_chained_equals_unchained"
   ],
   "note": ""
  },
  {
   "property": "C03",
   "status": "partial",
   "theorems": [
    "C03_no_truncated_execution_refuted",
    "C03_chaining_history_partial"
   ],
   "note": "Full property refuted by a witness history (a refused block leaves the chain open); the exact behaviour over every history is proved."
  },
  {
   "property": "C04",
   "status": "proved",
   "theorems": [
    "C04_response_chaining",
    "C04_segments_concat"
   ],
   "note": ""
  },
  {
   "property": "C05",
   "status": "partial",
   "theorems": [
    "C05_stale_response_refuted"
   ],
   "note": "Full property refuted for every state: the response of OpenPGP/PIV/FIDO is still delivered by GET RESPONSE after switching to OATH. For commands of OpenPGP/PIV/FIDO the property follows from C04."
  },
  {
   "property": "C06",
   "status": "proved",
   "theorems": [
    "C06_routing",
    "C06_select",
    "C06_select_unknown"
   ],
   "note": ""
  },
  {
   "property": "C07",
   "status": "proved",
   "theorems": [
    "C07_exclusive_ownership",
    "C07_acquire",
    "C07_release"
   ],
   "note": ""
  },
  {
   "property": "C08",
   "status": "proved",
   "theorems": [
    "C08_retry_limit",
    "C08_locked_stays_locked"
   ],
   "note": ""
  },
  {
   "property": "C09",
   "status": "proved",
   "theorems": [
    "C09_verify_exact",
    "C09_verify_independent",
    "C09_needs_memcmp_not_one"
   ],
   "note": ""
  },
  {
   "property": "C10",
   "status": "partial",
   "theorems": [
    "C10_storage_errors_refuted",
    "C10_storage_errors_partial"
   ],
   "note": "Full property refuted: when the counter write fails the correct PIN still leaves the validated flag set and wrong guesses cost nothing; the exact guarantees under arbitrary faults are proved."
  },
  {
   "property": "C11",
   "status": "partial",
   "theorems": [
    "C11_whole_pin_partial",
    "C11_whole_pin_refuted"
   ],
   "note": "refuted for data fields above 255 bytes (C11_whole_pin_refuted: the length is cut to 8 bits); proved for data fields of at most 255 bytes"
  },
  {
   "property": "C12",
   "status": "proved",
   "theorems": [
    "C12_tlv_exact",
    "C12_tlv_in_bounds"
   ],
   "note": ""
  },
  {
   "property": "C13",
   "status": "proved",
   "theorems": [
    "C13_store_is_the_expected_map",
    "C13_put_status",
    "C13_delete_status",
    "C13_rename_status"
   ],
   "note": ""
  },
  {
   "property": "C14",
   "status": "proved",
   "theorems": [
    "C14_calculate_uses_next_counter",
    "C14_counter_never_decreases",
    "C14_counter_never_reused",
    "C14_exhausted_counter_refused",
    "C14_touch_uses_next_counter",
    "C14_code_reused_after_write_error_refuted"
   ],
   "note": "Proved for histories without storage errors at the calculations themselves, as the property says; with a write error the same code is given twice (C14_code_reused_after_write_error_refuted)."
  },
  {
   "property": "C15",
   "status": "proved",
   "theorems": [
    "C15_locked_until_validated",
    "C15_locks_again",
    "C15_validate_needs_the_key",
    "C15_validate_unlocks"
   ],
   "note": ""
  },
  {
   "property": "C16",
   "status": "proved",
   "theorems": [
    "C16_calculate_needs_newer_challenge",
    "C16_never_answers_older_challenge"
   ],
   "note": ""
  },
  {
   "property": "C17",
   "status": "proved",
   "theorems": [
    "C17_list_returns_every_credential_once"
   ],
   "note": ""
  },
  {
   "property": "C18",
   "status": "proved",
   "theorems": [
    "C18_truncation_is_rfc4226",
    "C18_calculate_totp_code"
   ],
   "note": ""
  },
  {
   "property": "C19",
   "status": "partial",
   "theorems": [
    "C19_single_slot_cleared_partial",
    "C19_every_slot_cleared_refuted"
   ],
   "note": "Refuted when both slots refer to the credential (C19_every_slot_cleared_refuted); proved when at most one does."
  },
  {
   "property": "C20",
   "status": "proved",
   "theorems": [
    "C20_configured_password_is_typed",
    "C20_other_slot_unaffected",
    "C20_malformed_refused",
    "C20_read_config",
    "C20_off_types_nothing"
   ],
   "note": ""
  },
  {
   "property": "C21",
   "status": "proved",
   "theorems": [
    "C21_types_the_text_in_order",
    "C21_text_is_completed"
   ],
   "note": ""
  },
  {
   "property": "C22",
   "status": "proved",
   "theorems": [
    "C22_update_exact",
    "C22_update_accepted",
    "C22_read_exact",
    "C22_update_atomic",
    "C22_contents_kept"
   ],
   "note": ""
  },
  {
   "property": "C23",
   "status": "proved",
   "theorems": [
    "C23_refused_without_pin",
    "C23_public_harmless",
    "C23_verify_harmless",
    "C23_verify_authorises"
   ],
   "note": ""
  },
  {
   "property": "C24",
   "status": "partial",
   "theorems": [
    "C24_reset_conditions_partial",
    "C24_reset_on_read_error_refuted"
   ],
   "note": "refuted under a storage read error of the retry counter (C24_reset_on_read_error_refuted); proved when no storage error happens during the command"
  },
  {
   "property": "C25",
   "status": "partial",
   "theorems": [
    "C25_written_once_partial",
    "C25_rewritten_on_read_error_refuted"
   ],
   "note": "refuted when the size of the number cannot be read during a second WRITE SN (C25_rewritten_on_read_error_refuted); proved for every history whose later WRITE SN commands see no storage error"
  },
  {
   "property": "C26",
   "status": "proved",
   "theorems": [
    "C26_config_as_commanded",
    "C26_one_candidate"
   ],
   "note": ""
  },
  {
   "property": "C27",
   "status": "partial",
   "theorems": [
    "C27_needs_fresh_touch",
    "C27_one_touch_one_use",
    "C27_nested_denied",
    "C27_unsuccessful_end",
    "C27_ends_after_30s",
    "C27_touch_during_wait_refuted"
   ],
   "note": "the grant/consume/cancel/timeout/nesting clauses are proved; 'a touch during that wait' is refuted: a touch reported earlier and not consumed is accepted (C27_touch_during_wait_refuted)"
  },
  {
   "property": "C28",
   "status": "proved",
   "theorems": [
    "C28_five_spaced_touches",
    "C28_each_a_fresh_touch",
    "C28_missed_window_fails"
   ],
   "note": "five touches, each at least 2 s after the one before; C28_missed_window_fails is the end of a window without touch"
  },
  {
   "property": "C29",
   "status": "partial",
   "theorems": [
    "C29_management_partial",
    "C29_management_refuted"
   ],
   "note": "Proved for every history in which no challenge request met a storage error: data, keys and configuration change only after a management-key authentication in this session. Refuted in general: a storage error while the card answers a challenge request leaves the request open with an expected answer of zeros (C29_management_refuted)."
  },
  {
   "property": "C30",
   "status": "proved",
   "theorems": [
    "C30_pin_policy"
   ],
   "note": ""
  },
  {
   "property": "C31",
   "status": "proved",
   "theorems": [
    "C31_get_data"
   ],
   "note": ""
  },
  {
   "property": "C32",
   "status": "partial",
   "theorems": [
    "C32_put_data_partial",
    "C32_put_data_accepted_partial",
    "C32_new_chain",
    "C32_put_data_refuted"
   ],
   "note": "refuted for a first block that fills the object exactly and announces more (C32_put_data_refuted); proved for every other division into blocks"
  },
  {
   "property": "C33",
   "status": "proved",
   "theorems": [
    "C33_change_rules",
    "C33_tries",
    "C33_history"
   ],
   "note": ""
  },
  {
   "property": "C34",
   "status": "partial",
   "theorems": [
    "C34_reset_partial",
    "C34_reset_refuted",
    "C34_silent_failure_refuted",
    "C34_power_cut_refuted"
   ],
   "note": "Proved for all states and fault sequences: without storage errors RESET is refused unless both secrets are blocked and otherwise wipes everything; in every crash or error image either the PIN and PUK are still as before or all key material is erased. Three parts of the statement are false of the code and refuted: read errors of the retry counters count as blocked, 9000 is answered even if the wipe failed, and a power cut leaves keys that need no PIN."
  },
  {
   "property": "C35",
   "status": "proved",
   "theorems": [
    "C35_template"
   ],
   "note": ""
  },
  {
   "property": "C36",
   "status": "proved",
   "theorems": [
    "C36_one_signature"
   ],
   "note": ""
  },
  {
   "property": "C37",
   "status": "partial",
   "theorems": [
    "C37_sign",
    "C37_use",
    "C37_admin_partial"
   ],
   "note": "C37_sign, C37_use: signing and PSO/INTERNAL AUTHENTICATE need the right password in the same session. C37_admin_partial: administrative data changes only after PW3 was shown (GENERATE is the exception, see C63_generate_refuted)."
  },
  {
   "property": "C38",
   "status": "partial",
   "theorems": [
    "C38_counter",
    "C38_reset",
    "C38_uncounted_refuted"
   ],
   "note": "C38_counter: over every history without new-key commands, re-installation or the sequence's wrap, the stored counter grows by exactly one per successful signature. C38_reset: only key generation/import and re-installation set it to 0. C38_uncounted_refuted: after a storage error on the counter the signature still leaves the card with status 6900, uncounted."
  },
  {
   "property": "C39",
   "status": "proved",
   "theorems": [
    "C39_touch",
    "C39_permanent",
    "C39_set"
   ],
   "note": ""
  },
  {
   "property": "C40",
   "status": "proved",
   "theorems": [
    "C40_terminate",
    "C40_done",
    "C40_terminated",
    "C40_activate",
    "C40_not_terminated"
   ],
   "note": ""
  },
  {
   "property": "C41",
   "status": "partial",
   "theorems": [
    "C41_openpgp",
    "C41_piv_partial",
    "C41_piv_overread_refuted"
   ],
   "note": "C41_openpgp: the OpenPGP import never reads outside the received data, its result depends only on them, and an accepted import stores exactly the components which were sent. C41_piv_partial: the same for PIV when the data do not stop inside a policy element (AA or AB). C41_piv_overread_refuted: if they do, the stored PIN policy is a stale byte after the received data. Not modelled: the arithmetic of ECC and RSA (oracle record crypto)."
  },
  {
   "property": "C42",
   "status": "partial",
   "theorems": [
    "C42_no_overflow_partial",
    "C42_overflow_refuted"
   ],
   "note": "Proved for frame sequences in which no over-long initialisation frame arrives while a message is being received; refuted in general: a refused INIT frame leaves its length behind and continuation frames then overrun the buffer. Responses are assumed to fit (C61 and the FIDO model deal with them)."
  },
  {
   "property": "C43",
   "status": "partial",
   "theorems": [
    "C43_ping",
    "C43_cbor",
    "C43_msg_partial",
    "C43_msg",
    "C43_init_partial",
    "C43_frames_reassemble",
    "C43_short_message_refuted",
    "C43_clock_wrap_refuted"
   ],
   "note": "Proved exactly for PING, CBOR, well-formed MSG and INIT with a full nonce, in any interleaving with other channels' frames, if nothing arrives while the device itself works and the clock does not wrap. Refuted: MSG shorter than its own length field is completed with stale bytes; spurious timeout before the 32-bit clock wraps."
  },
  {
   "property": "C44",
   "status": "partial",
   "theorems": [
    "C44_ping_isolated",
    "C44_cbor_isolated",
    "C44_init_reveals_refuted",
    "C44_response_redirected_refuted",
    "C44_response_misrouted_refuted"
   ],
   "note": "Proved while a message is being received. Refuted: INIT with a short nonce reveals another channel's bytes; a frame arriving while a response is sent redirects the rest of it; a message of the waiting channel lets another channel receive the response."
  },
  {
   "property": "C45",
   "status": "partial",
   "theorems": [
    "C45_no_overflow_partial",
    "C45_delivered_partial",
    "C45_overflow_refuted"
   ],
   "note": "Proved for drivers that send one request at a time and none longer than 1342 bytes, under every interleaving with WebUSB. Refuted beyond: a header announcing 2000 bytes makes the reader write past its buffer."
  },
  {
   "property": "C46",
   "status": "partial",
   "theorems": [
    "C46_answer_partial",
    "C46_only_answers_partial",
    "C46_stale_response_refuted",
    "C46_reveals_webusb_refuted",
    "C46_lost_refuted"
   ],
   "note": "Proved: every complete request is answered with its slot, sequence number and the applets' response (6400 only if WebUSB was ever used), and nothing else is sent. Refuted: a request to a non-existent slot returns the previous response, possibly WebUSB's; a request between the end of the transmission and the clearing of the flag is lost. Not modelled: time-extension messages, answers dropped after 50 ms."
  },
  {
   "property": "C47",
   "status": "partial",
   "theorems": [
    "C47_exchange_partial",
    "C47_short_frame_refuted",
    "C47_overflow_refuted",
    "C47_lost_ack_refuted",
    "C47_executed_twice_refuted"
   ],
   "note": "Proved for every cutting of the command and every pattern of lost response blocks (the reader asks again with R(NAK) or R(ACK)), when the blocks of the command, their acknowledgements and the R-blocks arrive. Refuted: lost acknowledgement, command executed twice after a corrupted R(NAK) (FM11NC), frame of two bytes, commands over 1342 bytes. Waiting-time extensions are abstracted."
  },
  {
   "property": "C48",
   "status": "partial",
   "theorems": [
    "C48_delivered_partial",
    "C48_response_partial",
    "C48_exclusive_partial",
    "C48_corrupted_refuted"
   ],
   "note": "Proved for all interleavings with a reader driver that sends one request at a time. Refuted for a driver that pipelines: its packet changes the WebUSB command."
  },
  {
   "property": "C49",
   "status": "proved",
   "theorems": [
    "C49_at_most_eight",
    "C49_no_more_than_left",
    "C49_three_per_power_cycle",
    "C49_blocked_refuses_all",
    "C49_success_needs_the_pin",
    "C49_try_is_taken_first"
   ],
   "note": ""
  },
  {
   "property": "C50",
   "status": "partial",
   "theorems": [
    "C50_make_credential",
    "C50_get_assertion",
    "C50_credential_management",
    "C50_large_blobs",
    "C50_token_origin",
    "C50_one_use",
    "C50_old_token_refuted",
    "C50_permissions_kept_refuted",
    "C50_blob_permission_lost_refuted",
    "C50_lifetime_refuted"
   ],
   "note": "Every accepted use of a token is authorised by it (permission, RP binding, tag, life time), tokens come only from PIN-checked requests, permissions only shrink and a verified registration or assertion needs a new token; refuted: old tokens survive changePIN, permissions other than large-blob write survive use while that one is lost, and the life time fails when the 32-bit clock wraps. The getNext subcommands of credentialManagement carry no tag and are not covered."
  },
  {
   "property": "C51",
   "status": "proved",
   "theorems": [
    "C51_counter_increases",
    "C51_counter_is_persistent"
   ],
   "note": ""
  },
  {
   "property": "C52",
   "status": "partial",
   "theorems": [
    "C52_changes",
    "C52_integral_partial",
    "C52_commits",
    "C52_reads",
    "C52_first_boot_refuted"
   ],
   "note": "Proved for every device whose array exists: only a reset or a complete write (contiguous fragments accepted one after the other that add up to the announced length) changes it, also when power is lost; the array stays integral; a completed write is committed; reads are exact. Refuted for power loss during the first installation: the file is created before it is written and the next boot leaves it empty."
  },
  {
   "property": "C53",
   "status": "partial",
   "theorems": [
    "C53_power_loss_partial",
    "C53_create",
    "C53_delete_update",
    "C53_answered",
    "C53_recovery",
    "C53_replace_refuted",
    "C53_storage_error_refuted"
   ],
   "note": "Proved for creation of a new account, deletion and update, at every crash point; refuted for the replacement of a credential of the same account (both may be lost) and for storage errors during the rollback."
  },
  {
   "property": "C54",
   "status": "partial",
   "theorems": [
    "C54_consistent_partial",
    "C54_number_refuted",
    "C54_reset_refuted"
   ],
   "note": "Proved for every history from a wiped device with power loss anywhere outside a reset: slot sets and live credentials agree, at most one live set per relying party (C54_consistent_partial; left out: interrupted or failing resets, storage errors while an operation is being rolled back). Refuted: the reported number of credentials (C54_number_refuted: an overwrite is counted twice) and consistency after an interrupted reset (C54_reset_refuted)."
  },
  {
   "property": "C55",
   "status": "partial",
   "theorems": [
    "C55_get_assertion",
    "C55_u2f_authenticate",
    "C55_make_credential",
    "C55_u2f_register",
    "C55_tag_determined",
    "C55_altered_refuted"
   ],
   "note": "Whatever getAssertion and U2F authenticate sign with is a key derived from the stored secret whose id carries the right tag for the RP (the tag covers nonce, flags and RP hash); what makeCredential and register return is such an id; two accepted ids with the same nonce and RP agree in the first 66 bytes. Refuted: the last four bytes (algorithm) are not covered by the tag, so an altered id is accepted."
  },
  {
   "property": "C56",
   "status": "partial",
   "theorems": [
    "C56_get_assertion",
    "C56_get_next",
    "C56_u2f_refuted"
   ],
   "note": "Proved for getAssertion and getNextAssertion; refuted for U2F authenticate, which does not look at credProtect."
  },
  {
   "property": "C57",
   "status": "partial",
   "theorems": [
    "C57_enumeration_partial",
    "C57_ends",
    "C57_complete"
   ],
   "note": "C57_enumeration_partial: the answers of getAssertion and the getNextAssertion commands after it are with the eligible slots in descending order, each once, never more than there are, each within 30 s of the one before, and the number reported is theirs. C57_ends: any other message, failure, reset or power loss ends it; U2F commands in between do not. C57_complete: none is left out: each getNextAssertion in time gives the next one, if the storage works during it and the credentials are usable (made by this device, ES256 or EdDSA). That they are the device's own is proved from the history in C94_next. Missing: SM2 credentials in C57_complete."
  },
  {
   "property": "C58",
   "status": "partial",
   "theorems": [
    "C58_complete",
    "C58_power_loss_partial",
    "C58_power_loss_refuted"
   ],
   "note": "Proved: a reset that reports success has removed PIN, credentials and metadata, replaced both keys and restored the initial large-blob array; at every power loss during a reset (and after the next boot) the PIN is removed only if no discoverable credential is left. Refuted: power loss between clearing the PIN and replacing the key leaves non-discoverable credentials usable, with a PIN of the finder's choice."
  },
  {
   "property": "C59",
   "status": "proved",
   "theorems": [
    "C59_truncation",
    "C59_request",
    "C59_accepted",
    "C59_stored"
   ],
   "note": ""
  },
  {
   "property": "C60",
   "status": "proved",
   "theorems": [
    "C60_set_pin",
    "C60_change_pin",
    "C60_stored_pins",
    "C60_every_stored_pin"
   ],
   "note": ""
  },
  {
   "property": "C61",
   "status": "partial",
   "theorems": [
    "C61_responses_partial",
    "C61_empty_message_refuted"
   ],
   "note": "Proved: for every command except an empty CBOR message, the response is a CTAP2 message (status, and one encoded item after a success), a U2F message built from this command's challenge and the stored certificate and keys, U2F_V2, or empty. Refuted: an empty CBOR message (CLA 80 INS 10 without data) is answered with the whole 1340-byte buffer. Uninitialised variables that reach a response are an undefined outcome of the model."
  },
  {
   "property": "C62",
   "status": "partial",
   "theorems": [
    "C62_admin_partial",
    "C62_admin_refuted",
    "C62_ctap",
    "C62_ndef",
    "C62_pass",
    "C62_oath_partial",
    "C62_oath_refuted",
    "C62_pgp_partial",
    "C62_pgp_refuted",
    "C62_piv",
    "C62_piv_extensions_refuted"
   ],
   "note": "All applets: PIV, FIDO, PASS, NDEF and the ADMIN configuration: the next undisturbed boot always completes the interrupted installation (PIV's algorithm-extension switch excepted, refuted).  OpenPGP, OATH and the ADMIN PIN: partial and refuted, with the exact images of the interrupted installation that are never repaired (ADMIN: until a factory reset)."
  },
  {
   "property": "C63",
   "status": "partial",
   "theorems": [
    "C63_generate_refuted"
   ],
   "note": "Refuted: GENERATE ASYMMETRIC KEY PAIR checks no password; a host that has shown none replaces the signature key."
  },
  {
   "property": "C64",
   "status": "partial",
   "theorems": [
    "C64_partial",
    "C64_lengths",
    "C64_size_refuted"
   ],
   "note": "C64_partial: PW1/PW3 change only by commands that begin with the current password, by the resetting code, by the administrator (PW1) or by ACTIVATE; excluded are runs that read before the command buffer, which happen if the size of the old password cannot be read (C64_size_refuted). C64_lengths: stored passwords keep their lengths within the limits over all histories."
  },
  {
   "property": "C65",
   "status": "proved",
   "theorems": [
    "C65_oath_no_undefined_behaviour"
   ],
   "note": ""
  },
  {
   "property": "C66",
   "status": "partial",
   "theorems": [
    "C66_reselect_requires_code_refuted"
   ],
   "note": "Refuted for every reachable authorised device with an access code."
  },
  {
   "property": "C67",
   "status": "partial",
   "theorems": [
    "C67_validate_replay_refuted"
   ],
   "note": "Refuted: every accepted VALIDATE is accepted again, even after the applet was deselected."
  },
  {
   "property": "C68",
   "status": "partial",
   "theorems": [
    "C68_read_error_at_boot_refuted"
   ],
   "note": "Refuted for every stored content: one failing size query at boot empties the OATH store."
  },
  {
   "property": "C69",
   "status": "proved",
   "theorems": [
    "C69_calculate_all_returns_every_code_once"
   ],
   "note": ""
  },
  {
   "property": "C70",
   "status": "proved",
   "theorems": [
    "C70_other_files_untouched"
   ],
   "note": ""
  },
  {
   "property": "C71",
   "status": "partial",
   "theorems": [
    "C71_keys_released_refuted",
    "C71_keys_released_partial"
   ],
   "note": "Refuted: an eject APDU arriving while a key is down leaves that key down; proved for every history without eject commands."
  },
  {
   "property": "C72",
   "status": "partial",
   "theorems": [
    "C72_reset_cut_leaks_refuted"
   ],
   "note": "Refuted: the reset writes 19 bytes and then extends the file in a second storage update; a power loss in between leaves a short file and READ BINARY returns stale buffer bytes with 9000. C22 holds for histories without such a loss."
  },
  {
   "property": "C73",
   "status": "partial",
   "theorems": [
    "C73_write_sn_can_be_repeated_refuted"
   ],
   "note": "refuted: C73_write_sn_can_be_repeated_refuted shows a power cut after which the number is 00000000 and cannot be written"
  },
  {
   "property": "C74",
   "status": "partial",
   "theorems": [
    "C74_keyboard_touch",
    "C74_keyboard_touch_after_wrap_refuted"
   ],
   "note": "safety proved; refuted after the 32-bit millisecond clock wraps: touches are then ignored for weeks (C74_keyboard_touch_after_wrap_refuted)"
  },
  {
   "property": "C75",
   "status": "partial",
   "theorems": [
    "C75_cancel_partial",
    "C75_cancel_lost_refuted",
    "C75_pending_lost_refuted"
   ],
   "note": "Proved when the CANCEL is polled before the next report is sent. Refuted: a keep-alive or a timeout report overwrites a pending frame."
  },
  {
   "property": "C76",
   "status": "partial",
   "theorems": [
    "C76_hold_released_partial",
    "C76_vanished_host_refuted",
    "C76_vanished_host_general_refuted"
   ],
   "note": "Only the hold after a fetched response times out; refuted for every earlier point, even across a new configuration of the device."
  },
  {
   "property": "C77",
   "status": "partial",
   "theorems": [
    "C77_descriptor_partial",
    "C77_corrupts_refuted",
    "C77_reveals_refuted"
   ],
   "note": "Descriptors are built in the shared command buffer without owning it. Proved only between transactions; refuted: a descriptor read between the packets of a request changes the command executed; with the keyboard disabled the configuration descriptor returns 32 bytes of the last response."
  },
  {
   "property": "C78",
   "status": "partial",
   "theorems": [
    "C78_reveals_refuted",
    "C78_overread_refuted",
    "C78_fetch_partial"
   ],
   "note": "Proved for readers that follow the protocol; refuted: acknowledgements sent after the end of a response make the card send what lies behind it in the buffer, and then memory behind the buffer."
  },
  {
   "property": "C79",
   "status": "partial",
   "theorems": [
    "C79_touch_policy_partial",
    "C79_touch_policy_refuted"
   ],
   "note": "proved with respect to the 32-bit millisecond clock; refuted in real time after the clock wraps (49.7 days, C79_touch_policy_refuted)"
  },
  {
   "property": "C80",
   "status": "proved",
   "theorems": [
    "C80_protected_objects"
   ],
   "note": ""
  },
  {
   "property": "C81",
   "status": "partial",
   "theorems": [
    "C81_get_assertion",
    "C81_u2f_refuted"
   ],
   "note": "Proved for getAssertion; refuted for U2F authenticate, which accepts the ids of deleted credentials."
  },
  {
   "property": "C82",
   "status": "partial",
   "theorems": [
    "C82_other_commands",
    "C82_protocol_first_partial",
    "C82_short_strings_partial",
    "C82_refuted"
   ],
   "note": "proved for every command but clientPIN, and for clientPIN when the protocol comes first or the strings fit; refuted for clientPIN without a protocol"
  },
  {
   "property": "C83",
   "status": "proved",
   "theorems": [
    "C83_limits"
   ],
   "note": ""
  },
  {
   "property": "C84",
   "status": "partial",
   "theorems": [
    "C84_make_credential",
    "C84_get_assertion",
    "C84_get_next_assertion",
    "C84_selection",
    "C84_u2f",
    "C84_reset_refuted"
   ],
   "note": "proved for registrations, assertions, selection and U2F in all histories; refuted for authenticatorReset, which asks for no touch"
  },
  {
   "property": "C85",
   "status": "partial",
   "theorems": [
    "C85_make_credential",
    "C85_get_assertion",
    "C85_client_pin",
    "C85_credential_management",
    "C85_large_blobs",
    "C85_no_rp_id_refuted",
    "C85_long_rp_id_refuted",
    "C85_nul_name_refuted"
   ],
   "note": "proved for messages without repeated keys or NUL characters in names; refuted for a relying party without id (accepted), an RP ID of 254 bytes in an assertion (read as another one) and names with a NUL"
  },
  {
   "property": "C86",
   "status": "partial",
   "theorems": [
    "C86_make_credential",
    "C86_u2f_register",
    "C86_same_key",
    "C86_u2f_eddsa_refuted",
    "C86_sm2_refuted",
    "C86_u2f_unsigned_refuted"
   ],
   "note": "C86_make_credential and C86_u2f_register: what a registration answers (id, public key, RP, attestation signature). C86_same_key: the signature of every later assertion that names the id verifies with the registered key, over all histories without a reset. Refuted: U2F AUTHENTICATE does not look at the algorithm of the id and signs with P-256 for an EdDSA credential (C86_u2f_eddsa_refuted); with an SM2 algorithm number of four bytes the registered key is garbage (C86_sm2_refuted); U2F REGISTER without an attestation key succeeds with an empty signature (C86_u2f_unsigned_refuted). For getNextAssertion the client data are those of the request in RAM, which C57 ties to the getAssertion before."
  },
  {
   "property": "C87",
   "status": "partial",
   "theorems": [
    "C87_not_repeated",
    "C87_only_own",
    "C87_deleted_refuted"
   ],
   "note": "Proved for every history without a reset since the registration, every list and all storage errors: no second registration, nothing stored, and the error only for own ids of the RP. Refuted: the id of a credential that the user has deleted still excludes (C87_deleted_refuted)."
  },
  {
   "property": "C88",
   "status": "partial",
   "theorems": [
    "C88_private_keys",
    "C88_interrupted_refuted"
   ],
   "note": "Proved for all histories without storage errors or power loss during GENERATE; for these C88_interrupted_refuted: the new key material is stored before its description, so that a slot that held an RSA key gives out a 'modulus' computed from what is left of the old private key. The lengths of generated keys are a hypothesis about the cryptography (key_sizes)."
  },
  {
   "property": "C89",
   "status": "proved",
   "theorems": [
    "C89_private_keys"
   ],
   "note": "Two-run noninterference. Assumes that generated elliptic-curve keys have the lengths of their algorithm (key_sizes) and that whether a signature can be computed does not depend on the private key (signs_alike: otherwise the signature counter would differ); both are properties of canokey-crypto, which is not modelled. C library leftovers on the stack (ck_read_key of a short file) are zeros in the model. The work of other applets on the file system is not part of the histories."
  },
  {
   "property": "C90",
   "status": "partial",
   "theorems": [
    "C90_one_rp_too_many_refuted",
    "C90_unknown_algorithm_refuted",
    "C90_long_certificate_refuted",
    "C90_answered_partial",
    "C90_blob_writes"
   ],
   "note": "C90_answered_partial: every command in the list, in every state, with all storage errors. C90_blob_writes: every fragment of a large-blob write, after every history of a device that was started with an array. Missing: getAssertion and getNextAssertion with valid parameters and the enumerations of credentialManagement. Refuted by three reachable devices and requests that are not answered (C90_one_rp_too_many_refuted, C90_unknown_algorithm_refuted, C90_long_certificate_refuted)."
  },
  {
   "property": "C91",
   "status": "proved",
   "theorems": [
    "C91_get_assertion",
    "C91_u2f"
   ],
   "note": "C91_get_assertion and C91_u2f, for all histories without a reset between registration and use. Assumes, as hypotheses, that the key derivation and the signature routine work (keys_work), that during the request itself the storage works and the user touches the key, and that the storage of the device is that of an installed one at the registration. The request has no pinUvAuthParam and no hmac-secret extension. Resident credentials can be deleted and are covered by C54, C57 and C81."
  },
  {
   "property": "C92",
   "status": "proved",
   "theorems": [
    "C92_secrets",
    "C92_answer"
   ],
   "note": "C92_secrets: two devices that differ in nothing but the secrets, given the same events (PUT may bring different secrets), give the same answers except for the codes in them, and differ again in nothing but the secrets. C92_answer: one event that gives no code. Not claimed: that HMAC hides the key; what the codes are is C14 and C18. The access code key is not counted among the secrets here (see C15, C66). Assumes the digest lengths 20, 32 and 64."
  },
  {
   "property": "C93",
   "status": "proved",
   "theorems": [
    "C93_passwords"
   ],
   "note": "C93_passwords: two-run statement over histories of OATH commands, touches, slot configurations, storage errors and power losses; reading the configuration is observed before every event and at the end. The administration PIN that protects the configuration and resets of the slots are outside this history."
  },
  {
   "property": "C94",
   "status": "proved",
   "theorems": [
    "C94_own",
    "C94_fresh",
    "C94_next"
   ],
   "note": "Writes to the file system are atomic in the model (each write of a record either happens or not), as littlefs gives on commit. hmac_sized: HMAC-SHA256 gives 32 bytes. C94_next restates C57_complete for a device that began with an empty storage, without its hypothesis that the credentials are genuine; there the algorithms ES256 and EdDSA are a hypothesis, as an SM2 key can fail to sign when the configuration has changed."
  },
  {
   "property": "C95",
   "status": "proved",
   "theorems": [
    "C95_kept",
    "C95_unchanged",
    "C95_listed",
    "C95_boot_error_refuted"
   ],
   "note": "A consequence of C53 for whole histories; C53_storage_error_refuted shows why storage errors during a roll-back are excluded. C95_boot_error_refuted shows why errors at boot are: for every content of the storage, one failing size query in ctap_install is taken for a new device, and all resident credentials and the PIN are dropped (C68 is the same for OATH)."
  },
  {
   "property": "C96",
   "status": "partial",
   "theorems": [
    "C96_admin_kept",
    "C96_admin_error_refuted",
    "C96_ctap_kept",
    "C96_ndef_kept",
    "C96_ndef_error_refuted",
    "C96_oath_kept",
    "C96_pass_kept",
    "C96_pass_error_refuted",
    "C96_pgp_kept",
    "C96_pgp_error_refuted",
    "C96_piv_kept",
    "C96_piv_error_refuted"
   ],
   "note": "Proved for every storage content and every pattern of storage errors except in the accesses that ask whether there is an installation (C96_piv_kept, C96_pgp_kept, C96_ctap_kept, C96_ndef_kept: not a byte is written; C96_oath_kept, C96_pass_kept: the stored credentials and touch slots are the same; C96_admin_kept: without storage errors). False for an error in these accesses: get_file_size answers a negative value for every error, and the installation takes it for 'never installed'. For every content, one such error turns a PIV card into a new card (C96_piv_error_refuted), resets OpenPGP to the factory settings, a terminated card included (C96_pgp_error_refuted), removes all resident credentials and the PIN of FIDO (C95_boot_error_refuted), empties the OATH store (C68_read_error_at_boot_refuted), turns the touch slots off (C96_pass_error_refuted), sets the administrator's PIN to 123456 again with three attempts (C96_admin_error_refuted) and replaces the NDEF message and its write protection (C96_ndef_error_refuted)."
  },
  {
   "property": "C97",
   "status": "proved",
   "theorems": [
    "C97_fido",
    "C97_ndef",
    "C97_pgp",
    "C97_piv"
   ],
   "note": "C97_fido, C97_pgp and C97_ndef: every state. C97_piv: every state since a start (PUT DATA keeps the name of the file between blocks). The files of each applet are listed in the statements (all begin with ctap_, piv- and pgp-; E103 and NDEF for the tag). For OATH and the touch slots see C70; the storage as a map from names to files is an assumption of the model (littlefs)."
  }
 ]
}