# Formal model of canokey-core: design

All Coq sources are in `rocq/theories` (logical name `Verif`).  `/repo` is read as text only; nothing here runs it.
Section 1 says how the code is modelled, section 2 what is and what is not modelled, section 3 what is trusted,
section 4 how each property is proved, section 5 how the theorems were tested.

## 1. Modelling approach

* **Bytes and integers.** A byte is a `Z`; a buffer is a `list Z`.  C fixed-width arithmetic is written out (`u8`, `u16`,
  `u32`, `s32`) exactly where the C code truncates or wraps; where no wrap can occur unbounded `Z` is used.
* **Undefined behaviour is an outcome.** Functions that index buffers return an explicit `UB` (or `None`) outcome when the
  C code would read or write outside the object or use an uninitialised variable.  Memory-safety theorems say that the
  outcome is unreachable; refutations exhibit a history that reaches it.
* **Storage** (`Sys.v`, from `src/fs.c` over littlefs).  `fs` is a map from paths to files with contents and numbered
  attributes.  Every storage operation consumes one answer of a fault oracle: it works, fails at once, or fails late (after
  the open created a missing file).  Every mutation is one commit; creating a missing file and writing it are two.
* **Power loss.** The environment keeps the list `e_log` of all storage images ever committed.  Power loss at any point is
  "any image committed during the command, followed by a boot" (static variables as at power-on, `*_install(0)` run).
* **Effects.** Code with storage, randomness, touch or time is written in a state/exception monad whose outcomes are
  "returned a value", "EXCEPT(sw)", "returned a negative value" and "undefined behaviour".  The environment holds oracle
  streams of faults, random bytes and answers of the user-presence test.  All functions are total and computable.
* **Cryptography** (HMAC, SHA, AES, TDES, ECC, RSA) appears as records of arbitrary functions (`crypto`, `fcrypto`, …).
  Theorems hold for all of them and assume nothing beyond what a hypothesis in the theorem says (for instance that an HMAC
  has 32 bytes).  The examples use toy functions.
* **Schedules.** Interrupt handlers and main-loop functions are steps of a transition system; theorems quantify over all
  finite lists of events (`Device.v`, `Hid.v`, `Usb.v`, `Nfc.v`, `Kbd.v`).
* **Histories.** Applet theorems quantify over arbitrary lists of events: commands (any APDU or request, with any faults,
  randomness, touches, ticks), SELECT/power-off, power loss inside a command, reboot.
* **Proof methods.** Weakest-precondition rules for the monad (`wp_*` in `Sys.v`, `PinWp.v`, `Frame.v`, `CtapFrame.v`),
  invariants over histories by induction, refinement (OATH store to an association map, CCID/WebUSB to what a host knows),
  and exact input/output characterisations (APDU, TLV, key templates).  `NonInt.v` proves independence of file contents.
* **Failure of a property.** When the faithful model violates a property, the theorem is named `…_refuted` and exhibits a
  reachable witness; what does hold is proved beside it as `…_partial`.

## 2. What is modelled

Every definition cites the file and lines it models.

| source | model | notes |
|---|---|---|
| `src/apdu.c` | `Apdu.v` | decoding, command and response chaining, dispatch by AID; buffer ownership |
| `src/applets.c` | `Apdu.v` (`poweroff` of all applets) | |
| `src/common.c` | `Tlv.v` | BER-TLV lengths |
| `src/fs.c` | `Sys.v` | primitives; `get_fs_size`/`get_fs_usage` are arbitrary numbers |
| `src/pin.c` | `Pin.v` | complete |
| `src/key.c` | `Key.v` | complete; `algo.h` is not in the checkout, its constants are assumed as stated there |
| `src/device.c` | `Device.v` | user presence, strong presence, blinking state, keyboard share; not the LED pin |
| `applets/oath/oath.c` | `Oath.v` | complete |
| `applets/pass/pass.c` | `Pass.v`, end of `Oath.v` | complete |
| `applets/ndef/ndef.c` | `Ndef.v` | complete |
| `applets/admin/admin.c` | `Admin.v` | complete, with the weak (empty) vendor functions; LED not modelled |
| `applets/piv/piv.c` | `Piv.v` | complete |
| `applets/openpgp/{openpgp,key}.c` | `Pgp.v` | complete |
| `applets/ctap/{ctap,secret,u2f}.c` | `Ctap.v` | complete, from parsed requests to encoded responses |
| `applets/ctap/ctap-parser.c` | `CtapReq.v`, `CtapParse.v` | all parsers, over decoded CBOR trees (definite lengths; the byte-level decoder tinycbor is not modelled): `CtapReq.v` is a function from the tree to the request record, with writes outside a field as an outcome of its own. The FIDO histories take request records restricted by `creq_ok` (`CtapSpec.v`); C83 proves that the parser only lets such records through. `CtapParse.v` is the relying-party part, with `maybe_truncate_rpid` |
| `interfaces/USB/class/ctaphid/ctaphid.c` | `Hid.v` | frames arriving during a command included |
| `interfaces/USB/class/ccid/{ccid,usbd_ccid}.c` | `Usb.v` | not: time-extension messages, responses dropped after 50 ms |
| `interfaces/USB/class/webusb/webusb.c` | `Usb.v` | |
| `interfaces/USB/class/kbdhid/kbdhid.c` | `Kbd.v` | of `usbd_kbdhid.c` only "idle or not" |
| `interfaces/USB/device/usbd_desc.c`, `core/usbd_ctlreq.c` | `Usb.v` (`Desc`) | only the use of the shared buffer |
| `interfaces/NFC/nfc.c` | `Nfc.v` | waiting-time extensions abstracted |

Not modelled: `littlefs`, `tinycbor`, `canokey-crypto` (submodules absent from the checkout), the USB core and endpoint
drivers, `interfaces/NFC/fm.c`, the LED, the vendor hooks, the fuzzing and test harnesses, debug output, timing.
Each applet is modelled as running one command at a time.  Interleaving *inside* a command is modelled where the code
allows it (`Device.v`: nested waits; `Hid.v`: frames at every interrupt point).

Simplifications that matter:

* The FIDO command theorems start from request records, and `CtapReq.v` makes the records from CBOR trees; non-canonical
  CBOR is outside the model, and memory errors inside `ctap-parser.c` are the subject of C82 only; malformed CBOR is not covered.
* Keep-alive messages and blinking inside applet commands are left out; the wait for a touch is one oracle answer in the
  applet models (its own behaviour is `Device.v`).
* The bounded rejection loop of FIDO key derivation: 64 bad keys in a row are an undefined outcome of the model.

## 3. Trusted base

* Coq 8.16.1's kernel (also re-checked with `coqchk`), and the standard library.  No axioms: `Print Assumptions` stands under
  each property theorem and answers *Closed under the global context* for all 309 of them.
* The faithfulness of the model to the C text, which is by reading.
* About littlefs: closing a written file, setting an attribute, renaming, removing and truncating are each atomic with
  respect to power loss; opening a missing file with `O_CREAT` commits an empty file first; a failing operation leaves the
  storage as it was (but for that empty file); reading past the end returns fewer bytes; attributes survive truncation.
* About `algo.h` (absent): order of the key types and the key lengths in `Key.v`.
* About the compiler: `int` has 32 bits, `size_t` at least 32, chars of text are 7-bit.

## 4. Properties

### C01 Command APDU decoding is the exact inverse of ISO 7816-4 encoding (proved)

Files: `PropApdu.v`.  Theorems: `C01_decode_iff_iso7816`, `C01_decode_in_bounds`.

### C02 Command chaining delivers the concatenation of the blocks (proved)

Files: `PropApdu.v`.  Theorems: `C02_chained_equals_unchained`.

### C03 A chained command with missing data is never executed (partial)

Files: `PropApdu.v`.  Theorems: `C03_no_truncated_execution_refuted`, `C03_chaining_history_partial`.

Full property refuted by a witness history (a refused block leaves the chain open); the exact behaviour over every history is proved.

### C04 Response chaining returns the response exactly once, in order (proved)

Files: `PropApdu.v`.  Theorems: `C04_response_chaining`, `C04_segments_concat`.

### C05 GET RESPONSE only returns bytes of the response to the last command (partial)

Files: `PropApdu.v`.  Theorems: `C05_stale_response_refuted`.

Full property refuted for every state: the response of OpenPGP/PIV/FIDO is still delivered by GET RESPONSE after switching to OATH. For commands of OpenPGP/PIV/FIDO the property follows from C04.

### C06 SELECT routes by AID and resets the other applets' security state (proved)

Files: `PropApdu.v`.  Theorems: `C06_routing`, `C06_select`, `C06_select_unknown`.

### C07 At most one interface owns the shared APDU buffer (proved)

Files: `PropApdu.v`.  Theorems: `C07_exclusive_ownership`, `C07_acquire`, `C07_release`.

### C08 PIN retry limit holds across power cycles and power loss (proved)

Files: `PropPin.v`.  Theorems: `C08_retry_limit`, `C08_locked_stays_locked`.

### C09 PIN verification accepts exactly the stored PIN (proved)

Files: `PropPin.v`.  Theorems: `C09_verify_exact`, `C09_verify_independent`, `C09_needs_memcmp_not_one`.

### C10 Storage write errors never give extra PIN guesses (partial)

Files: `PropPin.v`.  Theorems: `C10_storage_errors_refuted`, `C10_storage_errors_partial`.

Full property refuted: when the counter write fails the correct PIN still leaves the validated flag set and wrong guesses cost nothing; the exact guarantees under arbitrary faults are proved.

### C11 PIN length limits apply to the whole submitted PIN (partial)

Files: `PropAdmin.v`.  Theorems: `C11_whole_pin_partial`, `C11_whole_pin_refuted`.

refuted for data fields above 255 bytes (C11_whole_pin_refuted: the length is cut to 8 bits); proved for data fields of at most 255 bytes

### C12 BER-TLV length parsing is exact and never overruns (proved)

Files: `PropPin.v`.  Theorems: `C12_tlv_exact`, `C12_tlv_in_bounds`.

### C13 OATH credential store behaves as a map from names to credentials (proved)

Files: `PropOath.v`.  Theorems: `C13_store_is_the_expected_map`, `C13_put_status`, `C13_delete_status`, `C13_rename_status`.

### C14 A HOTP counter value is never used twice (proved)

Files: `PropOath.v`.  Theorems: `C14_calculate_uses_next_counter`, `C14_counter_never_decreases`, `C14_counter_never_reused`, `C14_exhausted_counter_refused`, `C14_touch_uses_next_counter`, `C14_code_reused_after_write_error_refuted`.

Proved for histories without storage errors at the calculations themselves, as the property says; with a write error the same code is given twice (C14_code_reused_after_write_error_refuted).

### C15 OATH access code gates every credential operation (proved)

Files: `PropOathCode.v`.  Theorems: `C15_locked_until_validated`, `C15_locks_again`, `C15_validate_needs_the_key`, `C15_validate_unlocks`.

### C16 Increasing-only TOTP credentials never accept an older challenge (proved)

Files: `PropOathList.v`.  Theorems: `C16_calculate_needs_newer_challenge`, `C16_never_answers_older_challenge`.

### C17 OATH LIST paging returns every credential exactly once (proved)

Files: `PropOathList.v`.  Theorems: `C17_list_returns_every_credential_once`.

### C18 OATH codes are the RFC 4226 truncation of the HMAC (proved)

Files: `PropOathList.v`.  Theorems: `C18_truncation_is_rfc4226`, `C18_calculate_totp_code`.

### C19 Deleting an OATH credential removes it from every touch slot (partial)

Files: `PropPass.v`.  Theorems: `C19_single_slot_cleared_partial`, `C19_every_slot_cleared_refuted`.

Refuted when both slots refer to the credential (C19_every_slot_cleared_refuted); proved when at most one does.

### C20 Touch-slot configuration round-trips and rejects malformed data (proved)

Files: `PropPass.v`.  Theorems: `C20_configured_password_is_typed`, `C20_other_slot_unaffected`, `C20_malformed_refused`, `C20_read_config`, `C20_off_types_nothing`.

### C21 The emulated keyboard types exactly the configured text (proved)

Files: `PropKbd.v`.  Theorems: `C21_types_the_text_in_order`, `C21_text_is_completed`.

### C22 NDEF tag storage: bounded, isolated reads and writes (proved)

Files: `PropNdef.v`.  Theorems: `C22_update_exact`, `C22_update_accepted`, `C22_read_exact`, `C22_update_atomic`, `C22_contents_kept`.

### C23 Admin commands need the admin PIN (proved)

Files: `PropAdmin.v`.  Theorems: `C23_refused_without_pin`, `C23_public_harmless`, `C23_verify_harmless`, `C23_verify_authorises`.

### C24 Admin factory reset needs all its conditions (partial)

Files: `PropAdmin.v`.  Theorems: `C24_reset_conditions_partial`, `C24_reset_on_read_error_refuted`.

refuted under a storage read error of the retry counter (C24_reset_on_read_error_refuted); proved when no storage error happens during the command

### C25 The serial number can be written only once (partial)

Files: `PropAdmin.v`.  Theorems: `C25_written_once_partial`, `C25_rewritten_on_read_error_refuted`.

refuted when the size of the number cannot be read during a second WRITE SN (C25_rewritten_on_read_error_refuted); proved for every history whose later WRITE SN commands see no storage error

### C26 Configuration switches persist and are independent (proved)

Files: `PropAdmin.v`.  Theorems: `C26_config_as_commanded`, `C26_one_candidate`.

### C27 User presence: one touch authorises at most one operation (partial)

Files: `PropDevice.v`.  Theorems: `C27_needs_fresh_touch`, `C27_one_touch_one_use`, `C27_nested_denied`, `C27_unsuccessful_end`, `C27_ends_after_30s`, `C27_touch_during_wait_refuted`.

the grant/consume/cancel/timeout/nesting clauses are proved; 'a touch during that wait' is refuted: a touch reported earlier and not consumed is accepted (C27_touch_during_wait_refuted)

### C28 Strong user presence needs several distinct touches (proved)

Files: `PropDevice.v`.  Theorems: `C28_five_spaced_touches`, `C28_each_a_fresh_touch`, `C28_missed_window_fails`.

five touches, each at least 2 s after the one before; C28_missed_window_fails is the end of a window without touch

### C29 PIV management operations need management-key authentication (partial)

Files: `PropPivAuth.v`.  Theorems: `C29_management_partial`, `C29_management_refuted`.

Proved for every history in which no challenge request met a storage error: data, keys and configuration change only after a management-key authentication in this session. Refuted in general: a storage error while the card answers a challenge request leaves the request open with an expected answer of zeros (C29_management_refuted).

### C30 PIV PIN policy is enforced (proved)

Files: `PropPivPin.v`.  Theorems: `C30_pin_policy`.

### C31 PIV GET DATA streams the whole object (proved)

Files: `PropPivData.v`.  Theorems: `C31_get_data`.

### C32 PIV PUT DATA stores exactly the transmitted object (partial)

Files: `PropPivData.v`.  Theorems: `C32_put_data_partial`, `C32_put_data_accepted_partial`, `C32_new_chain`, `C32_put_data_refuted`.

refuted for a first block that fills the object exactly and announces more (C32_put_data_refuted); proved for every other division into blocks

### C33 PIV PIN and PUK: change and unblock rules (proved)

Files: `PropPivPuk.v`.  Theorems: `C33_change_rules`, `C33_tries`, `C33_history`.

### C34 PIV reset only when both PIN and PUK are blocked (partial)

Files: `PropPivReset.v`.  Theorems: `C34_reset_partial`, `C34_reset_refuted`, `C34_silent_failure_refuted`, `C34_power_cut_refuted`.

Proved for all states and fault sequences: without storage errors RESET is refused unless both secrets are blocked and otherwise wipes everything; in every crash or error image either the PIN and PUK are still as before or all key material is erased. Three parts of the statement are false of the code and refuted: read errors of the retry counters count as blocked, 9000 is answered even if the wipe failed, and a power cut leaves keys that need no PIN.

### C35 PIV dynamic authentication template is parsed within the command data (proved)

Files: `PropPivGa.v`.  Theorems: `C35_template`.

### C36 OpenPGP: with PW1 status 0 each verification allows one signature (proved)

Files: `PropPgpAccess.v`.  Theorems: `C36_one_signature`.

### C37 OpenPGP access conditions (partial)

Files: `PropPgpAccess.v`.  Theorems: `C37_sign`, `C37_use`, `C37_admin_partial`.

C37_sign, C37_use: signing and PSO/INTERNAL AUTHENTICATE need the right password in the same session. C37_admin_partial: administrative data changes only after PW3 was shown (GENERATE is the exception, see C63_generate_refuted).

### C38 OpenPGP signature counter counts signatures (partial)

Files: `PropPgpCount.v`.  Theorems: `C38_counter`, `C38_reset`, `C38_uncounted_refuted`.

C38_counter: over every history without new-key commands, re-installation or the sequence's wrap, the stored counter grows by exactly one per successful signature. C38_reset: only key generation/import and re-installation set it to 0. C38_uncounted_refuted: after a storage error on the counter the signature still leaves the card with status 6900, uncounted.

### C39 OpenPGP permanent touch policy is irrevocable (proved)

Files: `PropPgpTouch.v`.  Theorems: `C39_touch`, `C39_permanent`, `C39_set`.

### C40 OpenPGP terminate/activate (proved)

Files: `PropPgpEnd.v`.  Theorems: `C40_terminate`, `C40_done`, `C40_terminated`, `C40_activate`, `C40_not_terminated`.

### C41 Private key import templates are parsed within the command data (partial)

Files: `PropKey.v`.  Theorems: `C41_openpgp`, `C41_piv_partial`, `C41_piv_overread_refuted`.

C41_openpgp: the OpenPGP import never reads outside the received data, its result depends only on them, and an accepted import stores exactly the components which were sent. C41_piv_partial: the same for PIV when the data do not stop inside a policy element (AA or AB). C41_piv_overread_refuted: if they do, the stored PIN policy is a stale byte after the received data. Not modelled: the arithmetic of ECC and RSA (oracle record crypto).

### C42 CTAPHID message reassembly stays inside its buffer (partial)

Files: `PropHid.v`.  Theorems: `C42_no_overflow_partial`, `C42_overflow_refuted`.

Proved for frame sequences in which no over-long initialisation frame arrives while a message is being received; refuted in general: a refused INIT frame leaves its length behind and continuation frames then overrun the buffer. Responses are assumed to fit (C61 and the FIDO model deal with them).

### C43 CTAPHID transport is lossless (partial)

Files: `PropHid.v`.  Theorems: `C43_ping`, `C43_cbor`, `C43_msg_partial`, `C43_msg`, `C43_init_partial`, `C43_frames_reassemble`, `C43_short_message_refuted`, `C43_clock_wrap_refuted`.

Proved exactly for PING, CBOR, well-formed MSG and INIT with a full nonce, in any interleaving with other channels' frames, if nothing arrives while the device itself works and the clock does not wrap. Refuted: MSG shorter than its own length field is completed with stale bytes; spurious timeout before the 32-bit clock wraps.

### C44 CTAPHID channel isolation (partial)

Files: `PropHid.v`.  Theorems: `C44_ping_isolated`, `C44_cbor_isolated`, `C44_init_reveals_refuted`, `C44_response_redirected_refuted`, `C44_response_misrouted_refuted`.

Proved while a message is being received. Refuted: INIT with a short nonce reveals another channel's bytes; a frame arriving while a response is sent redirects the rest of it; a message of the waiting channel lets another channel receive the response.

### C45 CCID bulk reassembly stays inside the APDU buffer (partial)

Files: `PropUsb.v`.  Theorems: `C45_no_overflow_partial`, `C45_delivered_partial`, `C45_overflow_refuted`.

Proved for drivers that send one request at a time and none longer than 1342 bytes, under every interleaving with WebUSB. Refuted beyond: a header announcing 2000 bytes makes the reader write past its buffer.

### C46 CCID responses echo slot and sequence number and carry only the response (partial)

Files: `PropUsb.v`.  Theorems: `C46_answer_partial`, `C46_only_answers_partial`, `C46_stale_response_refuted`, `C46_reveals_webusb_refuted`, `C46_lost_refuted`.

Proved: every complete request is answered with its slot, sequence number and the applets' response (6400 only if WebUSB was ever used), and nothing else is sent. Refuted: a request to a non-existent slot returns the previous response, possibly WebUSB's; a request between the end of the transmission and the clearing of the flag is lost. Not modelled: time-extension messages, answers dropped after 50 ms.

### C47 NFC block protocol is lossless under retransmission (partial)

Files: `PropNfc.v`.  Theorems: `C47_exchange_partial`, `C47_short_frame_refuted`, `C47_overflow_refuted`, `C47_lost_ack_refuted`, `C47_executed_twice_refuted`.

Proved for every cutting of the command and every pattern of lost response blocks (the reader asks again with R(NAK) or R(ACK)), when the blocks of the command, their acknowledgements and the R-blocks arrive. Refuted: lost acknowledgement, command executed twice after a corrupted R(NAK) (FM11NC), frame of two bytes, commands over 1342 bytes. Waiting-time extensions are abstracted.

### C48 WebUSB only exposes its own responses (partial)

Files: `PropUsb.v`.  Theorems: `C48_delivered_partial`, `C48_response_partial`, `C48_exclusive_partial`, `C48_corrupted_refuted`.

Proved for all interleavings with a reader driver that sends one request at a time. Refuted for a driver that pipelines: its packet changes the WebUSB command.

### C49 FIDO2 PIN: at most 8 wrong guesses ever, 3 per power cycle (proved)

Files: `PropCtapPin.v`.  Theorems: `C49_at_most_eight`, `C49_no_more_than_left`, `C49_three_per_power_cycle`, `C49_blocked_refuses_all`, `C49_success_needs_the_pin`, `C49_try_is_taken_first`.

### C50 FIDO2 PIN/UV token permissions (partial)

Files: `PropCtapToken.v`.  Theorems: `C50_make_credential`, `C50_get_assertion`, `C50_credential_management`, `C50_large_blobs`, `C50_token_origin`, `C50_one_use`, `C50_old_token_refuted`, `C50_permissions_kept_refuted`, `C50_blob_permission_lost_refuted`, `C50_lifetime_refuted`.

Every accepted use of a token is authorised by it (permission, RP binding, tag, life time), tokens come only from PIN-checked requests, permissions only shrink and a verified registration or assertion needs a new token; refuted: old tokens survive changePIN, permissions other than large-blob write survive use while that one is lost, and the life time fails when the 32-bit clock wraps. The getNext subcommands of credentialManagement carry no tag and are not covered.

### C51 FIDO signature counter strictly increases (proved)

Files: `PropCtapCount.v`.  Theorems: `C51_counter_increases`, `C51_counter_is_persistent`.

### C52 FIDO large-blob array is always integral and atomically replaced (partial)

Files: `PropCtapBlob.v`.  Theorems: `C52_changes`, `C52_integral_partial`, `C52_commits`, `C52_reads`, `C52_first_boot_refuted`.

Proved for every device whose array exists: only a reset or a complete write (contiguous fragments accepted one after the other that add up to the announced length) changes it, also when power is lost; the array stays integral; a completed write is committed; reads are exact. Refuted for power loss during the first installation: the file is created before it is written and the next boot leaves it empty.

### C53 Resident credentials survive power loss (partial)

Files: `PropCtapCrash.v`.  Theorems: `C53_power_loss_partial`, `C53_create`, `C53_delete_update`, `C53_answered`, `C53_recovery`, `C53_replace_refuted`, `C53_storage_error_refuted`.

Proved for creation of a new account, deletion and update, at every crash point; refuted for the replacement of a credential of the same account (both may be lost) and for storage errors during the rollback.

### C54 Credential metadata is consistent (partial)

Files: `PropCtapMeta.v`.  Theorems: `C54_consistent_partial`, `C54_number_refuted`, `C54_reset_refuted`.

Proved for every history from a wiped device with power loss anywhere outside a reset: slot sets and live credentials agree, at most one live set per relying party (C54_consistent_partial; left out: interrupted or failing resets, storage errors while an operation is being rolled back). Refuted: the reported number of credentials (C54_number_refuted: an overwrite is counted twice) and consistency after an interrupted reset (C54_reset_refuted).

### C55 Only credential IDs issued by this device are accepted (partial)

Files: `PropCtapCred.v`.  Theorems: `C55_get_assertion`, `C55_u2f_authenticate`, `C55_make_credential`, `C55_u2f_register`, `C55_tag_determined`, `C55_altered_refuted`.

Whatever getAssertion and U2F authenticate sign with is a key derived from the stored secret whose id carries the right tag for the RP (the tag covers nonce, flags and RP hash); what makeCredential and register return is such an id; two accepted ids with the same nonce and RP agree in the first 66 bytes. Refuted: the last four bytes (algorithm) are not covered by the tag, so an altered id is accepted.

### C56 credProtect is enforced on every interface (partial)

Files: `PropCtapCred.v`.  Theorems: `C56_get_assertion`, `C56_get_next`, `C56_u2f_refuted`.

Proved for getAssertion and getNextAssertion; refuted for U2F authenticate, which does not look at credProtect.

### C57 getNextAssertion enumerates the eligible credentials exactly once (partial)

Files: `PropCtapNext.v`, `PropCtapNextLive.v`.  Theorems: `C57_enumeration_partial`, `C57_ends`, `C57_complete`.

C57_enumeration_partial: the answers of getAssertion and the getNextAssertion commands after it are with the eligible slots in descending order, each once, never more than there are, each within 30 s of the one before, and the number reported is theirs. C57_ends: any other message, failure, reset or power loss ends it; U2F commands in between do not. C57_complete: none is left out: each getNextAssertion in time gives the next one, if the storage works during it and the credentials are usable (made by this device, ES256 or EdDSA). That they are the device's own is proved from the history in C94_next. Missing: SM2 credentials in C57_complete.

### C58 FIDO reset is complete even after power loss (partial)

Files: `PropCtapReset.v`.  Theorems: `C58_complete`, `C58_power_loss_partial`, `C58_power_loss_refuted`.

Proved: a reset that reports success has removed PIN, credentials and metadata, replaced both keys and restored the initial large-blob array; at every power loss during a reset (and after the next boot) the PIN is removed only if no discoverable credential is left. Refuted: power loss between clearing the PIN and replacing the key leaves non-discoverable credentials usable, with a PIN of the finder's choice.

### C59 RP ID truncation follows CTAP 2.1 (proved)

Files: `PropCtapRp.v`.  Theorems: `C59_truncation`, `C59_request`, `C59_accepted`, `C59_stored`.

### C60 New FIDO2 PINs have 4 to 63 bytes (proved)

Files: `PropCtapNewPin.v`.  Theorems: `C60_set_pin`, `C60_change_pin`, `C60_stored_pins`, `C60_every_stored_pin`.

### C61 FIDO responses over APDU contain only the response (partial)

Files: `PropCtapApdu.v`.  Theorems: `C61_responses_partial`, `C61_empty_message_refuted`.

Proved: for every command except an empty CBOR message, the response is a CTAP2 message (status, and one encoded item after a success), a U2F message built from this command's challenge and the stored certificate and keys, U2F_V2, or empty. Refuted: an empty CBOR message (CLA 80 INS 10 without data) is answered with the whole 1340-byte buffer. Uninitialised variables that reach a response are an undefined outcome of the model.

### C62 Power loss during first installation never bricks an applet (partial)

Files: `PropAdminInstall.v`, `PropCtapInstall.v`, `PropNdefInstall.v`, `PropOathInstall.v`, `PropPgpEnd.v`, `PropPivInstall.v`.  Theorems: `C62_admin_partial`, `C62_admin_refuted`, `C62_ctap`, `C62_ndef`, `C62_pass`, `C62_oath_partial`, `C62_oath_refuted`, `C62_pgp_partial`, `C62_pgp_refuted`, `C62_piv`, `C62_piv_extensions_refuted`.

All applets: PIV, FIDO, PASS, NDEF and the ADMIN configuration: the next undisturbed boot always completes the interrupted installation (PIV's algorithm-extension switch excepted, refuted).  OpenPGP, OATH and the ADMIN PIN: partial and refuted, with the exact images of the interrupted installation that are never repaired (ADMIN: until a factory reset).

### C63 Key generation in OpenPGP needs the admin PIN (partial)

Files: `PropPgpAccess.v`.  Theorems: `C63_generate_refuted`.

Refuted: GENERATE ASYMMETRIC KEY PAIR checks no password; a host that has shown none replaces the signature key.

### C64 OpenPGP password change needs the old password (partial)

Files: `PropPgpChange.v`.  Theorems: `C64_partial`, `C64_lengths`, `C64_size_refuted`.

C64_partial: PW1/PW3 change only by commands that begin with the current password, by the resetting code, by the administrator (PW1) or by ACTIVATE; excluded are runs that read before the command buffer, which happen if the size of the old password cannot be read (C64_size_refuted). C64_lengths: stored passwords keep their lengths within the limits over all histories.

### C65 OATH applet has no undefined behaviour (proved)

Files: `PropOath.v`.  Theorems: `C65_oath_no_undefined_behaviour`.

### C66 Selecting the OATH applet again asks for the access code again (partial)

Files: `PropOathCode.v`.  Theorems: `C66_reselect_requires_code_refuted`.

Refuted for every reachable authorised device with an access code.

### C67 An OATH challenge is accepted at most once (partial)

Files: `PropOathCode.v`.  Theorems: `C67_validate_replay_refuted`.

Refuted: every accepted VALIDATE is accepted again, even after the applet was deselected.

### C68 A storage read error at boot does not destroy credentials (partial)

Files: `PropPass.v`.  Theorems: `C68_read_error_at_boot_refuted`.

Refuted for every stored content: one failing size query at boot empties the OATH store.

### C69 OATH CALCULATE ALL returns one correct code per credential (proved)

Files: `PropOathList.v`.  Theorems: `C69_calculate_all_returns_every_code_once`.

### C70 The OATH applet and the touch slots touch no other applet's storage (proved)

Files: `PropPass.v`.  Theorems: `C70_other_files_untouched`.

### C71 The emulated keyboard leaves no key pressed (partial)

Files: `PropKbd.v`.  Theorems: `C71_keys_released_refuted`, `C71_keys_released_partial`.

Refuted: an eject APDU arriving while a key is down leaves that key down; proved for every history without eject commands.

### C72 An interrupted reset of the NDEF tag never discloses old buffer contents (partial)

Files: `PropNdef.v`.  Theorems: `C72_reset_cut_leaks_refuted`.

Refuted: the reset writes 19 bytes and then extends the file in a second storage update; a power loss in between leaves a short file and READ BINARY returns stale buffer bytes with 9000. C22 holds for histories without such a loss.

### C73 An interrupted serial-number write can be repeated (partial)

Files: `PropAdmin.v`.  Theorems: `C73_write_sn_can_be_repeated_refuted`.

refuted: C73_write_sn_can_be_repeated_refuted shows a power cut after which the number is 00000000 and cannot be written

### C74 The keyboard only takes touches no operation waits for (partial)

Files: `PropDevice.v`.  Theorems: `C74_keyboard_touch`, `C74_keyboard_touch_after_wrap_refuted`.

safety proved; refuted after the 32-bit millisecond clock wraps: touches are then ignored for weeks (C74_keyboard_touch_after_wrap_refuted)

### C75 CTAPHID CANCEL and pending frames are not lost (partial)

Files: `PropHid.v`.  Theorems: `C75_cancel_partial`, `C75_cancel_lost_refuted`, `C75_pending_lost_refuted`.

Proved when the CANCEL is polled before the next report is sent. Refuted: a keep-alive or a timeout report overwrites a pending frame.

### C76 A WebUSB host that goes away does not block the smart-card reader (partial)

Files: `PropUsb.v`.  Theorems: `C76_hold_released_partial`, `C76_vanished_host_refuted`, `C76_vanished_host_general_refuted`.

Only the hold after a fetched response times out; refuted for every earlier point, even across a new configuration of the device.

### C77 Descriptor requests neither disturb nor reveal commands (partial)

Files: `PropUsb.v`.  Theorems: `C77_descriptor_partial`, `C77_corrupts_refuted`, `C77_reveals_refuted`.

Descriptors are built in the shared command buffer without owning it. Proved only between transactions; refuted: a descriptor read between the packets of a request changes the command executed; with the keyboard disabled the configuration descriptor returns 32 bytes of the last response.

### C78 An NFC reader is sent nothing but responses (partial)

Files: `PropNfc.v`.  Theorems: `C78_reveals_refuted`, `C78_overread_refuted`, `C78_fetch_partial`.

Proved for readers that follow the protocol; refuted: acknowledgements sent after the end of a response make the card send what lies behind it in the buffer, and then memory behind the buffer.

### C79 PIV touch policies are enforced (partial)

Files: `PropPivTouch.v`.  Theorems: `C79_touch_policy_partial`, `C79_touch_policy_refuted`.

proved with respect to the 32-bit millisecond clock; refuted in real time after the clock wraps (49.7 days, C79_touch_policy_refuted)

### C80 PIN-protected PIV objects stay secret without the PIN (proved)

Files: `PropPivSecret.v`.  Theorems: `C80_protected_objects`.

### C81 Deleted discoverable credentials are not used (partial)

Files: `PropCtapCred.v`.  Theorems: `C81_get_assertion`, `C81_u2f_refuted`.

Proved for getAssertion; refuted for U2F authenticate, which accepts the ids of deleted credentials.

### C82 Reading a FIDO request never writes outside its fields (partial)

Files: `PropCtapReq.v`.  Theorems: `C82_other_commands`, `C82_protocol_first_partial`, `C82_short_strings_partial`, `C82_refuted`.

proved for every command but clientPIN, and for clientPIN when the protocol comes first or the strings fit; refuted for clientPIN without a protocol

### C83 Accepted FIDO requests are within the documented limits (proved)

Files: `PropCtapReq.v`.  Theorems: `C83_limits`.

### C84 FIDO operations need the user's presence (partial)

Files: `PropCtapTouch.v`.  Theorems: `C84_make_credential`, `C84_get_assertion`, `C84_get_next_assertion`, `C84_selection`, `C84_u2f`, `C84_reset_refuted`.

proved for registrations, assertions, selection and U2F in all histories; refuted for authenticatorReset, which asks for no touch

### C85 FIDO requests are understood as they are written (partial)

Files: `PropCtapRead.v`.  Theorems: `C85_make_credential`, `C85_get_assertion`, `C85_client_pin`, `C85_credential_management`, `C85_large_blobs`, `C85_no_rp_id_refuted`, `C85_long_rp_id_refuted`, `C85_nul_name_refuted`.

proved for messages without repeated keys or NUL characters in names; refuted for a relying party without id (accepted), an RP ID of 254 bytes in an assertion (read as another one) and names with a NUL

### C86 FIDO signs with the key it registered (partial)

Files: `PropCtapSign.v`.  Theorems: `C86_make_credential`, `C86_u2f_register`, `C86_same_key`, `C86_u2f_eddsa_refuted`, `C86_sm2_refuted`, `C86_u2f_unsigned_refuted`.

C86_make_credential and C86_u2f_register: what a registration answers (id, public key, RP, attestation signature). C86_same_key: the signature of every later assertion that names the id verifies with the registered key, over all histories without a reset. Refuted: U2F AUTHENTICATE does not look at the algorithm of the id and signs with P-256 for an EdDSA credential (C86_u2f_eddsa_refuted); with an SM2 algorithm number of four bytes the registered key is garbage (C86_sm2_refuted); U2F REGISTER without an attestation key succeeds with an empty signature (C86_u2f_unsigned_refuted). For getNextAssertion the client data are those of the request in RAM, which C57 ties to the getAssertion before.

### C87 An authenticator that has a credential of the exclude list does not register another (partial)

Files: `PropCtapExclude.v`.  Theorems: `C87_not_repeated`, `C87_only_own`, `C87_deleted_refuted`.

Proved for every history without a reset since the registration, every list and all storage errors: no second registration, nothing stored, and the error only for own ids of the RP. Refuted: the id of a credential that the user has deleted still excludes (C87_deleted_refuted).

### C88 The private keys in the PIV slots do not leave the card (partial)

Files: `PropPivKeys.v`.  Theorems: `C88_private_keys`, `C88_interrupted_refuted`.

Proved for all histories without storage errors or power loss during GENERATE; for these C88_interrupted_refuted: the new key material is stored before its description, so that a slot that held an RSA key gives out a 'modulus' computed from what is left of the old private key. The lengths of generated keys are a hypothesis about the cryptography (key_sizes).

### C89 OpenPGP private keys do not leave the card (proved)

Files: `PropPgpKeys.v`.  Theorems: `C89_private_keys`.

Two-run noninterference. Assumes that generated elliptic-curve keys have the lengths of their algorithm (key_sizes) and that whether a signature can be computed does not depend on the private key (signs_alike: otherwise the signature counter would differ); both are properties of canokey-crypto, which is not modelled. C library leftovers on the stack (ck_read_key of a short file) are zeros in the model. The work of other applets on the file system is not part of the histories.

### C90 Every FIDO request is answered (partial)

Files: `PropCtapAnswered.v`, `PropCtapBlobAnswered.v`.  Theorems: `C90_one_rp_too_many_refuted`, `C90_unknown_algorithm_refuted`, `C90_long_certificate_refuted`, `C90_answered_partial`, `C90_blob_writes`.

C90_answered_partial: every command in the list, in every state, with all storage errors. C90_blob_writes: every fragment of a large-blob write, after every history of a device that was started with an array. Missing: getAssertion and getNextAssertion with valid parameters and the enumerations of credentialManagement. Refuted by three reachable devices and requests that are not answered (C90_one_rp_too_many_refuted, C90_unknown_algorithm_refuted, C90_long_certificate_refuted).

### C91 A registered credential can be used until the device is reset (proved)

Files: `PropCtapLive.v`.  Theorems: `C91_get_assertion`, `C91_u2f`.

C91_get_assertion and C91_u2f, for all histories without a reset between registration and use. Assumes, as hypotheses, that the key derivation and the signature routine work (keys_work), that during the request itself the storage works and the user touches the key, and that the storage of the device is that of an installed one at the registration. The request has no pinUvAuthParam and no hmac-secret extension. Resident credentials can be deleted and are covered by C54, C57 and C81.

### C92 OATH secrets can only be learned from the codes (proved)

Files: `PropOathSecret.v`.  Theorems: `C92_secrets`, `C92_answer`.

C92_secrets: two devices that differ in nothing but the secrets, given the same events (PUT may bring different secrets), give the same answers except for the codes in them, and differ again in nothing but the secrets. C92_answer: one event that gives no code. Not claimed: that HMAC hides the key; what the codes are is C14 and C18. The access code key is not counted among the secrets here (see C15, C66). Assumes the digest lengths 20, 32 and 64.

### C93 Static touch passwords are only typed (proved)

Files: `PropPassSecret.v`.  Theorems: `C93_passwords`.

C93_passwords: two-run statement over histories of OATH commands, touches, slot configurations, storage errors and power losses; reading the configuration is observed before every event and at the end. The administration PIN that protects the configuration and resets of the slots are outside this history.

### C94 Every stored resident credential is one of the device's own (proved)

Files: `PropCtapOwn.v`.  Theorems: `C94_own`, `C94_fresh`, `C94_next`.

Writes to the file system are atomic in the model (each write of a record either happens or not), as littlefs gives on commit. hmac_sized: HMAC-SHA256 gives 32 bytes. C94_next restates C57_complete for a device that began with an empty storage, without its hypothesis that the credentials are genuine; there the algorithms ES256 and EdDSA are a hypothesis, as an SM2 key can fail to sign when the configuration has changed.

### C95 A resident credential is kept until it is deleted, replaced or reset (proved)

Files: `PropCtapKept.v`.  Theorems: `C95_kept`, `C95_unchanged`, `C95_listed`, `C95_boot_error_refuted`.

A consequence of C53 for whole histories; C53_storage_error_refuted shows why storage errors during a roll-back are excluded. C95_boot_error_refuted shows why errors at boot are: for every content of the storage, one failing size query in ctap_install is taken for a new device, and all resident credentials and the PIN are dropped (C68 is the same for OATH).

### C96 Switching the device on destroys no data (partial)

Files: `PropAdminBoot.v`, `PropCtapBoot.v`, `PropNdefBoot.v`, `PropOathBoot.v`, `PropPgpBoot.v`, `PropPivBoot.v`.  Theorems: `C96_admin_kept`, `C96_admin_error_refuted`, `C96_ctap_kept`, `C96_ndef_kept`, `C96_ndef_error_refuted`, `C96_oath_kept`, `C96_pass_kept`, `C96_pass_error_refuted`, `C96_pgp_kept`, `C96_pgp_error_refuted`, `C96_piv_kept`, `C96_piv_error_refuted`.

Proved for every storage content and every pattern of storage errors except in the accesses that ask whether there is an installation (C96_piv_kept, C96_pgp_kept, C96_ctap_kept, C96_ndef_kept: not a byte is written; C96_oath_kept, C96_pass_kept: the stored credentials and touch slots are the same; C96_admin_kept: without storage errors). False for an error in these accesses: get_file_size answers a negative value for every error, and the installation takes it for 'never installed'. For every content, one such error turns a PIV card into a new card (C96_piv_error_refuted), resets OpenPGP to the factory settings, a terminated card included (C96_pgp_error_refuted), removes all resident credentials and the PIN of FIDO (C95_boot_error_refuted), empties the OATH store (C68_read_error_at_boot_refuted), turns the touch slots off (C96_pass_error_refuted), sets the administrator's PIN to 123456 again with three attempts (C96_admin_error_refuted) and replaces the NDEF message and its write protection (C96_ndef_error_refuted).

### C97 FIDO, PIV, OpenPGP and the NDEF tag leave the other applets' storage alone (proved)

Files: `PropCtapFiles.v`, `PropNdefFiles.v`, `PropPgpFiles.v`, `PropPivFiles.v`.  Theorems: `C97_fido`, `C97_ndef`, `C97_pgp`, `C97_piv`.

C97_fido, C97_pgp and C97_ndef: every state. C97_piv: every state since a start (PUT DATA keeps the name of the file between blocks). The files of each applet are listed in the statements (all begin with ctap_, piv- and pgp-; E103 and NDEF for the tag). For OATH and the touch slots see C70; the storage as a map from names to files is an assumption of the model (littlefs).

## 5. Tests against wrong programs

`seeded/LOG.jsonl` has one line per wrong program: the definition edited in a scratch copy, the edit, the claim that becomes
false, the lemmas at which the build stopped and the property theorems that depend on them, and the theorems tightened
because they survived.  The edits are single realistic bugs (a wrong boundary, a dropped check or update, swapped arguments).
