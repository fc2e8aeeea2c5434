{"id": "C01", "title": "Command APDU decoding is the exact inverse of ISO 7816-4 encoding", "statement": "A byte string is accepted as a command APDU exactly when it is one of the seven ISO 7816-4 encodings (cases 1, 2S, 3S, 4S, 2E, 3E, 4E); the header, data and expected length handed to the applets are exactly the encoded ones, with Ne=256 / 65536 substituted for a zero or absent Le; decoding never reads outside the received bytes.", "quantifier": "every byte string of every length, every header, every data field of 0..65535 bytes and every Ne", "why_tests_cant": "The accepted set is infinite and the seven cases overlap at specific lengths (5, 6, 7 bytes); a test suite samples a few lengths per case.", "anchors": ["src/apdu.c:build_capdu", "include/apdu.h:CAPDU"]}
{"id": "C02", "title": "Command chaining delivers the concatenation of the blocks", "statement": "A command sent as any number of chained blocks (CLA bit 0x10 set on all but the last) with the same header is executed once, with exactly the concatenation of the blocks' data, whatever happened before; a block with a different header abandons the unfinished chain and starts afresh, and nothing from the abandoned chain reaches the new command.", "quantifier": "every split of every payload of at most 1340 bytes into blocks, every preceding history of blocks", "why_tests_cant": "Number of splits is exponential and the property quantifies over all earlier traffic.", "anchors": ["src/apdu.c:apdu_input", "src/apdu.c:process_apdu"]}
{"id": "C03", "title": "A chained command with missing data is never executed", "statement": "If the data of a chained command does not fit the device's buffer, then no applet ever executes a command assembled from that chain with part of its data missing.", "quantifier": "every sequence of chained blocks", "why_tests_cant": "Requires considering every continuation after the overflow, not only the block that overflows.", "anchors": ["src/apdu.c:apdu_input", "include/apdu.h:APDU_CHAINING_OVERFLOW"]}
{"id": "C04", "title": "Response chaining returns the response exactly once, in order", "statement": "When a response is longer than the host's Le, the segments returned by the command and by successive GET RESPONSE commands concatenate to exactly the response; every segment but the last carries SW 61xx where xx is the number of bytes left capped at 255, and the last one carries the command's own status word.", "quantifier": "every response up to the buffer size, every sequence of Le values", "why_tests_cant": "Infinitely many Le sequences; off-by-one at 255/256 boundaries.", "anchors": ["src/apdu.c:apdu_output", "src/apdu.c:process_apdu"]}
{"id": "C05", "title": "GET RESPONSE only returns bytes of the response to the last command", "statement": "A GET RESPONSE command never returns bytes that belong to the response of a command older than the last executed non-GET-RESPONSE command, in particular not of another applet.", "quantifier": "every history of commands across applets", "why_tests_cant": "Cross-applet histories; the leaking history needs a specific mix of applets.", "anchors": ["src/apdu.c:process_apdu", "src/apdu.c:rapdu_chaining"]}
{"id": "C06", "title": "SELECT routes by AID and resets the other applets' security state", "statement": "After SELECT by name succeeds, all following commands go to the applet whose registered AID is a prefix of the given name until the next successful SELECT; whenever the applet changes, all PIN/authentication states of PIV, OATH, Admin, OpenPGP and NDEF are reset first; a failed SELECT changes neither the current applet nor any authentication state.", "quantifier": "every history of commands", "why_tests_cant": "Quantifies over histories and all AID byte strings.", "anchors": ["src/apdu.c:process_apdu", "src/applets.c:applets_poweroff"]}
{"id": "C07", "title": "At most one interface owns the shared APDU buffer", "statement": "In every interleaving of the CCID, WebUSB and USB-descriptor code, at most one of them holds the shared APDU buffer at a time, an acquire succeeds only if the buffer is free or already held by the caller, and only the holder can release it.", "quantifier": "every interleaving of acquire/release operations of all three owners, including interrupts between the two halves of acquire", "why_tests_cant": "Schedules.", "anchors": ["src/apdu.c:acquire_apdu_buffer", "src/apdu.c:release_apdu_buffer"]}
{"id": "C08", "title": "PIN retry limit holds across power cycles and power loss", "statement": "With a PIN of retry limit N, in every history of verification attempts with power loss at any point and no storage write errors, at most N wrong guesses are answered with a rejection between two consecutive successful verifications or PIN updates; when the counter is zero no guess, even the correct one, is accepted until the PIN is updated.", "quantifier": "every history of guesses, every crash point, every N", "why_tests_cant": "Histories and crash points.", "anchors": ["src/pin.c:pin_verify", "src/pin.c:pin_update"]}
{"id": "C09", "title": "PIN verification accepts exactly the stored PIN", "statement": "A verification sets the validated state if and only if the submitted PIN has exactly the stored length and bytes and the counter is not zero; a rejected attempt always clears the validated state; a wrong attempt decreases the persistent counter by exactly one and the reported number of retries equals the persistent one; a successful attempt restores the limit.", "quantifier": "every stored PIN, guess, counter value", "why_tests_cant": "All byte strings; depends on the length/content comparison trick in the code, for every possible comparison result.", "anchors": ["src/pin.c:pin_verify", "src/pin.c:pin_create"]}
{"id": "C10", "title": "Storage write errors never give extra PIN guesses", "statement": "If the persistent counter cannot be written, an attempt neither validates the PIN nor tells the caller whether the guess was right.", "quantifier": "every history of attempts with an arbitrary pattern of storage errors", "why_tests_cant": "Fault patterns.", "anchors": ["src/pin.c:pin_verify"]}
{"id": "C11", "title": "PIN length limits apply to the whole submitted PIN", "statement": "A VERIFY whose data field is longer than the maximum PIN length is rejected, and a PIN change stores the whole new PIN given in the data field or is rejected.", "quantifier": "every data field length 0..65535", "why_tests_cant": "The failing lengths are only those congruent to small values modulo 256.", "anchors": ["applets/admin/admin.c:admin_verify", "applets/openpgp/openpgp.c:openpgp_verify", "src/pin.c:pin_verify"]}
{"id": "C12", "title": "BER-TLV length parsing is exact and never overruns", "statement": "The TLV length parser accepts exactly the 1-, 2- and 3-byte BER definite lengths 00-7F, 81 xx, 82 xx xx whose value fits entirely in the remaining input, returns the encoded value and the size of the length field, and never reads outside the input.", "quantifier": "every byte string and every claimed input length", "why_tests_cant": "Infinite input domain.", "anchors": ["src/common.c:tlv_get_length_safe"]}
{"id": "C13", "title": "OATH credential store behaves as a map from names to credentials", "statement": "After any history of PUT, DELETE and RENAME commands, every name is stored at most once, LIST returns exactly the names that were put (or renamed to) and not deleted, at most 100 credentials are stored, PUT of an existing name is refused without changing anything, PUT into a full store is refused, and DELETE and RENAME affect only the named credential.", "quantifier": "every history of commands, all names of 1..64 bytes", "why_tests_cant": "Histories; slot reuse after deletions.", "anchors": ["applets/oath/oath.c:oath_put", "applets/oath/oath.c:oath_delete", "applets/oath/oath.c:oath_rename", "applets/oath/oath.c:oath_list"]}
{"id": "C14", "title": "A HOTP counter value is never used twice", "statement": "For every HOTP credential, the counter values used in successive calculations are strictly increasing across any history including power loss at any point (no storage errors), and when the 8-byte counter is exhausted the command is refused rather than wrapping around.", "quantifier": "every history of calculate commands and crash points", "why_tests_cant": "Crash points and the 2^64 wrap.", "anchors": ["applets/oath/oath.c:oath_increase_counter", "applets/oath/oath.c:oath_calculate"]}
{"id": "C15", "title": "OATH access code gates every credential operation", "statement": "While an access code is set and the host has not proved knowledge of it since the last power cycle, applet switch or change of the code, no command other than SELECT and VALIDATE returns data, and none changes the store or the code; VALIDATE succeeds only if the submitted value is the HMAC of the device's last challenge under the access key.", "quantifier": "every history of commands", "why_tests_cant": "Histories.", "anchors": ["applets/oath/oath.c:oath_process_apdu", "applets/oath/oath.c:oath_validate"]}
{"id": "C16", "title": "Increasing-only TOTP credentials never accept an older challenge", "statement": "A credential created with the 'only increasing' property answers a challenge only if it is not smaller than every challenge answered before.", "quantifier": "every history of challenges and power cycles", "why_tests_cant": "Histories.", "anchors": ["applets/oath/oath.c:oath_enforce_increasing"]}
{"id": "C17", "title": "OATH LIST paging returns every credential exactly once", "statement": "For every Le, LIST followed by SEND REMAINING until the final status returns each stored credential exactly once, in slot order, in segments each at most Le bytes long.", "quantifier": "every store content and every Le large enough for one entry", "why_tests_cant": "All store contents times all Le sequences.", "anchors": ["applets/oath/oath.c:oath_list", "applets/oath/oath.c:oath_send_remaining"]}
{"id": "C18", "title": "OATH codes are the RFC 4226 truncation of the HMAC", "statement": "The code returned for any digest is the RFC 4226 dynamic truncation (31-bit value at the offset given by the low nibble of the last byte), and never reads outside the digest.", "quantifier": "every digest of 20, 32 or 64 bytes", "why_tests_cant": "2^160 and more digests.", "anchors": ["applets/oath/oath.c:oath_digest"]}
{"id": "C19", "title": "Deleting an OATH credential removes it from every touch slot", "statement": "After an OATH credential is deleted, no keyboard-touch slot refers to its storage location any more.", "quantifier": "every slot configuration and history", "why_tests_cant": "Needs both slots to refer to one credential.", "anchors": ["applets/pass/pass.c:pass_delete_oath", "applets/oath/oath.c:oath_delete"]}
{"id": "C20", "title": "Touch-slot configuration round-trips and rejects malformed data", "statement": "A slot configuration accepted by the write command is what the read command reports afterwards (type and the Enter flag; a password is never reported) and what a later touch types, also after a power cycle; malformed configurations (wrong type, password longer than 32, trailing data) change nothing; OATH slots cannot be written through this command.", "quantifier": "every configuration byte string and history", "why_tests_cant": "Infinite input domain and crash points.", "anchors": ["applets/pass/pass.c:pass_write_config", "applets/pass/pass.c:pass_read_config", "applets/pass/pass.c:pass_handle_touch"]}
{"id": "C21", "title": "The emulated keyboard types exactly the configured text", "statement": "For every string of printable ASCII characters produced by a touch slot, the sequence of HID reports sent to the host decodes (US layout) to exactly that string followed by the optional Enter, one key press and one key release per character, in every schedule of host polling.", "quantifier": "every string, every polling schedule", "why_tests_cant": "All strings and schedules.", "anchors": ["interfaces/USB/class/kbdhid/kbdhid.c:KBDHID_TypeKeySeq", "interfaces/USB/class/kbdhid/kbdhid.c:ascii2keycode"]}
{"id": "C22", "title": "NDEF tag storage: bounded, isolated reads and writes", "statement": "UPDATE BINARY changes exactly the addressed byte range of the NDEF file and is refused when the range leaves the 1024-byte file, when the tag is read-only or when the capability container is selected; READ BINARY returns exactly the addressed range; both leave everything else unchanged.", "quantifier": "every history of SELECT/READ/UPDATE with all offsets and lengths", "why_tests_cant": "Histories times offsets.", "anchors": ["applets/ndef/ndef.c:ndef_process_apdu"]}
{"id": "C23", "title": "Admin commands need the admin PIN", "statement": "Every admin command that changes configuration, credentials or another applet's data is executed only if the admin PIN was verified since the last power-up, applet switch or failed verification; only SELECT, VERIFY, version, serial number, NFC toggle (NFC disable) and FACTORY RESET are reachable without it.", "quantifier": "every history of commands", "why_tests_cant": "Histories.", "anchors": ["applets/admin/admin.c:admin_process_apdu"]}
{"id": "C24", "title": "Admin factory reset needs all its conditions", "statement": "The admin FACTORY RESET wipes data only when the admin PIN is blocked, the request carries the literal confirmation, it does not arrive over NFC and the user confirmed with the required touches.", "quantifier": "every state and request", "why_tests_cant": "State space.", "anchors": ["applets/admin/admin.c:admin_factory_reset"]}
{"id": "C25", "title": "The serial number can be written only once", "statement": "Once the serial number has been written successfully, no history of commands changes it.", "quantifier": "every history", "why_tests_cant": "Histories.", "anchors": ["applets/admin/admin.c:admin_write_sn"]}
{"id": "C26", "title": "Configuration switches persist and are independent", "statement": "After a successful configuration command the corresponding switch has the requested value, all the other switches are unchanged, and the same values are in force after any power loss.", "quantifier": "every history of configuration commands and crash points", "why_tests_cant": "Crash points and histories.", "anchors": ["applets/admin/admin.c:admin_config", "applets/admin/admin.c:admin_install"]}
{"id": "C27", "title": "User presence: one touch authorises at most one operation", "statement": "A presence check succeeds only if a touch happened during that wait; the touch is consumed, so a second check needs another touch; a cancel or 30 seconds without touch end it unsuccessfully; a presence request made while another is pending fails at once.", "quantifier": "every interleaving of touches, ticks, cancel and nested requests", "why_tests_cant": "Schedules.", "anchors": ["src/device.c:wait_for_user_presence"]}
{"id": "C28", "title": "Strong user presence needs several distinct touches", "statement": "The strong presence test succeeds only after five separate touches, each within its time window.", "quantifier": "every touch schedule", "why_tests_cant": "Schedules.", "anchors": ["src/device.c:strong_user_presence_test"]}
{"id": "C29", "title": "PIV management operations need management-key authentication", "statement": "PUT DATA, GENERATE ASYMMETRIC KEY, IMPORT, SET MANAGEMENT KEY and the other management commands change data only after the host proved possession of the management key by answering the device's most recent fresh challenge (single use) since the last SELECT/power cycle.", "quantifier": "every history of commands", "why_tests_cant": "Histories; authentication state machine.", "anchors": ["applets/piv/piv.c:piv_general_authenticate", "applets/piv/piv.c:piv_put_data"]}
{"id": "C30", "title": "PIV PIN policy is enforced", "statement": "A private-key operation with a key of PIN policy ONCE needs a PIN verification in the session; with policy ALWAYS it needs a PIN verification after the previous operation with such a key, i.e. each verification authorises at most one operation.", "quantifier": "every history of commands", "why_tests_cant": "Histories.", "anchors": ["applets/piv/piv.c:piv_general_authenticate"]}
{"id": "C31", "title": "PIV GET DATA streams the whole object", "statement": "GET DATA followed by GET RESPONSE commands returns exactly the stored object, for every object size and every sequence of Le values, with 61xx status until the last segment.", "quantifier": "every object and Le sequence", "why_tests_cant": "All sizes times Le sequences.", "anchors": ["applets/piv/piv.c:piv_get_data", "applets/piv/piv.c:piv_get_data_response"]}
{"id": "C32", "title": "PIV PUT DATA stores exactly the transmitted object", "statement": "A completed chained PUT DATA stores exactly the concatenation of the transmitted object data in the addressed object and changes no other object; it requires management authentication for every block.", "quantifier": "every object up to its limit and every split into blocks", "why_tests_cant": "All splits and sizes.", "anchors": ["applets/piv/piv.c:piv_put_data"]}
{"id": "C33", "title": "PIV PIN and PUK: change and unblock rules", "statement": "The PIN value changes only via CHANGE REFERENCE DATA with the correct old PIN or RESET RETRY COUNTER with the correct PUK (or factory reset / set retries); the PUK only via CHANGE REFERENCE DATA with the correct old PUK; a failed attempt costs one retry.", "quantifier": "every history", "why_tests_cant": "Histories.", "anchors": ["applets/piv/piv.c:piv_change_reference_data", "applets/piv/piv.c:piv_reset_retry_counter"]}
{"id": "C34", "title": "PIV reset only when both PIN and PUK are blocked", "statement": "The PIV RESET command wipes the applet only if both the PIN and the PUK have no retries left, and after it (or after power loss during it and the next boot) no private key usable before the reset remains usable.", "quantifier": "every state, every crash point", "why_tests_cant": "Crash points.", "anchors": ["applets/piv/piv.c:piv_reset", "applets/piv/piv.c:piv_install"]}
{"id": "C35", "title": "PIV dynamic authentication template is parsed within the command data", "statement": "Parsing the GENERAL AUTHENTICATE template never reads outside the received data, and the (offset, length) recorded for each tag lies inside it.", "quantifier": "every data field", "why_tests_cant": "Infinite inputs.", "anchors": ["applets/piv/piv.c:piv_general_authenticate"]}
{"id": "C36", "title": "OpenPGP: with PW1 status 0 each verification allows one signature", "statement": "When the PW status byte says 'one signature per verification', between two successful VERIFY 81 commands at most one signature is produced.", "quantifier": "every history of commands", "why_tests_cant": "Histories.", "anchors": ["applets/openpgp/openpgp.c:openpgp_sign_or_auth", "applets/openpgp/openpgp.c:openpgp_verify"]}
{"id": "C37", "title": "OpenPGP access conditions", "statement": "Signing needs PW1 (81), decipher and internal authenticate need PW1 (82), and every command that changes keys or admin data objects needs PW3, verified in the session.", "quantifier": "every history of commands", "why_tests_cant": "Histories.", "anchors": ["applets/openpgp/openpgp.c:openpgp_put_data", "applets/openpgp/openpgp.c:openpgp_generate_asymmetric_key_pair", "applets/openpgp/openpgp.c:openpgp_import_key"]}
{"id": "C38", "title": "OpenPGP signature counter counts signatures", "statement": "The digital signature counter increases by exactly one with every signature returned and is reset only with a new signature key; a signature is returned only after the counter was stored.", "quantifier": "every history, every crash point", "why_tests_cant": "Histories and crash points; 24-bit wrap.", "anchors": ["applets/openpgp/openpgp.c:openpgp_sign_or_auth"]}
{"id": "C39", "title": "OpenPGP permanent touch policy is irrevocable", "statement": "Once the touch policy of a key is set to 'permanent', no command history short of terminating and re-activating the card turns it off.", "quantifier": "every history", "why_tests_cant": "Histories.", "anchors": ["applets/openpgp/openpgp.c:openpgp_put_data"]}
{"id": "C40", "title": "OpenPGP terminate/activate", "statement": "TERMINATE DF is accepted only with PW3 verified or PW3 blocked; a terminated card answers every command except SELECT and ACTIVATE with 'terminated'; ACTIVATE restores the factory state, also after power loss in the middle.", "quantifier": "every history and crash point", "why_tests_cant": "Crash points.", "anchors": ["applets/openpgp/openpgp.c:openpgp_terminate", "applets/openpgp/openpgp.c:openpgp_activate"]}
{"id": "C41", "title": "Private key import templates are parsed within the command data", "statement": "Parsing a key import (OpenPGP 4D template or PIV import) never reads outside the received data; every key component stored is the transmitted bytes, right-aligned to the component size.", "quantifier": "every data field and key type", "why_tests_cant": "Infinite inputs.", "anchors": ["src/key.c:ck_parse_openpgp", "src/key.c:ck_parse_piv", "applets/openpgp/openpgp.c:openpgp_import_key"]}
{"id": "C42", "title": "CTAPHID message reassembly stays inside its buffer", "statement": "For every sequence of HID frames, the reassembly buffer is never written beyond its 1300 bytes.", "quantifier": "every sequence of 64-byte frames and every timing", "why_tests_cant": "Adversarial frame sequences of any length.", "anchors": ["interfaces/USB/class/ctaphid/ctaphid.c:CTAPHID_Loop"]}
{"id": "C43", "title": "CTAPHID transport is lossless", "statement": "A message of at most 1300 bytes sent as an initialisation frame and continuation frames is executed with exactly its payload; the response frames reassemble (per the CTAPHID specification) to exactly the response payload on the requesting channel; PING echoes its payload.", "quantifier": "every payload length 0..1300 and content", "why_tests_cant": "All payloads and lengths.", "anchors": ["interfaces/USB/class/ctaphid/ctaphid.c:CTAPHID_Loop", "interfaces/USB/class/ctaphid/ctaphid.c:CTAPHID_SendResponse"]}
{"id": "C44", "title": "CTAPHID channel isolation", "statement": "While a transaction of one channel is in progress, frames of other channels do not alter its payload, its continuation or the channel its response is sent to; they get a CHANNEL_BUSY error.", "quantifier": "every interleaving of frames of any channels", "why_tests_cant": "Interleavings.", "anchors": ["interfaces/USB/class/ctaphid/ctaphid.c:CTAPHID_Loop"]}
{"id": "C45", "title": "CCID bulk reassembly stays inside the APDU buffer", "statement": "For every sequence of USB bulk packets, the data of an XfrBlock message is never written outside the APDU buffer, and a well-formed message is delivered to the APDU layer exactly.", "quantifier": "every sequence of bulk packets", "why_tests_cant": "Adversarial packet sequences.", "anchors": ["interfaces/USB/class/ccid/ccid.c:CCID_OutEvent"]}
{"id": "C46", "title": "CCID responses echo slot and sequence number and carry only the response", "statement": "Every CCID answer repeats the slot and sequence number of the request it answers and contains exactly the bytes produced for this request.", "quantifier": "every request history", "why_tests_cant": "Histories.", "anchors": ["interfaces/USB/class/ccid/ccid.c:CCID_Loop", "interfaces/USB/class/ccid/ccid.c:PC_to_RDR_XfrBlock"]}
{"id": "C47", "title": "NFC block protocol is lossless under retransmission", "statement": "An APDU transmitted as chained ISO 14443-4 I-blocks is executed once with exactly its bytes, and the I-blocks of the response, with any retransmissions requested by the reader, reassemble to exactly the response.", "quantifier": "every APDU, response and retransmission pattern", "why_tests_cant": "Retransmission schedules.", "anchors": ["interfaces/NFC/nfc.c:nfc_loop"]}
{"id": "C48", "title": "WebUSB only exposes its own responses", "statement": "A WebUSB host receives only the response of the command it sent itself, the shared buffer is held by WebUSB from the acceptance of the command until the response is fetched, and a CCID transaction cannot start in between.", "quantifier": "every interleaving of control transfers, processing loops and time-outs", "why_tests_cant": "Interleavings.", "anchors": ["interfaces/USB/class/webusb/webusb.c:USBD_WEBUSB_Setup", "interfaces/USB/class/webusb/webusb.c:WebUSB_Loop"]}
{"id": "C49", "title": "FIDO2 PIN: at most 8 wrong guesses ever, 3 per power cycle", "statement": "In every history of PIN protocol commands with power loss at any point, at most 8 wrong PIN guesses are evaluated between two events that legitimately reset the counter (a correct PIN or a factory reset), and at most 3 consecutive ones per power cycle; when no retries remain even the correct PIN is refused.", "quantifier": "every history and crash point", "why_tests_cant": "Crash points (the counter must be persisted before the comparison).", "anchors": ["applets/ctap/ctap.c:ctap_client_pin"]}
{"id": "C50", "title": "FIDO2 PIN/UV token permissions", "statement": "A pinUvAuthToken authorises an operation only with a valid authentication tag under the current token, the needed permission, a matching RP ID binding and within its life time; a token obtained before the PIN was changed is no longer accepted, and using it for one registration or assertion removes all its permissions except large-blob write.", "quantifier": "every history of commands and ticks", "why_tests_cant": "Histories.", "anchors": ["applets/ctap/ctap.c:ctap_client_pin", "applets/ctap/secret.c:cp_clear_pin_uv_auth_token_permissions_except_lbw"]}
{"id": "C51", "title": "FIDO signature counter strictly increases", "statement": "The signature counter values in successive assertions/registrations are strictly increasing (until the 32-bit maximum), across power loss at any point.", "quantifier": "every history and crash point", "why_tests_cant": "Crash points.", "anchors": ["applets/ctap/ctap.c:increase_counter"]}
{"id": "C52", "title": "FIDO large-blob array is always integral and atomically replaced", "statement": "At every moment, including after power loss at any point, the stored large-blob array is either the previously committed or the newly committed one and its last 16 bytes are the truncated SHA-256 of the rest; a write is committed only if its fragments arrived in order and sum to the announced length.", "quantifier": "every history of fragments and crash points", "why_tests_cant": "Crash points and histories.", "anchors": ["applets/ctap/ctap.c:ctap_large_blobs"]}
{"id": "C53", "title": "Resident credentials survive power loss", "statement": "Power loss at any point during creation, update or deletion of a resident credential leaves, after the next boot, either the state before or the state after the operation; all other credentials are unaffected.", "quantifier": "every store content, operation and crash point", "why_tests_cant": "Crash points.", "anchors": ["applets/ctap/ctap.c:ctap_make_credential", "applets/ctap/ctap.c:ctap_consistency_check", "applets/ctap/ctap.c:ctap_credential_management"]}
{"id": "C54", "title": "Credential metadata is consistent", "statement": "In every reachable state each relying party has exactly one live metadata entry whose slot set is exactly the set of its live credentials, the slot sets of different parties are disjoint, and the reported number of credentials equals the number of live credentials.", "quantifier": "every history of create/overwrite/delete operations", "why_tests_cant": "Histories.", "anchors": ["applets/ctap/ctap.c:ctap_make_credential", "applets/ctap/ctap.c:ctap_credential_management"]}
{"id": "C55", "title": "Only credential IDs issued by this device are accepted", "statement": "A credential ID presented in getAssertion/authenticate is used only if the device issued it for the requesting relying party: any change of any byte makes it rejected (up to the strength of the MAC).", "quantifier": "every byte string presented", "why_tests_cant": "All 560-bit strings.", "anchors": ["applets/ctap/secret.c:verify_key_handle", "applets/ctap/secret.c:generate_key_handle"]}
{"id": "C56", "title": "credProtect is enforced on every interface", "statement": "A credential with credProtect level 2 or 3 is not used without user verification (level 2: unless named in the allow list) through any of getAssertion, U2F authenticate.", "quantifier": "every request and state", "why_tests_cant": "State space over two protocols.", "anchors": ["applets/ctap/ctap.c:ctap_get_assertion", "applets/ctap/u2f.c:u2f_authenticate"]}
{"id": "C57", "title": "getNextAssertion enumerates the eligible credentials exactly once", "statement": "After getAssertion reports n credentials, the following getNextAssertion calls return the remaining n-1 eligible credentials, each exactly once and most recent slot first, and then fail; any other command or 30 s of inactivity ends the enumeration.", "quantifier": "every store and request sequence", "why_tests_cant": "All stores.", "anchors": ["applets/ctap/ctap.c:ctap_get_assertion"]}
{"id": "C58", "title": "FIDO reset is complete even after power loss", "statement": "After authenticatorReset, or after power loss during it and the next boot, either nothing or everything is reset: the device never ends up with the PIN removed while credentials created before remain usable.", "quantifier": "every crash point", "why_tests_cant": "Crash points.", "anchors": ["applets/ctap/ctap.c:ctap_install", "applets/ctap/ctap.c:ctap_reset_data"]}
{"id": "C59", "title": "RP ID truncation follows CTAP 2.1", "statement": "The stored RP ID is the original if it is at most 32 bytes and otherwise the CTAP 2.1 6.8.7 truncation: protocol prefix and ellipsis kept with the tail of the ID, never more than 32 bytes.", "quantifier": "every RP ID string", "why_tests_cant": "All strings.", "anchors": ["applets/ctap/ctap-parser.c:maybe_truncate_rpid"]}
{"id": "C60", "title": "New FIDO2 PINs have 4 to 63 bytes", "statement": "setPIN/changePIN accept a padded new PIN exactly when its length without trailing zeros is between 4 and 63 bytes, and store the hash of exactly these bytes.", "quantifier": "every 64-byte padded PIN", "why_tests_cant": "2^512 inputs.", "anchors": ["applets/ctap/ctap.c:ctap_client_pin"]}
{"id": "C61", "title": "FIDO responses over APDU contain only the response", "statement": "Every FIDO response contains only bytes computed for this command; no command returns stale content of the communication buffer.", "quantifier": "every history", "why_tests_cant": "Histories; depends on error paths.", "anchors": ["applets/ctap/ctap.c:ctap_process_apdu", "applets/ctap/ctap.c:ctap_process_cbor"]}
{"id": "C62", "title": "Power loss during first installation never bricks an applet", "statement": "If power is lost at any point of the first installation, the next boot ends up with a working applet: installation is completed.", "quantifier": "every crash point of every applet's installation", "why_tests_cant": "Crash points.", "anchors": ["src/pin.c:pin_create", "applets/admin/admin.c:admin_install", "applets/oath/oath.c:oath_install", "applets/openpgp/openpgp.c:openpgp_install", "applets/piv/piv.c:piv_install"]}
{"id": "C63", "title": "Key generation in OpenPGP needs the admin PIN", "statement": "GENERATE ASYMMETRIC KEY PAIR with P1=80 replaces a key only if PW3 has been verified in the session.", "quantifier": "every state and request", "why_tests_cant": "State space.", "anchors": ["applets/openpgp/openpgp.c:openpgp_generate_asymmetric_key_pair"]}
{"id": "C64", "title": "OpenPGP password change needs the old password", "statement": "CHANGE REFERENCE DATA and RESET RETRY COUNTER change a password only after the correct old password / resetting code (or PW3) was presented, even when storage reads fail.", "quantifier": "every state, request and storage fault pattern", "why_tests_cant": "Fault patterns.", "anchors": ["applets/openpgp/openpgp.c:openpgp_change_reference_data", "applets/openpgp/openpgp.c:openpgp_reset_retry_counter"]}
{"id": "C65", "title": "OATH applet has no undefined behaviour", "statement": "No OATH command, touch or touch-slot configuration, whatever its bytes, after any history of commands, touches, storage errors and power losses, makes the applet read or write outside its buffers or use uninitialised data.", "quantifier": "every history and every next command", "why_tests_cant": "All histories times all malformed commands.", "anchors": ["applets/oath/oath.c:oath_process_apdu", "applets/pass/pass.c:pass_handle_touch"]}
{"id": "C66", "title": "Selecting the OATH applet again asks for the access code again", "statement": "With an access code set, a SELECT of the OATH applet that issues a new challenge ends the authorisation gained by an earlier VALIDATE.", "quantifier": "every history", "why_tests_cant": "Histories.", "anchors": ["applets/oath/oath.c:oath_select", "applets/oath/oath.c:oath_poweroff"]}
{"id": "C67", "title": "An OATH challenge is accepted at most once", "statement": "A VALIDATE command recorded from an authorised host is not accepted when it is replayed later.", "quantifier": "every history", "why_tests_cant": "Histories; tests never replay.", "anchors": ["applets/oath/oath.c:oath_validate", "applets/oath/oath.c:oath_poweroff"]}
{"id": "C68", "title": "A storage read error at boot does not destroy credentials", "statement": "If a storage operation fails while the device boots, the OATH credentials stored before are still there after the next boot without errors.", "quantifier": "every stored content and every fault pattern during boot", "why_tests_cant": "Fault patterns.", "anchors": ["applets/oath/oath.c:oath_install", "src/fs.c:get_file_size"]}
{"id": "C69", "title": "OATH CALCULATE ALL returns one correct code per credential", "statement": "CALCULATE ALL followed by SEND REMAINING until the final status returns, in segments of at most Le bytes, one entry per stored credential in slot order with the code for the challenge sent (HOTP and touch credentials: no code), or is refused when a credential that wants increasing challenges has answered a newer one.", "quantifier": "every store content, challenge and Le of at least 133", "why_tests_cant": "All store contents times all Le sequences.", "anchors": ["applets/oath/oath.c:oath_calculate_all"]}
{"id": "C70", "title": "The OATH applet and the touch slots touch no other applet's storage", "statement": "No OATH command, touch, touch-slot configuration or reboot, with any storage errors and power cuts, changes a file or attribute of another applet.", "quantifier": "every command, history, fault pattern and crash point", "why_tests_cant": "All commands times crash points times fault patterns.", "anchors": ["applets/oath/oath.c:oath_process_apdu", "applets/pass/pass.c:pass_handle_touch"]}
{"id": "C71", "title": "The emulated keyboard leaves no key pressed", "statement": "Whenever the emulated keyboard is idle, every key it reported as pressed has been reported as released, whatever commands (including the eject command) arrived while it was typing.", "quantifier": "every history of touches, host polls and eject commands", "why_tests_cant": "Interleavings of an APDU with the typing state machine.", "anchors": ["interfaces/USB/class/kbdhid/kbdhid.c:KBDHID_Eject", "src/apdu.c:process_apdu"]}
{"id": "C72", "title": "An interrupted reset of the NDEF tag never discloses old buffer contents", "statement": "After a power loss at any point of the factory reset of the NDEF tag, READ BINARY answers 9000 only with bytes of the tag's file; it never returns bytes left in the response buffer by an earlier command.", "quantifier": "all power-loss points of the reset, all buffer contents", "why_tests_cant": "the loss must fall between two storage updates and the buffer content is arbitrary", "anchors": ["applets/ndef/ndef.c: create_init_ndef, ndef_read_binary"]}
{"id": "C73", "title": "An interrupted serial-number write can be repeated", "statement": "If power fails during WRITE SN, then after the next power-up either the serial number is the one being written, or it can still be written.", "quantifier": "every authorised WRITE SN command and every point of power loss in it", "why_tests_cant": "the crash points lie between individual storage operations and the damage only shows in a later session", "anchors": ["applets/admin/admin.c:admin_write_sn", "src/fs.c:write_file"]}
{"id": "C74", "title": "The keyboard only takes touches no operation waits for", "statement": "A touch makes the emulated keyboard type only if no operation waits for a touch, the LED does not blink, more than 1.5 s passed since power-on and more than 1 s since the LED last blinked for an operation; otherwise touches keep reaching the keyboard however long the device is powered.", "quantifier": "every interleaving of touches, clock ticks and presence requests", "why_tests_cant": "depends on interrupt schedules and on 32-bit clock wrap-around after 49.7 days", "anchors": ["src/device.c:device_allow_kbd_touch", "interfaces/USB/class/kbdhid/kbdhid.c:KBDHID_Loop"]}
{"id": "C75", "title": "CTAPHID CANCEL and pending frames are not lost", "statement": "While a command waits for the user, a CANCEL of its channel ends the wait; a frame that has been received is processed.", "quantifier": "every moment at which a frame can arrive while a command runs, or a timeout is reported", "why_tests_cant": "Depends on the interrupt arriving in a window of a few instructions.", "anchors": ["interfaces/USB/class/ctaphid/ctaphid.c:CTAPHID_Loop", "interfaces/USB/class/ctaphid/ctaphid.c:CTAPHID_SendKeepAlive", "src/device.c:wait_for_user_presence"]}
{"id": "C76", "title": "A WebUSB host that goes away does not block the smart-card reader", "statement": "If the WebUSB host stops communicating at any point, the shared command buffer is given back after a bounded time, so that card commands sent to the smart-card reader are executed again.", "quantifier": "every history of control transfers ending at any point, every later behaviour of the reader's driver", "why_tests_cant": "A test cannot stop a host at every point and then wait for ever.", "anchors": ["interfaces/USB/class/webusb/webusb.c:WebUSB_Loop", "interfaces/USB/class/webusb/webusb.c:USBD_WEBUSB_Init", "src/apdu.c:acquire_apdu_buffer"]}
{"id": "C77", "title": "Descriptor requests neither disturb nor reveal commands", "statement": "Reading a USB descriptor at any time changes neither a command that is being received or executed nor its response, and returns no byte of one.", "quantifier": "every interleaving of descriptor requests with card commands", "why_tests_cant": "Any program on the host may read descriptors at any time.", "anchors": ["interfaces/USB/device/usbd_desc.c:USBD_ConfigurationDescriptor", "interfaces/USB/device/usbd_desc.c:USBD_ProductStrDescriptor", "interfaces/USB/core/src/usbd_ctlreq.c:USBD_GetDescriptor"]}
{"id": "C78", "title": "An NFC reader is sent nothing but responses", "statement": "Whatever blocks an NFC reader sends, the blocks it receives contain only bytes of the response of the command it last sent, never other memory of the device.", "quantifier": "every sequence of blocks sent by a reader", "why_tests_cant": "Malicious sequences of blocks.", "anchors": ["interfaces/NFC/nfc.c:send_apdu_buffer", "interfaces/NFC/nfc.c:nfc_error_handler"]}
{"id": "C79", "title": "PIV touch policies are enforced", "statement": "Over USB, GENERAL AUTHENTICATE with a key whose touch policy is ALWAYS succeeds only if the user touches the device during that command; with the policy CACHED only if they do, or did so for PIV less than 15 seconds ago in the same power cycle.", "quantifier": "every history of commands, errors, power cycles and clock readings", "why_tests_cant": "Needs every history and every clock reading, including wrap-around; tests use a stub clock", "anchors": ["applets/piv/piv.c: PIV_TOUCH, last_touch, piv_general_authenticate", "src/device.c: device_get_tick, wait_for_user_presence"]}
{"id": "C80", "title": "PIN-protected PIV objects stay secret without the PIN", "statement": "As long as the PIN has not been verified in the session, no answer of the applet depends on the contents of the printed-information, fingerprint and facial-image objects, including continuations of an earlier read.", "quantifier": "every history, every command, every pair of contents", "why_tests_cant": "A noninterference claim: it relates all pairs of contents and all commands", "anchors": ["applets/piv/piv.c: piv_get_data, piv_get_data_response, piv_put_data"]}
{"id": "C81", "title": "Deleted discoverable credentials are not used", "statement": "After a discoverable credential has been deleted, no command signs with it again: whatever getAssertion answers with is either a non-discoverable credential or one that is in the store and not marked deleted, and U2F authenticate refuses the id of a deleted one.", "quantifier": "every state, request and history", "why_tests_cant": "All stores and requests; two protocols share the ids.", "anchors": ["applets/ctap/ctap.c:ctap_get_assertion", "applets/ctap/ctap.c:ctap_credential_management", "applets/ctap/u2f.c:u2f_authenticate"]}
{"id": "C82", "title": "Reading a FIDO request never writes outside its fields", "statement": "Whatever CBOR parameters a host sends with a CTAP2 command, taking them apart writes only inside the fixed-size fields of the request: strings that are too long for their field are refused.", "quantifier": "every well-formed CBOR tree (any nesting, order of keys, repeated keys, string lengths) and every command byte", "why_tests_cant": "the space of messages is unbounded, and the length checks of some fields depend on entries that may come before or after them, so no set of sample messages covers the orders and lengths", "anchors": ["applets/ctap/ctap-parser.c: parse_make_credential, parse_get_assertion, parse_client_pin, parse_credential_management, parse_large_blobs", "applets/ctap/ctap-internal.h: CTAP_client_pin"]}
{"id": "C83", "title": "Accepted FIDO requests are within the documented limits", "statement": "Every request that the applet accepts and executes is within the limits the commands rely on: client data hash and RP ID hash of 32 bytes, user IDs of at most 64 bytes, stored RP IDs of at most 32 bytes, credProtect from 1 to 3 or absent, algorithm identifiers that fit 32 bits, large-blob fragments of at most 1236 bytes and total lengths from 17 to 4096.", "quantifier": "every well-formed CBOR tree and every command byte", "why_tests_cant": "limits are checked in many places and repeated or reordered keys overwrite earlier values; only a proof over all messages shows that none slips through", "anchors": ["applets/ctap/ctap-parser.c"]}
{"id": "C84", "title": "FIDO operations need the user's presence", "statement": "Over USB, makeCredential, authenticatorSelection, U2F register and U2F authenticate succeed only if the user touched the device during that very command; an assertion carries the user-present flag exactly when it was requested, and then only after a touch; a getNextAssertion response carries it only if the getAssertion it continues did; authenticatorReset is confirmed by the user.", "quantifier": "every history of commands, power cuts and storage errors since a boot with any stored contents, every request, every answer to requests for touches", "why_tests_cant": "presence may be remembered in the token and in the assertion state across commands; only an invariant over all histories excludes that a touch given for one operation is reported by another", "anchors": ["applets/ctap/ctap.c: WAIT, ctap_make_credential, ctap_get_assertion, ctap_get_next_assertion, ctap_reset_data", "applets/ctap/u2f.c", "applets/ctap/secret.c: cp_begin_using_uv_auth_token, cp_get_user_present_flag_value"]}
{"id": "C85", "title": "FIDO requests are understood as they are written", "statement": "Whenever a request to the FIDO2 interface is accepted, each value the key acts on is the one the message contains under the corresponding key, wherever in the message it stands: the client data hash, the hash of the relying party's id, the user's id and names, the first supported algorithm, every listed credential id, the options, the extensions, the PIN parameters, and the offsets and data of large blobs. What the message does not contain takes its documented default.", "quantifier": "every CBOR message to each command, entries in any order, keys not repeated", "why_tests_cant": "the number of messages is infinite and their entries may come in any order; a test only sees a few shapes, while one entry read into the wrong place binds a credential to the wrong site", "anchors": ["applets/ctap/ctap-parser.c:parse_make_credential", "applets/ctap/ctap-parser.c:parse_get_assertion", "applets/ctap/ctap-parser.c:parse_client_pin", "applets/ctap/ctap-parser.c:parse_credential_management", "applets/ctap/ctap-parser.c:parse_large_blobs", "applets/ctap/ctap-parser.c:parse_user", "applets/ctap/ctap-parser.c:parse_rp"]}
{"id": "C86", "title": "FIDO signs with the key it registered", "statement": "When a registration (makeCredential with ES256 or EdDSA, or U2F REGISTER) succeeds, the answer carries a credential id, the public key that belongs to it, and the hash of the requested relying party, and it is signed with the attestation key over exactly that data and the client data. Every later assertion (getAssertion, getNextAssertion, U2F AUTHENTICATE) that names this id carries a signature over the authenticator data and the client data of that request which verifies with the public key handed out at the registration, whatever happens in between except a reset: other commands, power losses, PIN changes, deletions, installations of another attestation key or of the SM2 configuration. For getAssertion and U2F the relying party of the assertion is that of the registration.", "quantifier": "all registrations, all later histories without a reset (with power cuts at any storage update), all later assertions, all storage errors, random numbers and touches, every signature scheme", "why_tests_cant": "A test pairs one registration with one assertion; it cannot cover what may happen in between, or every random nonce, interface and algorithm.", "anchors": ["applets/ctap/ctap.c:ctap_make_auth_data", "applets/ctap/ctap.c:ctap_make_credential", "applets/ctap/ctap.c:ctap_get_assertion", "applets/ctap/secret.c:generate_key_handle", "applets/ctap/secret.c:verify_key_handle", "applets/ctap/secret.c:sign_with_private_key", "applets/ctap/u2f.c:u2f_register", "applets/ctap/u2f.c:u2f_authenticate"]}
{"id": "C87", "title": "An authenticator that has a credential of the exclude list does not register another", "statement": "authenticatorMakeCredential for an RP does not succeed if its excludeList names an id that this device issued for the RP since the last reset, by makeCredential or by U2F registration, whatever happened since; it then stores nothing. The exception is a credential of credProtect level 3 when the request has no user verification. The error for excluded credentials is given only if the list contains an id of this device for this RP. (It is also given for resident credentials that the user has deleted: refuted.)", "quantifier": "all cryptographic functions with the right sizes, all histories between the registration and the request without a reset, all exclude lists and requests, all storage errors and touches", "why_tests_cant": "Unit tests register once and exclude at once; that it holds after every history, and for each position and company in the list (the ids are read one into the buffer of the one before), is a statement about all of them.", "anchors": ["applets/ctap/ctap.c: ctap_make_credential", "applets/ctap/ctap-parser.c: parse_credential_descriptor", "applets/ctap/secret.c: verify_key_handle"]}
{"id": "C88", "title": "The private keys in the PIV slots do not leave the card", "statement": "If the keys in the six PIV key slots were replaced by others with the same descriptions and the same public keys, the card would answer every sequence of commands in the same way, and its other contents and its session state would develop in the same way, except for the answers to GENERAL AUTHENTICATE with such a slot, which are computed with the private key. In particular no data object, metadata answer, key generation, import, reset, or administrative command gives away anything about a stored private key beyond its public key.", "quantifier": "every history since power-up, every pair of storages that differ only in private key material, every sequence of further commands, resets, power-offs and power failures (storage errors or power failure during key generation excepted), every cryptography", "why_tests_cant": "The statement compares two runs for every pair of private keys and every sequence of commands; a test sees single answers and cannot tell that they do not depend on the key.", "anchors": ["applets/piv/piv.c: piv_process_apdu, piv_generate_asymmetric_key_pair, piv_get_metadata, piv_import_asymmetric_key, piv_general_authenticate", "src/key.c: ck_read_key, ck_write_key, ck_generate_key, ck_encode_public_key, ck_parse_piv"]}
{"id": "C89", "title": "OpenPGP private keys do not leave the card", "statement": "Whatever commands the OpenPGP applet receives and whatever happens to the card: if the private keys in its three key slots were replaced by other private keys with the same public keys, the same algorithms, origins, policies, fingerprints and dates, then every answer would be the same, except for the answers of PERFORM SECURITY OPERATION and INTERNAL AUTHENTICATE, which are computed with a private key. In particular the data objects, GENERATE ASYMMETRIC KEY PAIR (both reading and generating), key import and changes of the algorithm attributes tell nothing about a private key but its public key, not even when power fails or the storage reports errors while a key is being generated.", "quantifier": "all states, all pairs of storages that differ only in private key material (also in leftover material of absent keys), all sequences of commands, power failures, storage errors, applet changes and resets", "why_tests_cant": "A test can look for one key's bytes in some answers; that no answer depends on the private key is a statement about pairs of executions, for every command sequence and every interruption.", "anchors": ["applets/openpgp/openpgp.c: openpgp_generate_asymmetric_key_pair, openpgp_import_key, openpgp_put_data, openpgp_get_data, openpgp_sign_or_auth, openpgp_decipher", "src/key.c: ck_encode_public_key, ck_generate_key, ck_write_key, ck_read_key"]}
{"id": "C90", "title": "Every FIDO request is answered", "statement": "Whatever a host sends, in whatever state the device is, the FIDO applet answers with a status (and never leaves the defined behaviour of the program: it does not send memory that was never written and does not write behind its buffers). Proved for makeCredential and U2F registration (with a certificate that leaves place in the response), U2F authentication, getInfo, clientPIN, reset, selection, reading the large-blob array, credentialManagement without its enumerations, unknown and malformed commands and the administration commands, in every state and with all storage errors. Refuted: one enumerateRPsGetNextRP too many; an allow list with an id of the device whose algorithm bytes were altered; the largest certificate that can be installed.", "quantifier": "all device states (not only reachable ones), all parameters the parser lets through, all storage errors, random values, times and touches, all cryptographic functions that do not fail", "why_tests_cant": "The refuted cases need a request nobody writes into a test (one step beyond the end, an id with four changed bytes); the proved part holds for contents of the storage that no test sets up.", "anchors": ["applets/ctap/ctap.c: ctap_process_cbor, ctap_make_credential, ctap_client_pin, ctap_credential_management, ctap_consistency_check", "applets/ctap/u2f.c: u2f_register, u2f_authenticate"]}
{"id": "C91", "title": "A registered credential can be used until the device is reset", "statement": "After a credential was registered (authenticatorMakeCredential without residence, below the level userVerificationRequired, or U2F REGISTER), and as long as there is no reset, a request to sign with it while the storage works and the user touches the key is answered with a signature: authenticatorGetAssertion for its RP with an allow list in which it is the first id of this RP, and U2F AUTHENTICATE (for every credential).", "quantifier": "all devices, all histories without a reset between the registration and the request (commands of any kind, power cuts at any write, storage errors, PIN changes, other credentials created, changed and deleted), all requests of this form, all cryptographic functions that derive and sign", "why_tests_cant": "that nothing which happens in between can make a credential unusable is a statement about all histories; tests use a credential right after they made it", "anchors": ["applets/ctap/ctap.c: ctap_make_credential, ctap_get_assertion, ctap_consistency_check", "applets/ctap/secret.c: generate_key_handle, verify_key_handle, increase_counter", "applets/ctap/u2f.c: u2f_register, u2f_authenticate"]}
{"id": "C92", "title": "OATH secrets can only be learned from the codes", "statement": "Whatever secrets the OATH credentials hold, and whatever secrets the device is given with PUT, everything the device answers is the same, except for the codes themselves: the answers to CALCULATE, to CALCULATE ALL and its continuation with SEND REMAINING, and the text typed on a touch whose slot is set to a credential; and of those the status words and the lengths are the same. No listing, renaming, deletion, re-use of the slot of a deleted credential, error, storage failure or power loss reveals a bit of a secret.", "quantifier": "all pairs of devices that differ only in the secrets (64 bytes of each record, also in records that are deleted), all sequences of commands, touches, configurations, power-offs and power cuts at any write, all storage errors and random values; the PUT commands of the two sequences may differ in the secret they bring", "why_tests_cant": "that an answer does not depend on a secret is a statement about two runs, for all pairs of secrets and all histories; a test compares an answer with an expected one", "anchors": ["applets/oath/oath.c: oath_process_apdu, oath_put, oath_delete, oath_rename, oath_list, oath_calculate, oath_calculate_all, oath_set_default", "applets/pass/pass.c: pass_handle_touch, pass_install", "include/oath.h: OATH_RECORD"]}
{"id": "C93", "title": "Static touch passwords are only typed", "statement": "Whatever static passwords, of whatever lengths, the two touch slots hold or are given, everything that the device answers or types is the same, except for what it types on a touch whose slot is set to a static password at that moment: no command of the OATH applet, no reading of the touch-slot configuration (also after the slot was switched off or given to an OATH credential), no error and no power loss tells anything about a password, not even its length.", "quantifier": "all pairs of devices that differ only in the passwords (and in what former passwords left behind in the slots), all pairs of histories of commands, touches, configurations, storage errors and power losses that differ only in the passwords which are set", "why_tests_cant": "a property of pairs of executions over all passwords and histories: a test can compare a few runs, but a leftover byte of an old password that shows through in one corner of another setting needs all of them", "anchors": ["applets/pass/pass.c: pass_read_config, dump_slot, pass_write_config, pass_update_oath, pass_delete_oath, pass_handle_touch, pass_install", "applets/oath/oath.c: oath_process_apdu, oath_set_default"]}
{"id": "C94", "title": "Every stored resident credential is one of the device's own", "statement": "Each resident credential that is in the device's storage and not deleted carries an id whose tag was made with the key the device has at that time, so that the device accepts it and gets its private key back from it: no history leaves a record that was made with a key from before a reset, or that the device would disown. In particular, while the storage works, every credential that getAssertion counts for a relying party is served by getNextAssertion.", "quantifier": "all histories of CTAP2, U2F and administration commands with any arguments, storage errors in any of them, power losses between any two writes (also within a reset and the boot after it), and all slots", "why_tests_cant": "The slots are written by creation, update, deletion and the repair after a power loss, and the key by installation and reset; a test tries a few interleavings, not every cut point of every history.", "anchors": ["applets/ctap/ctap.c: ctap_install, ctap_consistency_check, ctap_make_credential, ctap_credential_management", "applets/ctap/secret.c: generate_key_handle, verify_key_handle"]}
{"id": "C95", "title": "A resident credential is kept until it is deleted, replaced or reset", "statement": "A resident credential stays in the device, with the same id and user id and (without an update of its user information) byte for byte, whatever other commands are executed or cut off by a power loss, until the device is reset, its id is deleted by credentialManagement, or a resident credential for the same relying party and user id is created. It is then also among the credentials that getAssertion without a list goes through.", "quantifier": "all histories of commands with any arguments and power losses between any two writes, without a reset, a deletion of this id and a resident registration for this account; storage errors in any command that does not begin with the roll-back of an interrupted operation, but not at boot; all slots", "why_tests_cant": "Loss of a credential would need a certain order of creations, deletions, updates, power losses and storage errors on other credentials; a test can follow only a few of them.", "anchors": ["applets/ctap/ctap.c: ctap_consistency_check, ctap_make_credential, ctap_get_assertion, ctap_credential_management, ctap_install"]}
{"id": "C96", "title": "Switching the device on destroys no data", "statement": "Once an applet has been installed, switching the device on again leaves its stored data (keys, certificates, credentials, PINs and their counters) as they are, whatever the storage contains and also when the storage fails to answer a query during the start.", "quantifier": "all storage contents of PIV, OpenPGP, OATH, FIDO, NDEF, the touch slots and the administration applet, with every pattern of storage errors during the start", "why_tests_cant": "The initialisation at boot decides from one query whether to format the applet; tests boot on storage that works and on the contents they prepared, not on a query that fails.", "anchors": ["applets/piv/piv.c: piv_install", "applets/openpgp/openpgp.c: openpgp_install", "applets/oath/oath.c: oath_install", "applets/ctap/ctap.c: ctap_install", "applets/admin/admin.c: admin_install", "applets/ndef/ndef.c: ndef_install", "src/fs.c: get_file_size"]}
{"id": "C97", "title": "FIDO, PIV, OpenPGP and the NDEF tag leave the other applets' storage alone", "statement": "No command of the FIDO, PIV, OpenPGP or NDEF applet, well-formed or not, no reset of it, no storage error and no power loss during it, and no start of the device after it changes or removes a file of another applet.", "quantifier": "all commands in all states, with every pattern of storage errors, cut at every storage update, and all starts", "why_tests_cant": "The applets write files whose names come from tables and from variables kept between commands; only a proof over all commands and states shows that no path reaches another name.", "anchors": ["applets/ctap/ctap.c", "applets/piv/piv.c", "applets/openpgp/openpgp.c", "applets/ndef/ndef.c", "src/fs.c"]}
