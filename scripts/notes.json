{
 "C09": {
  "note": "Also for the assembly and the masked code: see C38, C41-C44, C46, C47, whose theorems include that the call finishes."
 },
 "C12": {
  "note": "C12_exceptions (PropertiesLow.v) refutes the property for crypto_hash of the word-based directories; C12_exceptions_aead for the lowsize and esp32 AEAD (aead_demands in Impls.v lists them)."
 },
 "C15": {
  "note": "For customization strings whose bit length fits 64 bits; the code has no 256-byte limit (DESIGN 6.8)."
 },
 "C27": {
  "note": "The two *_wrong_on_big_endian theorems are refutations for the interleaved and opt8 directories; the *_both_hosts theorems are the property for the others."
 },
 "C28": {
  "note": "Portable, esp32, vector implementations; the masked code is C49, the assembly files are C42, C45 and C50."
 },
 "C33": {
  "note": "Termination of the assembly files is part of C42-C44, C46, C47, of the masked code of C38; neon above 2^32 bytes: C43."
 },
 "C34": {
  "note": "States what the code does: the user's expectation (no release of unverified plaintext) is refuted by C34_no_release_refuted."
 },
 "C37": {
  "note": "Equality holds when NULL + n is the address n; the C37_strict_* theorems say what holds under ISO C."
 },
 "C39": {
  "note": "Of the masked verification; C39_forgery refutes the expectation that a wrong tag is always rejected."
 },
 "C40": {
  "note": "A finding: avr hash, XOF, MAC and PRF are refuted to be the standard functions."
 },
 "C41": {
  "note": "Includes refutations: in-place decryption of partial blocks, lengths truncated to unsigned long."
 },
 "C43": {
  "note": "Includes refutations: neon faults on misaligned buffers and never ends from 2^32 bytes on."
 },
 "C44": {
  "note": "Includes refutations: universal forgery; three directories are Ascon-128a v1.2, not the standard."
 },
 "C46": {
  "note": "Includes the refutation that these directories compute the standard functions."
 },
 "C47": {
  "note": "Includes refutations: universal forgery; Ascon-128a v1.2, not the standard."
 },
 "C48": {
  "note": "First order, single values: no transitions, glitches or sets of values (DESIGN 5)."
 },
 "C51": {
  "note": "About the masking of the inputs; what the masked functions then compute with the shares is C48 (permutation), C38 (result) and C49 (trace)."
 },
 "C22": {
  "note": "For the implementations listed in Impls.v; the others have their own properties (C38-C40, C44, C46, C47)."
 },
 "C11": {
  "note": "esp32 is excluded (its decryption is wrong in place, C41)."
 },
 "C23": {
  "note": "The permutations in assembly: C42, C44, C46-C48."
 }
}