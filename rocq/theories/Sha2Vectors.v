(** * Sha2Vectors: SpecSha2.v against published test vectors.  Tests, not proofs. *)
From Coq Require Import String Ascii List ZArith Bool.
From Verif Require Import PyBase SpecBase64 SpecSha2 CryptoVectors.
Import ListNotations.
Local Open Scope string_scope.

Definition bits_of_hex (s : string) : list bool := all_bits (octets s).
(** FIPS 180-4 examples. *)
Definition spec_sha256_abc : True := ltac:(holds (
  sha256 (all_bits (chars "abc")) = bits_of_hex "ba7816bf8f01cfea414140de5dae2223b00361a396177a9cb410ff61f20015ad")).
Definition spec_sha256_two_blocks : True := ltac:(holds (
  sha256 (all_bits (chars "abcdbcdecdefdefgefghfghighijhijkijkljklmklmnlmnomnopnopq"))
  = bits_of_hex "248d6a61d20638b8e5c026930c3e6039a33ce45964ff2167f6ecedd419db06c1")).
Definition spec_sha512_abc : True := ltac:(holds (
  sha512 (all_bits (chars "abc"))
  = bits_of_hex "ddaf35a193617abacc417349ae20413112e6fa4e89a97ea20a9eeee64b55d39a2192992a274fc1a836ba3c23a3feebbd454d4423643ce80e2a9ac94fa54ca49f")).
(** RFC 4231, cases 2 and 6. *)
Definition spec_hmac_case2 : True := ltac:(holds (
  hmac_bits (all_bits (chars "Jefe")) (all_bits (chars "what do ya want for nothing?"))
  = bits_of_hex "5bdcc146bf60754e6a042426089575c75a003f089d2739839dec58b964ec3843")).
Definition spec_hmac_case6 : True := ltac:(holds (
  hmac_bits (all_bits (repeat (octet 170) 131)) (all_bits (chars "Test Using Larger Than Block-Size Key - Hash Key First"))
  = bits_of_hex "60e431591ee0b67f0d8a26aacbf5b77f8e0bc6213728c5140546040f0ee37f54")).
(** RFC 7914 section 11, first vector. *)
Definition spec_pbkdf2_vector : True := ltac:(holds (
  pbkdf2_bits (all_bits (chars "passwd")) (all_bits (chars "salt")) 1 64
  = bits_of_hex "55ac046e56e3089fec1691c22544b605f94185216dde0465e68b9d57c20dacbc49ca9cccf179b645991664b39d77ef317c71b845b1e30bd509112041d3a19783")).
