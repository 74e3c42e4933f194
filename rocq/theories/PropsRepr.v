(** * PropsRepr: C127, floats in JSON are written with the fewest digits. *)
From Coq Require Import String Ascii List ZArith Bool Lia.
From Verif Require Import PyBase Encoding Serializer Codecs SpecFormat SpecJson SpecRepr NearestFacts ReprFacts.
Import ListNotations.
Local Open Scope Z_scope.

Theorem C127_digits : forall f, 0 <= f < 2 ^ 64 -> SpecFormat.finite 11 52 f -> exists t m x, dumps python_json (VFloat f) = Ok (map octet t) /\
  writes (negative 11 52 f) m x t /\ nearest_decimal m x (f mod 2 ^ 63) /\ 0 <= m < 10 ^ 17 /\
  fewest m (f mod 2 ^ 63) /\ closest m x (f mod 2 ^ 63) /\ count t <= 24.
Proof. exact json_repr. Qed.
Print Assumptions C127_digits.

(** 0.1, and a number that takes 24 octets. *)
Example C127_instance :
  let f := 4591870180066957722 in
  0 <= f < 2 ^ 64 /\ SpecFormat.finite 11 52 f /\ dumps python_json (VFloat f) = Ok (encode_str "0.1") /\ nearest_decimal 1 (-1) f.
Proof.
  cbv zeta. split; [lia|]. split; [vm_compute; discriminate|]. split; [vm_compute; reflexivity|]. apply nearest_decimal_iff; [lia|]. vm_compute. reflexivity.
Qed.
Example C127_longest : let f := 9227875636482146304 in
  SpecFormat.finite 11 52 f /\ dumps python_json (VFloat f) = Ok (encode_str "-2.2250738585072014e-308") /\ count (encode_str "-2.2250738585072014e-308") = 24.
Proof. cbv zeta. split; [vm_compute; discriminate|]. split; vm_compute; reflexivity. Qed.
