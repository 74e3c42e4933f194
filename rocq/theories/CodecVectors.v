(** * CodecVectors: published test vectors for the codec models (tests, not proofs).
    RFC 8949 appendix A and F.1 (without the stray break codes, which cbor2 accepts), the MessagePack format tables.  [true]: the encoder produces exactly these bytes too. *)
From Coq Require Import String Ascii List ZArith Bool.
From Verif Require Import PyBase Encoding Serializer CodecBase MsgPack Cbor.
Import ListNotations.
Local Open Scope string_scope.
Local Open Scope Z_scope.
Local Open Scope list_scope.
Definition octets (l : list Z) : bytes := map byte_of l.
Definition agrees (c : codec) (t : bytes * val * bool) : Prop :=
  let '(b, v, enc) := t in loads c b = Ok v /\ (enc = true -> dumps c v = Ok b).
Definition rejects (c : codec) (b : bytes) : Prop := match loads c b with Ok _ | Raise ModelGap => False | Raise _ => True end.
Definition cbor_vectors : list (bytes * val * bool) := [
  (octets [0], VInt 0, true);
  (octets [1], VInt 1, true);
  (octets [10], VInt 10, true);
  (octets [23], VInt 23, true);
  (octets [24; 24], VInt 24, true);
  (octets [24; 25], VInt 25, true);
  (octets [24; 100], VInt 100, true);
  (octets [25; 3; 232], VInt 1000, true);
  (octets [26; 0; 15; 66; 64], VInt 1000000, true);
  (octets [27; 0; 0; 0; 232; 212; 165; 16; 0], VInt 1000000000000, true);
  (octets [27; 255; 255; 255; 255; 255; 255; 255; 255], VInt 18446744073709551615, true);
  (octets [194; 73; 1; 0; 0; 0; 0; 0; 0; 0; 0], VInt 18446744073709551616, true);
  (octets [59; 255; 255; 255; 255; 255; 255; 255; 255], VInt (-18446744073709551616), true);
  (octets [195; 73; 1; 0; 0; 0; 0; 0; 0; 0; 0], VInt (-18446744073709551617), true);
  (octets [32], VInt (-1), true);
  (octets [41], VInt (-10), true);
  (octets [56; 99], VInt (-100), true);
  (octets [57; 3; 231], VInt (-1000), true);
  (octets [249; 0; 0], VFloat 0, false);
  (octets [249; 128; 0], VFloat 9223372036854775808, false);
  (octets [249; 60; 0], VFloat 4607182418800017408, false);
  (octets [251; 63; 241; 153; 153; 153; 153; 153; 154], VFloat 4607632778762754458, true);
  (octets [249; 62; 0], VFloat 4609434218613702656, false);
  (octets [249; 123; 255], VFloat 4679235614791434240, false);
  (octets [250; 71; 195; 80; 0], VFloat 4681608360884174848, false);
  (octets [250; 127; 127; 255; 255], VFloat 5183643170566569984, false);
  (octets [251; 126; 55; 228; 60; 136; 0; 117; 156], VFloat 9094988921128908188, true);
  (octets [249; 0; 1], VFloat 4499096027743125504, false);
  (octets [249; 4; 0], VFloat 4544132024016830464, false);
  (octets [249; 196; 0], VFloat 13839561654909534208, false);
  (octets [251; 192; 16; 102; 102; 102; 102; 102; 102], VFloat 13839674244900218470, true);
  (octets [249; 124; 0], VFloat 9218868437227405312, true);
  (octets [249; 126; 0], VFloat 9221120237041090560, true);
  (octets [249; 252; 0], VFloat 18442240474082181120, true);
  (octets [250; 127; 128; 0; 0], VFloat 9218868437227405312, false);
  (octets [250; 127; 192; 0; 0], VFloat 9221120237041090560, false);
  (octets [250; 255; 128; 0; 0], VFloat 18442240474082181120, false);
  (octets [251; 127; 240; 0; 0; 0; 0; 0; 0], VFloat 9218868437227405312, false);
  (octets [251; 127; 248; 0; 0; 0; 0; 0; 0], VFloat 9221120237041090560, false);
  (octets [251; 255; 240; 0; 0; 0; 0; 0; 0], VFloat 18442240474082181120, false);
  (octets [244], VBool false, true);
  (octets [245], VBool true, true);
  (octets [246], VNone, true);
  (octets [64], VBytes (octets []), true);
  (octets [68; 1; 2; 3; 4], VBytes (octets [1; 2; 3; 4]), true);
  (octets [96], VStr "", true);
  (octets [97; 97], VStr "a", true);
  (octets [100; 73; 69; 84; 70], VStr "IETF", true);
  (octets [98; 34; 92], VStr """\", true);
  (octets [98; 195; 188], VStr (string_of_list_ascii (octets [195; 188])), true);
  (octets [99; 230; 176; 180], VStr (string_of_list_ascii (octets [230; 176; 180])), true);
  (octets [100; 240; 144; 133; 145], VStr (string_of_list_ascii (octets [240; 144; 133; 145])), true);
  (octets [128], VList [], true);
  (octets [131; 1; 2; 3], VList [VInt 1; VInt 2; VInt 3], true);
  (octets [131; 1; 130; 2; 3; 130; 4; 5], VList [VInt 1; VList [VInt 2; VInt 3]; VList [VInt 4; VInt 5]], true);
  (octets [152; 25; 1; 2; 3; 4; 5; 6; 7; 8; 9; 10; 11; 12; 13; 14; 15; 16; 17; 18; 19; 20; 21; 22; 23; 24; 24; 24; 25], VList [VInt 1; VInt 2; VInt 3; VInt 4; VInt 5; VInt 6; VInt 7; VInt 8; VInt 9; VInt 10; VInt 11; VInt 12; VInt 13; VInt 14; VInt 15; VInt 16; VInt 17; VInt 18; VInt 19; VInt 20; VInt 21; VInt 22; VInt 23; VInt 24; VInt 25], true);
  (octets [160], VDict [], true);
  (octets [162; 1; 2; 3; 4], VDict [(VInt 1, VInt 2); (VInt 3, VInt 4)], true);
  (octets [162; 97; 97; 1; 97; 98; 130; 2; 3], VDict [(VStr "a", VInt 1); (VStr "b", VList [VInt 2; VInt 3])], true);
  (octets [130; 97; 97; 161; 97; 98; 97; 99], VList [VStr "a"; VDict [(VStr "b", VStr "c")]], true);
  (octets [165; 97; 97; 97; 65; 97; 98; 97; 66; 97; 99; 97; 67; 97; 100; 97; 68; 97; 101; 97; 69], VDict [(VStr "a", VStr "A"); (VStr "b", VStr "B"); (VStr "c", VStr "C"); (VStr "d", VStr "D"); (VStr "e", VStr "E")], true);
  (octets [95; 66; 1; 2; 67; 3; 4; 5; 255], VBytes (octets [1; 2; 3; 4; 5]), false);
  (octets [127; 101; 115; 116; 114; 101; 97; 100; 109; 105; 110; 103; 255], VStr "streaming", false);
  (octets [159; 255], VList [], false);
  (octets [159; 1; 130; 2; 3; 159; 4; 5; 255; 255], VList [VInt 1; VList [VInt 2; VInt 3]; VList [VInt 4; VInt 5]], false);
  (octets [159; 1; 130; 2; 3; 130; 4; 5; 255], VList [VInt 1; VList [VInt 2; VInt 3]; VList [VInt 4; VInt 5]], false);
  (octets [131; 1; 130; 2; 3; 159; 4; 5; 255], VList [VInt 1; VList [VInt 2; VInt 3]; VList [VInt 4; VInt 5]], false);
  (octets [131; 1; 159; 2; 3; 255; 130; 4; 5], VList [VInt 1; VList [VInt 2; VInt 3]; VList [VInt 4; VInt 5]], false);
  (octets [191; 97; 97; 1; 97; 98; 159; 2; 3; 255; 255], VDict [(VStr "a", VInt 1); (VStr "b", VList [VInt 2; VInt 3])], false);
  (octets [130; 97; 97; 191; 97; 98; 97; 99; 255], VList [VStr "a"; VDict [(VStr "b", VStr "c")]], false);
  (octets [191; 99; 70; 117; 110; 245; 99; 65; 109; 116; 33; 255], VDict [(VStr "Fun", VBool true); (VStr "Amt", VInt (-2))], false)].
Definition msgpack_vectors : list (bytes * val * bool) := [
  (octets [0], VInt 0, true);
  (octets [127], VInt 127, true);
  (octets [204; 128], VInt 128, true);
  (octets [204; 255], VInt 255, true);
  (octets [205; 1; 0], VInt 256, true);
  (octets [205; 255; 255], VInt 65535, true);
  (octets [206; 0; 1; 0; 0], VInt 65536, true);
  (octets [206; 255; 255; 255; 255], VInt 4294967295, true);
  (octets [207; 0; 0; 0; 1; 0; 0; 0; 0], VInt 4294967296, true);
  (octets [207; 255; 255; 255; 255; 255; 255; 255; 255], VInt 18446744073709551615, true);
  (octets [255], VInt (-1), true);
  (octets [224], VInt (-32), true);
  (octets [208; 223], VInt (-33), true);
  (octets [208; 128], VInt (-128), true);
  (octets [209; 255; 127], VInt (-129), true);
  (octets [209; 128; 0], VInt (-32768), true);
  (octets [210; 255; 255; 127; 255], VInt (-32769), true);
  (octets [210; 128; 0; 0; 0], VInt (-2147483648), true);
  (octets [211; 255; 255; 255; 255; 127; 255; 255; 255], VInt (-2147483649), true);
  (octets [211; 128; 0; 0; 0; 0; 0; 0; 0], VInt (-9223372036854775808), true);
  (octets [192], VNone, true);
  (octets [194], VBool false, true);
  (octets [195], VBool true, true);
  (octets [203; 63; 248; 0; 0; 0; 0; 0; 0], VFloat 4609434218613702656, true);
  (octets [202; 63; 192; 0; 0], VFloat 4609434218613702656, false);
  (octets [204; 0], VInt 0, false);
  (octets [205; 0; 0], VInt 0, false);
  (octets [208; 0], VInt 0, false);
  (octets [209; 0; 255], VInt 255, false);
  (octets [211; 127; 255; 255; 255; 255; 255; 255; 255], VInt 9223372036854775807, false);
  (octets [160], VStr "", true);
  (octets [161; 97], VStr "a", true);
  (octets [217; 1; 97], VStr "a", false);
  (octets [218; 0; 1; 97], VStr "a", false);
  (octets [219; 0; 0; 0; 1; 97], VStr "a", false);
  (octets [191; 97; 97; 97; 97; 97; 97; 97; 97; 97; 97; 97; 97; 97; 97; 97; 97; 97; 97; 97; 97; 97; 97; 97; 97; 97; 97; 97; 97; 97; 97; 97], VStr "aaaaaaaaaaaaaaaaaaaaaaaaaaaaaaa", true);
  (octets [217; 32; 97; 97; 97; 97; 97; 97; 97; 97; 97; 97; 97; 97; 97; 97; 97; 97; 97; 97; 97; 97; 97; 97; 97; 97; 97; 97; 97; 97; 97; 97; 97; 97], VStr "aaaaaaaaaaaaaaaaaaaaaaaaaaaaaaaa", true);
  (octets [196; 0], VBytes (octets []), true);
  (octets [196; 1; 255], VBytes (octets [255]), true);
  (octets [197; 0; 1; 255], VBytes (octets [255]), false);
  (octets [198; 0; 0; 0; 1; 255], VBytes (octets [255]), false);
  (octets [144], VList [], true);
  (octets [147; 1; 2; 3], VList [VInt 1; VInt 2; VInt 3], true);
  (octets [220; 0; 1; 1], VList [VInt 1], false);
  (octets [221; 0; 0; 0; 1; 1], VList [VInt 1], false);
  (octets [159; 0; 0; 0; 0; 0; 0; 0; 0; 0; 0; 0; 0; 0; 0; 0], VList [VInt 0; VInt 0; VInt 0; VInt 0; VInt 0; VInt 0; VInt 0; VInt 0; VInt 0; VInt 0; VInt 0; VInt 0; VInt 0; VInt 0; VInt 0], true);
  (octets [220; 0; 16; 0; 0; 0; 0; 0; 0; 0; 0; 0; 0; 0; 0; 0; 0; 0; 0], VList [VInt 0; VInt 0; VInt 0; VInt 0; VInt 0; VInt 0; VInt 0; VInt 0; VInt 0; VInt 0; VInt 0; VInt 0; VInt 0; VInt 0; VInt 0; VInt 0], true);
  (octets [128], VDict [], true);
  (octets [129; 161; 97; 1], VDict [(VStr "a", VInt 1)], true);
  (octets [222; 0; 1; 161; 97; 1], VDict [(VStr "a", VInt 1)], false);
  (octets [223; 0; 0; 0; 1; 161; 97; 1], VDict [(VStr "a", VInt 1)], false);
  (octets [130; 161; 97; 1; 161; 98; 146; 2; 3], VDict [(VStr "a", VInt 1); (VStr "b", VList [VInt 2; VInt 3])], true)].
Definition cbor_bad : list bytes := [
  octets [24];
  octets [25];
  octets [26];
  octets [27];
  octets [25; 1];
  octets [26; 1; 2];
  octets [27; 1; 2; 3; 4; 5; 6; 7];
  octets [56];
  octets [88];
  octets [120];
  octets [152];
  octets [154; 1; 255; 0];
  octets [184];
  octets [216];
  octets [248];
  octets [249; 0];
  octets [250; 0; 0];
  octets [251; 0; 0; 0];
  octets [65];
  octets [97];
  octets [129];
  octets [129; 129; 129; 129; 129; 129; 129; 129; 129];
  octets [130; 0];
  octets [161];
  octets [162; 1; 2];
  octets [161; 0];
  octets [162; 0; 0; 0];
  octets [95; 65; 0];
  octets [127; 97; 0];
  octets [159];
  octets [159; 1; 2];
  octets [191];
  octets [191; 1; 2; 1; 2];
  octets [129; 159];
  octets [159; 128; 0];
  octets [159; 159; 159; 159; 159; 255; 255; 255; 255];
  octets [159; 129; 159; 129; 159; 159; 255; 255; 255];
  octets [28];
  octets [29];
  octets [30];
  octets [60];
  octets [92];
  octets [124];
  octets [156];
  octets [188];
  octets [220];
  octets [252];
  octets [161; 255];
  octets [162; 0; 0; 255];
  octets [159; 129; 255];
  octets [159; 130; 159; 129; 159; 159; 255; 255; 255; 255];
  octets [191; 0; 255];
  octets [191; 0; 0; 0; 255];
  octets [31];
  octets [63];
  octets [95; 0; 255];
  octets [95; 33; 255];
  octets [95; 97; 0; 255];
  octets [95; 128; 255];
  octets [95; 160; 255];
  octets [95; 224; 255];
  octets [127; 65; 0; 255]].
Definition msgpack_bad : list bytes := [
  octets [193];
  octets [];
  octets [145];
  octets [146; 192];
  octets [129];
  octets [129; 161; 97];
  octets [161];
  octets [162];
  octets [204];
  octets [205; 0];
  octets [206; 0; 0; 0];
  octets [207; 0];
  octets [196];
  octets [196; 1];
  octets [197];
  octets [217];
  octets [217; 1];
  octets [220];
  octets [220; 0];
  octets [220; 0; 1];
  octets [222; 0; 1];
  octets [161; 255];
  octets [0; 0];
  octets [129; 1; 1]].
Ltac all := repeat (apply Forall_cons; [vm_compute; try split; try reflexivity; try (intros; discriminate); try exact I; intros; reflexivity|]); apply Forall_nil.
Example cbor_vectors_agree : Forall (agrees cbor) cbor_vectors.
Proof. unfold cbor_vectors. all. Qed.
Example msgpack_vectors_agree : Forall (agrees msgpack) msgpack_vectors.
Proof. unfold msgpack_vectors. all. Qed.
Example cbor_bad_rejected : Forall (rejects cbor) cbor_bad.
Proof. unfold cbor_bad. all. Qed.
Example msgpack_bad_rejected : Forall (rejects msgpack) msgpack_bad.
Proof. unfold msgpack_bad. all. Qed.
