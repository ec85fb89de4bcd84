(** GENERATED by tools/gen_repo_tests.py from /repo/tests/YstringTest/test_*.cpp.
    The project's own unit tests, evaluated on the model (404 of them).  They check
    that the model computes what the authors expect of the code; they are tests,
    and nothing in Properties/ rests on them. *)
From Coq Require Import List NArith ZArith Bool.
From Coq.Strings Require Import Byte.
From Verif Require Import Base.
From Verif.Model Require Import Decode Encode Subrange Search Split CharClass ConvertCase
  Chars CaseInsensitive Escape Unescape Normalize.
Import ListNotations.
Open Scope N_scope.

(** ** tests/YstringTest/test_Algorithms.cpp *)
Example test_Algorithms_26 :
  append [] 8721 = Ok [xe2; x88; x91].
Proof. vm_compute; reflexivity. Qed.
Example test_Algorithms_27 :
  append [xe2; x88; x91] 305 = Ok [xe2; x88; x91; xc4; xb1].
Proof. vm_compute; reflexivity. Qed.
Example test_Algorithms_28 :
  exists x, append [xe2; x88; x91; xc4; xb1] 2097152 = Throw x.
Proof. repeat (eexists || split); vm_compute; reflexivity. Qed.
Example test_Algorithms_33 :
  ci_compare [x61; x42; x63; xc3; x98; xc3; xa6] [x41; x62; x43; xc3; xb8; xc3; x86] = Ok 0%Z.
Proof. vm_compute; reflexivity. Qed.
Example test_Algorithms_34 :
  exists z, ci_compare [x61; x42; x63; xc3; x85; x64] [x41; x62; x43; xc3; xa5] = Ok z /\ (z > 0)%Z.
Proof. repeat (eexists || split); vm_compute; reflexivity. Qed.
Example test_Algorithms_35 :
  exists z, ci_compare [x61; x42; x63; xc3; xa6; xc3; x98; xc3; xa5] [x41; x62; x43; xc3; xa6; xc3; x98; xc3; xb8] = Ok z /\ (z < 0)%Z.
Proof. repeat (eexists || split); vm_compute; reflexivity. Qed.
Example test_Algorithms_40 :
  ci_equal [x61; x42; x63; xc3; x98; xc3; xa6] [x41; x62; x43; xc3; xb8; xc3; x86] = Ok true.
Proof. vm_compute; reflexivity. Qed.
Example test_Algorithms_41 :
  ci_equal [x61; x42; x63; xc3; x85; x64] [x41; x62; x43; xc3; xa5] = Ok false.
Proof. vm_compute; reflexivity. Qed.
Example test_Algorithms_42 :
  ci_equal [x61; x42; x63; xc3; xa6; xc3; x98; xc3; xa5] [x41; x62; x43; xc3; xa6; xc3; x98; xc3; xb8] = Ok false.
Proof. vm_compute; reflexivity. Qed.
Example test_Algorithms_47 :
  ci_less [x61; x42; x63; xc3; x98; xc3; xa6] [x41; x62; x43; xc3; xb8; xc3; x86] = Ok false.
Proof. vm_compute; reflexivity. Qed.
Example test_Algorithms_48 :
  ci_less [x61; x42; x63; xc3; x85; x64] [x41; x62; x43; xc3; xa5] = Ok false.
Proof. vm_compute; reflexivity. Qed.
Example test_Algorithms_49 :
  ci_less [x61; x42; x63; xc3; xa6; xc3; x98; xc3; xa5] [x41; x62; x43; xc3; xa6; xc3; x98; xc3; xb8] = Ok true.
Proof. vm_compute; reflexivity. Qed.
Example test_Algorithms_54 :
  ci_ends_with [x41; x42; x43; x44; xc3; x86; xc3; xb8; xc3; x85; x51; x52; x53] [xc3; x98; xc3; xa5; x51; x72; x53] = Ok true.
Proof. vm_compute; reflexivity. Qed.
Example test_Algorithms_55 :
  ci_ends_with [x41; x42; x43; x44; xc3; x86; xc3; x98; xc3; x85; x51; x52; x53] [xc3; xa6; xc3; x85; x51; x52; x73] = Ok false.
Proof. vm_compute; reflexivity. Qed.
Example test_Algorithms_56 :
  ci_ends_with [xc3; x98; xc3; xa5; x51; x52; x53] [xc3; x98; xc3; x85; x51; x72; x53] = Ok true.
Proof. vm_compute; reflexivity. Qed.
Example test_Algorithms_57 :
  ci_ends_with [xc3; x85; x51; x52; x53] [xc3; x98; xc3; x85; x51; x52; x53] = Ok false.
Proof. vm_compute; reflexivity. Qed.
Example test_Algorithms_58 :
  ci_ends_with [x41; x42; x43; x44; xc3; x86; xc3; x98; xc3; xa5; x51; x52; x53] [] = Ok true.
Proof. vm_compute; reflexivity. Qed.
Example test_Algorithms_64 :
  ci_find_first [x41; x42; x43; xc3; x86; xc3; x98; xc3; x85; xc3; xa4; xc3; xb6; xc3; xbc] [x43; xc3; xa6; xc3; xb8] 0 = Ok (Sub 2 5).
Proof. vm_compute; reflexivity. Qed.
Example test_Algorithms_65 :
  ci_find_first [x41; x42; x43; xc3; x86; xc3; x98; xc3; x85; xc3; xa4; xc3; xb6; xc3; xbc] [x61; x62; x63; xc3; xa6] 0 = Ok (Sub 0 5).
Proof. vm_compute; reflexivity. Qed.
Example test_Algorithms_66 :
  ci_find_first [x41; x42; x43; xc3; x86; xc3; x98; xc3; x85; xc3; xa4; xc3; xb6; xc3; xbc] [xc3; xa5; xc3; x84; xc3; xb6] 0 = Ok (Sub 7 6).
Proof. vm_compute; reflexivity. Qed.
Example test_Algorithms_67 :
  exists r, ci_find_first [x41; x42; x43; xc3; x86; xc3; x98; xc3; x85; xc3; xa4; xc3; xb6; xc3; xbc] [xc3; xa4; xc3; x96; xc3; x9c; xc3; x85] 0 = Ok r /\ sub_bool r = false.
Proof. repeat (eexists || split); vm_compute; reflexivity. Qed.
Example test_Algorithms_73 :
  ci_find_first_of [x71; x77; x65; xc3; xa5; xc3; xb8; x72; x74; x79] [8800; 216; 197; 191] 0 = Ok (Sub 3 2, 229).
Proof. vm_compute; reflexivity. Qed.
Example test_Algorithms_74 :
  exists r, ci_find_first_of [x71; x77; x65; x72; x74; x79] [8800; 216; 197; 191] 0 = Ok r /\ sub_bool (fst r) = false.
Proof. repeat (eexists || split); vm_compute; reflexivity. Qed.
Example test_Algorithms_80 :
  ci_find_last [x41; x42; x43; xc3; x86; xc3; x98; xc3; x85; xc3; xa4; xc3; xb6; xc3; xbc] [x43; xc3; xa6; xc3; xb8] npos = Ok (Sub 2 5).
Proof. vm_compute; reflexivity. Qed.
Example test_Algorithms_81 :
  ci_find_last [x41; x42; x43; xc3; x86; xc3; x98; xc3; x85; xc3; xa4; xc3; xb6; xc3; xbc] [x61; x62; x63; xc3; xa6] npos = Ok (Sub 0 5).
Proof. vm_compute; reflexivity. Qed.
Example test_Algorithms_82 :
  ci_find_last [x41; x42; x43; xc3; x86; xc3; x98; xc3; x85; xc3; xa4; xc3; xb6; xc3; xbc] [xc3; x85; xc3; xa4; xc3; xb6; xc3; xbc] npos = Ok (Sub 7 8).
Proof. vm_compute; reflexivity. Qed.
Example test_Algorithms_83 :
  exists r, ci_find_last [x41; x42; x43; xc3; x86; xc3; x98; xc3; x85; xc3; xa4; xc3; xb6; xc3; xbc] [xc3; xa5; x61; x42; x43] npos = Ok r /\ sub_bool r = false.
Proof. repeat (eexists || split); vm_compute; reflexivity. Qed.
Example test_Algorithms_89 :
  ci_find_last_of [x71; x77; x65; xc3; xa5; xc3; xb8; x72; x74; x79] [8800; 216; 197; 191] npos = Ok (Sub 5 2, 248).
Proof. vm_compute; reflexivity. Qed.
Example test_Algorithms_90 :
  exists r, ci_find_last_of [x71; x77; x65; x72; x74; x79] [8800; 216; 197; 191] npos = Ok r /\ sub_bool (fst r) = false.
Proof. repeat (eexists || split); vm_compute; reflexivity. Qed.
Example test_Algorithms_95 :
  ci_replace [x61; x62; x63; x20; x64; xc3; xa6; x20; x66; x67; x68; x20; x44; xc3; x86; x20; x69] [x44; xc3; xa6] [xc3; xb8; xc3; xa5] PTRDIFF_MAX = Ok [x61; x62; x63; x20; xc3; xb8; xc3; xa5; x20; x66; x67; x68; x20; xc3; xb8; xc3; xa5; x20; x69].
Proof. vm_compute; reflexivity. Qed.
Example test_Algorithms_96 :
  ci_replace [x61; x62; x63; x20; x64; xc3; xa6; x20; x66; x67; x68; x20; x44; xc3; x86; x20; x69] [x44; xc3; xa6] [xc3; xb8; xc3; xa5] 1 = Ok [x61; x62; x63; x20; xc3; xb8; xc3; xa5; x20; x66; x67; x68; x20; x44; xc3; x86; x20; x69].
Proof. vm_compute; reflexivity. Qed.
Example test_Algorithms_97 :
  ci_replace [x61; x62; x63; x20; x64; xc3; xa6; x20; x66; x67; x68; x20; x44; xc3; x86; x20; x69] [x44; xc3; xa6] [xc3; xb8; xc3; xa5] (-2) = Ok [x61; x62; x63; x20; xc3; xb8; xc3; xa5; x20; x66; x67; x68; x20; xc3; xb8; xc3; xa5; x20; x69].
Proof. vm_compute; reflexivity. Qed.
Example test_Algorithms_102 :
  ci_starts_with [x42; xc3; x98; x41; x42; x43; x20; x42; xc3; x98; x42; xc3; x98; x20; x63; x66; x67; xc3; xa5; x20; x42; xc3; x98] [x42; xc3; xb8; x61] = Ok true.
Proof. vm_compute; reflexivity. Qed.
Example test_Algorithms_103 :
  ci_starts_with [x42; xc3; x98; x41; x42; x43; x20; x42; xc3; x98; x42; xc3; x98; x20; x63; x66; x67; xc3; xa5; x20; x42; xc3; x98] [x42; xc3; xb8; x41; x44] = Ok false.
Proof. vm_compute; reflexivity. Qed.
Example test_Algorithms_104 :
  ci_starts_with [x42; xc3; xb8; x41; x42; x43] [x42; xc3; x98; x41; x42; x43] = Ok true.
Proof. vm_compute; reflexivity. Qed.
Example test_Algorithms_105 :
  ci_starts_with [x42; xc3; xb8; x41; x42; x43] [x42; xc3; x98; x41; x42; x43; x45] = Ok false.
Proof. vm_compute; reflexivity. Qed.
Example test_Algorithms_110 :
  contains [x41; x42; x43; x44; x45] 68 = Ok true.
Proof. vm_compute; reflexivity. Qed.
Example test_Algorithms_111 :
  contains [x41; x42; x43; x44; x45] 70 = Ok false.
Proof. vm_compute; reflexivity. Qed.
Example test_Algorithms_112 :
  contains [x41; x42; x43; xe2; x88; x91; xc3; x9f; xc3; x96; xe2; x80; x99; xc3; x9c; xe2; x80; xb9; xe2; x80; xba; xc6; x92; xc2; xb8; xe2; x88; x9a; x45; x46; x47] 8730 = Ok true.
Proof. vm_compute; reflexivity. Qed.
Example test_Algorithms_117 :
  count_chars [x50; xcc; x90; x73] = Ok 2.
Proof. vm_compute; reflexivity. Qed.
Example test_Algorithms_122 :
  count_codepoints [] = Ok 0.
Proof. vm_compute; reflexivity. Qed.
Example test_Algorithms_123 :
  count_codepoints [x41; xcc; x8a; x42; x43; x44; x45; xcc; x83] = Ok 7.
Proof. vm_compute; reflexivity. Qed.
Example test_Algorithms_128 :
  ends_with [x41; x42; x43; x44; xc3; x86; xc3; x98; xc3; x85; x51; x52; x53] [xc3; x98; xc3; x85; x51; x52; x53] = Ok true.
Proof. vm_compute; reflexivity. Qed.
Example test_Algorithms_129 :
  ends_with [x41; x42; x43; x44; xc3; x86; xc3; x98; xc3; x85; x51; x52; x53] [xc3; x98; xc3; x85; x51; x52] = Ok false.
Proof. vm_compute; reflexivity. Qed.
Example test_Algorithms_130 :
  ends_with [xc3; x98; xc3; x85; x51; x52; x53] [xc3; x98; xc3; x85; x51; x52; x53] = Ok true.
Proof. vm_compute; reflexivity. Qed.
Example test_Algorithms_131 :
  ends_with [xc3; x85; x51; x52; x53] [xc3; x98; xc3; x85; x51; x52; x53] = Ok false.
Proof. vm_compute; reflexivity. Qed.
Example test_Algorithms_132 :
  ends_with [x41; x42; x43; x44; xc3; x86; xc3; x98; xc3; x85; x51; x52; x53] [] = Ok true.
Proof. vm_compute; reflexivity. Qed.
Example test_Algorithms_138 :
  find_first [x41; x42; x43; x44; x45; x46; x47; x48; x43; x44; x45; x49; x4a; x4b] [x43; x44; x45] 0 = Ok (Sub 2 3).
Proof. vm_compute; reflexivity. Qed.
Example test_Algorithms_139 :
  find_first [x41; x42; x43; x44; x45; x46; x47; x48; x43; x44; x45; x49; x4a; x4b] [x43; x44; x45] 3 = Ok (Sub 8 3).
Proof. vm_compute; reflexivity. Qed.
Example test_Algorithms_140 :
  find_first [x41; x42; x43; x44; x45; x46; x47; x48; x43; x44; x45; x49; x4a; x4b] [x41; x42; x43; x44] 0 = Ok (Sub 0 4).
Proof. vm_compute; reflexivity. Qed.
Example test_Algorithms_141 :
  find_first [x41; x42; x43; x44; x45; x46; x47; x48; x43; x44; x45; x49; x4a; x4b] [x4a; x4b] 0 = Ok (Sub 12 2).
Proof. vm_compute; reflexivity. Qed.
Example test_Algorithms_142 :
  exists r, find_first [x41; x42; x43; x44; x45; x46; x47; x48; x43; x44; x45; x49; x4a; x4b] [x42; x43; x45] 0 = Ok r /\ sub_bool r = false.
Proof. repeat (eexists || split); vm_compute; reflexivity. Qed.
Example test_Algorithms_147 :
  find_first_newline [0] [x61; x62; x63; x0a; x64; x0a; x65; x66] 0 = Ok (Sub 3 1).
Proof. vm_compute; reflexivity. Qed.
Example test_Algorithms_148 :
  find_first_newline [0] [x61; x62; x63; x0d; x64; x0a; x65; x66] 0 = Ok (Sub 3 1).
Proof. vm_compute; reflexivity. Qed.
Example test_Algorithms_149 :
  find_first_newline [0] [x61; x62; x63; x0d; x0a; x64; x0a; x65; x66] 0 = Ok (Sub 3 2).
Proof. vm_compute; reflexivity. Qed.
Example test_Algorithms_150 :
  find_first_newline [0] [x61; x62; x63; x0a; x0d; x64; x0a; x65; x66] 0 = Ok (Sub 3 1).
Proof. vm_compute; reflexivity. Qed.
Example test_Algorithms_151 :
  find_first_newline [0] [x61; x62; x63; xe2; x80; xa9; x64; x0a; x65; x66] 0 = Ok (Sub 3 3).
Proof. vm_compute; reflexivity. Qed.
Example test_Algorithms_152 :
  find_first_newline [0] [x0a; x61; x62; x63; x0a; x64; x0a; x65; x66] 0 = Ok (Sub 0 1).
Proof. vm_compute; reflexivity. Qed.
Example test_Algorithms_153 :
  find_first_newline [0] [x61; x62; x63; x64; x65; x66; x0a] 0 = Ok (Sub 6 1).
Proof. vm_compute; reflexivity. Qed.
Example test_Algorithms_154 :
  exists r, find_first_newline [0] [x61; x62; x63; x64; x65; x66] 0 = Ok r /\ sub_bool r = false.
Proof. repeat (eexists || split); vm_compute; reflexivity. Qed.
Example test_Algorithms_160 :
  find_first_of [x71; x77; x65; xe2; x89; xa0; xe2; x89; xa0; x72; x74; x79] [8800; 65; 66; 191] 0 = Ok (Sub 3 3, 8800).
Proof. vm_compute; reflexivity. Qed.
Example test_Algorithms_161 :
  exists r, find_first_of [x71; x77; x65; x72; x74; x79] [8800; 65; 66; 191] 0 = Ok r /\ sub_bool (fst r) = false.
Proof. repeat (eexists || split); vm_compute; reflexivity. Qed.
Example test_Algorithms_168 :
  find_first_where [x71; x57; x65; xc3; x85; x74; x79] is_upper 0 = Ok ((Sub 1 1), 87).
Proof. vm_compute; reflexivity. Qed.
Example test_Algorithms_171 :
  find_first_where [x71; x57; x65; xc3; x85; x74; x79] is_upper 2 = Ok ((Sub 3 2), 197).
Proof. vm_compute; reflexivity. Qed.
Example test_Algorithms_177 :
  find_last [x41; x42; x43; x44; x45; x46; x47; x48; x43; x44; x45; x49; x4a; x4b] [x43; x44; x45] npos = Ok (Sub 8 3).
Proof. vm_compute; reflexivity. Qed.
Example test_Algorithms_178 :
  find_last [x41; x42; x43; x44; x45; x46; x47; x48; x43; x44; x45; x49; x4a; x4b] [x41; x42; x43; x44] npos = Ok (Sub 0 4).
Proof. vm_compute; reflexivity. Qed.
Example test_Algorithms_179 :
  find_last [x41; x42; x43; x44; x45; x46; x47; x48; x43; x44; x45; x49; x4a; x4b] [x4a; x4b] npos = Ok (Sub 12 2).
Proof. vm_compute; reflexivity. Qed.
Example test_Algorithms_180 :
  exists r, find_last [x41; x42; x43; x44; x45; x46; x47; x48; x43; x44; x45; x49; x4a; x4b] [x42; x43; x45] npos = Ok r /\ sub_bool r = false.
Proof. repeat (eexists || split); vm_compute; reflexivity. Qed.
Example test_Algorithms_185 :
  find_last_newline [0] [x61; x62; x63; x0a; x64; x0a; x65; x66] npos = Ok (Sub 5 1).
Proof. vm_compute; reflexivity. Qed.
Example test_Algorithms_186 :
  find_last_newline [0] [x61; x62; x63; x0a; x64; x0d; x65; x66] npos = Ok (Sub 5 1).
Proof. vm_compute; reflexivity. Qed.
Example test_Algorithms_187 :
  find_last_newline [0] [x61; x62; x63; x0a; x64; x0d; x65; x66] 5 = Ok (Sub 3 1).
Proof. vm_compute; reflexivity. Qed.
Example test_Algorithms_188 :
  find_last_newline [0] [x61; x62; x63; x0a; x64; x0d; x0a; x65; x66] npos = Ok (Sub 5 2).
Proof. vm_compute; reflexivity. Qed.
Example test_Algorithms_189 :
  find_last_newline [0] [x61; x62; x63; x0a; x64; x0a; x0d; x65; x66] npos = Ok (Sub 6 1).
Proof. vm_compute; reflexivity. Qed.
Example test_Algorithms_190 :
  find_last_newline [0] [x61; x62; x63; x0a; x64; xe2; x80; xa9; x65; x66] npos = Ok (Sub 5 3).
Proof. vm_compute; reflexivity. Qed.
Example test_Algorithms_191 :
  find_last_newline [0] [x0a; x61; x62; x63; x0a; x64; x0a; x65; x66; x0a] npos = Ok (Sub 9 1).
Proof. vm_compute; reflexivity. Qed.
Example test_Algorithms_192 :
  find_last_newline [0] [x0a; x61; x62; x63; x64; x65; x66] npos = Ok (Sub 0 1).
Proof. vm_compute; reflexivity. Qed.
Example test_Algorithms_193 :
  exists r, find_last_newline [0] [x61; x62; x63; x64; x65; x66] npos = Ok r /\ sub_bool r = false.
Proof. repeat (eexists || split); vm_compute; reflexivity. Qed.
Example test_Algorithms_199 :
  find_last_of [x71; x77; x65; xe2; x89; xa0; xe2; x89; xa0; x72; x74; x79] [8800; 65; 66; 191] npos = Ok (Sub 6 3, 8800).
Proof. vm_compute; reflexivity. Qed.
Example test_Algorithms_200 :
  exists r, find_last_of [x71; x77; x65; x72; x74; x79] [8800; 65; 66; 191] npos = Ok r /\ sub_bool (fst r) = false.
Proof. repeat (eexists || split); vm_compute; reflexivity. Qed.
Example test_Algorithms_207 :
  find_last_where [x71; x57; x65; xc3; x85; x74; x79] is_upper npos = Ok ((Sub 3 2), 197).
Proof. vm_compute; reflexivity. Qed.
Example test_Algorithms_212 :
  get_char_pos [x50; xce; xa9; xcc; x90; x73; xc3; x85] 0 = Ok 0.
Proof. vm_compute; reflexivity. Qed.
Example test_Algorithms_213 :
  get_char_pos [x50; xce; xa9; xcc; x90; x73; xc3; x85] 1 = Ok 1.
Proof. vm_compute; reflexivity. Qed.
Example test_Algorithms_214 :
  get_char_pos [x50; xce; xa9; xcc; x90; x73; xc3; x85] 2 = Ok 5.
Proof. vm_compute; reflexivity. Qed.
Example test_Algorithms_215 :
  get_char_pos [x50; xce; xa9; xcc; x90; x73; xc3; x85] 3 = Ok 6.
Proof. vm_compute; reflexivity. Qed.
Example test_Algorithms_216 :
  get_char_pos [x50; xce; xa9; xcc; x90; x73; xc3; x85] 4 = Ok 8.
Proof. vm_compute; reflexivity. Qed.
Example test_Algorithms_217 :
  get_char_pos [x50; xce; xa9; xcc; x90; x73; xc3; x85] 5 = Ok npos.
Proof. vm_compute; reflexivity. Qed.
Example test_Algorithms_218 :
  get_char_pos [x50; xce; xa9; xcc; x90; x73; xc3; x85] (-1) = Ok 6.
Proof. vm_compute; reflexivity. Qed.
Example test_Algorithms_219 :
  get_char_pos [x50; xce; xa9; xcc; x90; x73; xc3; x85] (-2) = Ok 5.
Proof. vm_compute; reflexivity. Qed.
Example test_Algorithms_220 :
  get_char_pos [x50; xce; xa9; xcc; x90; x73; xc3; x85] (-3) = Ok 1.
Proof. vm_compute; reflexivity. Qed.
Example test_Algorithms_221 :
  get_char_pos [x50; xce; xa9; xcc; x90; x73; xc3; x85] (-4) = Ok 0.
Proof. vm_compute; reflexivity. Qed.
Example test_Algorithms_222 :
  get_char_pos [x50; xce; xa9; xcc; x90; x73; xc3; x85] (-5) = Ok npos.
Proof. vm_compute; reflexivity. Qed.
Example test_Algorithms_227 :
  get_char_range [x50; xce; xa9; xcc; x90; x73; xc3; x85] 0 = Ok (Sub 0 1).
Proof. vm_compute; reflexivity. Qed.
Example test_Algorithms_228 :
  get_char_range [x50; xce; xa9; xcc; x90; x73; xc3; x85] 1 = Ok (Sub 1 4).
Proof. vm_compute; reflexivity. Qed.
Example test_Algorithms_229 :
  get_char_range [x50; xce; xa9; xcc; x90; x73; xc3; x85] 2 = Ok (Sub 5 1).
Proof. vm_compute; reflexivity. Qed.
Example test_Algorithms_230 :
  get_char_range [x50; xce; xa9; xcc; x90; x73; xc3; x85] 3 = Ok (Sub 6 2).
Proof. vm_compute; reflexivity. Qed.
Example test_Algorithms_231 :
  get_char_range [x50; xce; xa9; xcc; x90; x73; xc3; x85] 4 = Ok (Sub 8 0).
Proof. vm_compute; reflexivity. Qed.
Example test_Algorithms_232 :
  get_char_range [x50; xce; xa9; xcc; x90; x73; xc3; x85] 5 = Ok (Sub 8 0).
Proof. vm_compute; reflexivity. Qed.
Example test_Algorithms_233 :
  get_char_range [x50; xce; xa9; xcc; x90; x73; xc3; x85] (-1) = Ok (Sub 6 2).
Proof. vm_compute; reflexivity. Qed.
Example test_Algorithms_234 :
  get_char_range [x50; xce; xa9; xcc; x90; x73; xc3; x85] (-2) = Ok (Sub 5 1).
Proof. vm_compute; reflexivity. Qed.
Example test_Algorithms_235 :
  get_char_range [x50; xce; xa9; xcc; x90; x73; xc3; x85] (-3) = Ok (Sub 1 4).
Proof. vm_compute; reflexivity. Qed.
Example test_Algorithms_236 :
  get_char_range [x50; xce; xa9; xcc; x90; x73; xc3; x85] (-4) = Ok (Sub 0 1).
Proof. vm_compute; reflexivity. Qed.
Example test_Algorithms_237 :
  get_char_range [x50; xce; xa9; xcc; x90; x73; xc3; x85] (-5) = Ok (Sub 0 0).
Proof. vm_compute; reflexivity. Qed.
Example test_Algorithms_242 :
  get_char_substring [x50; xce; xa9; xcc; x90; xcc; x91; x73; xcc; x90; xc3; x85] 0 PTRDIFF_MAX = Ok [x50; xce; xa9; xcc; x90; xcc; x91; x73; xcc; x90; xc3; x85].
Proof. vm_compute; reflexivity. Qed.
Example test_Algorithms_243 :
  get_char_substring [x50; xce; xa9; xcc; x90; xcc; x91; x73; xcc; x90; xc3; x85] 0 2 = Ok [x50; xce; xa9; xcc; x90; xcc; x91].
Proof. vm_compute; reflexivity. Qed.
Example test_Algorithms_244 :
  get_char_substring [x50; xce; xa9; xcc; x90; xcc; x91; x73; xcc; x90; xc3; x85] 2 6 = Ok [x73; xcc; x90; xc3; x85].
Proof. vm_compute; reflexivity. Qed.
Example test_Algorithms_249 :
  get_codepoint [x41; x42; xc2; xa3; xc6; x92; x43; x44; xe2; x80; xb9; xc3; x9f; xe2; x88; x82; x47; x48; x52] 0 = Ok (Sub 0 1, 65).
Proof. vm_compute; reflexivity. Qed.
Example test_Algorithms_250 :
  get_codepoint [x41; x42; xc2; xa3; xc6; x92; x43; x44; xe2; x80; xb9; xc3; x9f; xe2; x88; x82; x47; x48; x52] 6 = Ok (Sub 8 3, 8249).
Proof. vm_compute; reflexivity. Qed.
Example test_Algorithms_251 :
  get_codepoint [x41; x42; xc2; xa3; xc6; x92; x43; x44; xe2; x80; xb9; xc3; x9f; xe2; x88; x82; x47; x48; x52] 11 = Ok (Sub 18 1, 82).
Proof. vm_compute; reflexivity. Qed.
Example test_Algorithms_252 :
  exists r, get_codepoint [x41; x42; xc2; xa3; xc6; x92; x43; x44; xe2; x80; xb9; xc3; x9f; xe2; x88; x82; x47; x48; x52] 12 = Ok r /\ sub_bool (fst r) = false.
Proof. repeat (eexists || split); vm_compute; reflexivity. Qed.
Example test_Algorithms_253 :
  get_codepoint [x41; x42; xc2; xa3; xc6; x92; x43; x44; xe2; x80; xb9; xc3; x9f; xe2; x88; x82; x47; x48; x52] (-1) = Ok (Sub 18 1, 82).
Proof. vm_compute; reflexivity. Qed.
Example test_Algorithms_254 :
  get_codepoint [x41; x42; xc2; xa3; xc6; x92; x43; x44; xe2; x80; xb9; xc3; x9f; xe2; x88; x82; x47; x48; x52] (-4) = Ok (Sub 13 3, 8706).
Proof. vm_compute; reflexivity. Qed.
Example test_Algorithms_255 :
  get_codepoint [x41; x42; xc2; xa3; xc6; x92; x43; x44; xe2; x80; xb9; xc3; x9f; xe2; x88; x82; x47; x48; x52] (-12) = Ok (Sub 0 1, 65).
Proof. vm_compute; reflexivity. Qed.
Example test_Algorithms_256 :
  exists r, get_codepoint [x41; x42; xc2; xa3; xc6; x92; x43; x44; xe2; x80; xb9; xc3; x9f; xe2; x88; x82; x47; x48; x52] (-13) = Ok r /\ sub_bool (fst r) = false.
Proof. repeat (eexists || split); vm_compute; reflexivity. Qed.
Example test_Algorithms_261 :
  get_codepoint_pos [x41; x42; xc2; xa3; xc6; x92; x43; x44; xe2; x80; xb9; xc3; x9f; xe2; x88; x82; x47; x48; x52] 0 = Ok 0.
Proof. vm_compute; reflexivity. Qed.
Example test_Algorithms_262 :
  get_codepoint_pos [x41; x42; xc2; xa3; xc6; x92; x43; x44; xe2; x80; xb9; xc3; x9f; xe2; x88; x82; x47; x48; x52] 6 = Ok 8.
Proof. vm_compute; reflexivity. Qed.
Example test_Algorithms_263 :
  get_codepoint_pos [x41; x42; xc2; xa3; xc6; x92; x43; x44; xe2; x80; xb9; xc3; x9f; xe2; x88; x82; x47; x48; x52] 11 = Ok 18.
Proof. vm_compute; reflexivity. Qed.
Example test_Algorithms_264 :
  get_codepoint_pos [x41; x42; xc2; xa3; xc6; x92; x43; x44; xe2; x80; xb9; xc3; x9f; xe2; x88; x82; x47; x48; x52] 12 = Ok 19.
Proof. vm_compute; reflexivity. Qed.
Example test_Algorithms_265 :
  get_codepoint_pos [x41; x42; xc2; xa3; xc6; x92; x43; x44; xe2; x80; xb9; xc3; x9f; xe2; x88; x82; x47; x48; x52] 13 = Ok npos.
Proof. vm_compute; reflexivity. Qed.
Example test_Algorithms_266 :
  get_codepoint_pos [x41; x42; xc2; xa3; xc6; x92; x43; x44; xe2; x80; xb9; xc3; x9f; xe2; x88; x82; x47; x48; x52] (-1) = Ok 18.
Proof. vm_compute; reflexivity. Qed.
Example test_Algorithms_267 :
  get_codepoint_pos [x41; x42; xc2; xa3; xc6; x92; x43; x44; xe2; x80; xb9; xc3; x9f; xe2; x88; x82; x47; x48; x52] (-4) = Ok 13.
Proof. vm_compute; reflexivity. Qed.
Example test_Algorithms_268 :
  get_codepoint_pos [x41; x42; xc2; xa3; xc6; x92; x43; x44; xe2; x80; xb9; xc3; x9f; xe2; x88; x82; x47; x48; x52] (-12) = Ok 0.
Proof. vm_compute; reflexivity. Qed.
Example test_Algorithms_269 :
  get_codepoint_pos [x41; x42; xc2; xa3; xc6; x92; x43; x44; xe2; x80; xb9; xc3; x9f; xe2; x88; x82; x47; x48; x52] (-13) = Ok npos.
Proof. vm_compute; reflexivity. Qed.
Example test_Algorithms_274 :
  get_codepoint_substring [x41; x42; x43; x44; xc3; x86; xc3; x98; xc3; x85; xc3; xa6; xc3; xb8; xc3; xa5; xe2; x82; xac; xc2; xb5] 0 0 = Ok [].
Proof. vm_compute; reflexivity. Qed.
Example test_Algorithms_275 :
  get_codepoint_substring [x41; x42; x43; x44; xc3; x86; xc3; x98; xc3; x85; xc3; xa6; xc3; xb8; xc3; xa5; xe2; x82; xac; xc2; xb5] 0 5 = Ok [x41; x42; x43; x44; xc3; x86].
Proof. vm_compute; reflexivity. Qed.
Example test_Algorithms_276 :
  get_codepoint_substring [x41; x42; x43; x44; xc3; x86; xc3; x98; xc3; x85; xc3; xa6; xc3; xb8; xc3; xa5; xe2; x82; xac; xc2; xb5] 8 PTRDIFF_MAX = Ok [xc3; xb8; xc3; xa5; xe2; x82; xac; xc2; xb5].
Proof. vm_compute; reflexivity. Qed.
Example test_Algorithms_277 :
  get_codepoint_substring [x41; x42; x43; x44; xc3; x86; xc3; x98; xc3; x85; xc3; xa6; xc3; xb8; xc3; xa5; xe2; x82; xac; xc2; xb5] 8 12 = Ok [xc3; xb8; xc3; xa5; xe2; x82; xac; xc2; xb5].
Proof. vm_compute; reflexivity. Qed.
Example test_Algorithms_278 :
  get_codepoint_substring [x41; x42; x43; x44; xc3; x86; xc3; x98; xc3; x85; xc3; xa6; xc3; xb8; xc3; xa5; xe2; x82; xac; xc2; xb5] 8 13 = Ok [xc3; xb8; xc3; xa5; xe2; x82; xac; xc2; xb5].
Proof. vm_compute; reflexivity. Qed.
Example test_Algorithms_279 :
  get_codepoint_substring [x41; x42; x43; x44; xc3; x86; xc3; x98; xc3; x85; xc3; xa6; xc3; xb8; xc3; xa5; xe2; x82; xac; xc2; xb5] 8 7 = Ok [].
Proof. vm_compute; reflexivity. Qed.
Example test_Algorithms_280 :
  get_codepoint_substring [x41; x42; x43; x44; xc3; x86; xc3; x98; xc3; x85; xc3; xa6; xc3; xb8; xc3; xa5; xe2; x82; xac; xc2; xb5] 12 13 = Ok [].
Proof. vm_compute; reflexivity. Qed.
Example test_Algorithms_281 :
  get_codepoint_substring [x41; x42; x43; x44; xc3; x86; xc3; x98; xc3; x85; xc3; xa6; xc3; xb8; xc3; xa5; xe2; x82; xac; xc2; xb5] 13 14 = Ok [].
Proof. vm_compute; reflexivity. Qed.
Example test_Algorithms_282 :
  get_codepoint_substring [x41; x42; x43; x44; xc3; x86; xc3; x98; xc3; x85; xc3; xa6; xc3; xb8; xc3; xa5; xe2; x82; xac; xc2; xb5] (-4) PTRDIFF_MAX = Ok [xc3; xb8; xc3; xa5; xe2; x82; xac; xc2; xb5].
Proof. vm_compute; reflexivity. Qed.
Example test_Algorithms_283 :
  get_codepoint_substring [x41; x42; x43; x44; xc3; x86; xc3; x98; xc3; x85; xc3; xa6; xc3; xb8; xc3; xa5; xe2; x82; xac; xc2; xb5] (-100) 5 = Ok [x41; x42; x43; x44; xc3; x86].
Proof. vm_compute; reflexivity. Qed.
Example test_Algorithms_284 :
  get_codepoint_substring [x41; x42; x43; x44; xc3; x86; xc3; x98; xc3; x85; xc3; xa6; xc3; xb8; xc3; xa5; xe2; x82; xac; xc2; xb5] (-4) (-1) = Ok [xc3; xb8; xc3; xa5; xe2; x82; xac].
Proof. vm_compute; reflexivity. Qed.
Example test_Algorithms_285 :
  get_codepoint_substring [x41; x42; x43; x44; xc3; x86; xc3; x98; xc3; x85; xc3; xa6; xc3; xb8; xc3; xa5; xe2; x82; xac; xc2; xb5] 2 (-2) = Ok [x43; x44; xc3; x86; xc3; x98; xc3; x85; xc3; xa6; xc3; xb8; xc3; xa5].
Proof. vm_compute; reflexivity. Qed.
Example test_Algorithms_290 :
  get_next_char_range [x41; xe2; x80; xa0; xc2; xb5] 1 = Ok (Sub 1 3).
Proof. vm_compute; reflexivity. Qed.
Example test_Algorithms_291 :
  get_next_char_range [x50; xcc; x90; x73] 0 = Ok (Sub 0 3).
Proof. vm_compute; reflexivity. Qed.
Example test_Algorithms_292 :
  get_next_char_range [x50; xcc; x90; x73] 3 = Ok (Sub 3 1).
Proof. vm_compute; reflexivity. Qed.
Example test_Algorithms_297 :
  get_prev_char_range [x41; xe2; x80; xa0; xc2; xb5] 4 = Ok (Sub 1 3).
Proof. vm_compute; reflexivity. Qed.
Example test_Algorithms_298 :
  get_prev_char_range [x50; xcc; x90; x73] 4 = Ok (Sub 3 1).
Proof. vm_compute; reflexivity. Qed.
Example test_Algorithms_299 :
  get_prev_char_range [x50; xcc; x90; x73] 3 = Ok (Sub 0 3).
Proof. vm_compute; reflexivity. Qed.
Example test_Algorithms_300 :
  exists x, get_prev_char_range [x50; xcc; x90; x73] 2 = Throw x.
Proof. repeat (eexists || split); vm_compute; reflexivity. Qed.
Example test_Algorithms_305 :
  insert_char [x50; xce; xa9; xcc; x90; x73; xc3; x85] 0 216 = Ok [xc3; x98; x50; xce; xa9; xcc; x90; x73; xc3; x85].
Proof. vm_compute; reflexivity. Qed.
Example test_Algorithms_306 :
  insert_char [x50; xce; xa9; xcc; x90; x73; xc3; x85] 3 216 = Ok [x50; xce; xa9; xcc; x90; x73; xc3; x98; xc3; x85].
Proof. vm_compute; reflexivity. Qed.
Example test_Algorithms_307 :
  insert_char [x50; xce; xa9; xcc; x90; x73; xc3; x85] 4 216 = Ok [x50; xce; xa9; xcc; x90; x73; xc3; x85; xc3; x98].
Proof. vm_compute; reflexivity. Qed.
Example test_Algorithms_308 :
  exists x, insert_char [x50; xce; xa9; xcc; x90; x73; xc3; x85] 5 216 = Throw x.
Proof. repeat (eexists || split); vm_compute; reflexivity. Qed.
Example test_Algorithms_309 :
  insert_char [x50; xce; xa9; xcc; x90; x73; xc3; x85] (-3) 216 = Ok [x50; xc3; x98; xce; xa9; xcc; x90; x73; xc3; x85].
Proof. vm_compute; reflexivity. Qed.
Example test_Algorithms_314 :
  insert_chars [x50; xce; xa9; xcc; x90; x73; xc3; x85] 0 [xc3; xa6; xc3; x98; xc3; xa5] = Ok [xc3; xa6; xc3; x98; xc3; xa5; x50; xce; xa9; xcc; x90; x73; xc3; x85].
Proof. vm_compute; reflexivity. Qed.
Example test_Algorithms_315 :
  insert_chars [x50; xce; xa9; xcc; x90; x73; xc3; x85] 3 [xc3; xa6; xc3; x98; xc3; xa5] = Ok [x50; xce; xa9; xcc; x90; x73; xc3; xa6; xc3; x98; xc3; xa5; xc3; x85].
Proof. vm_compute; reflexivity. Qed.
Example test_Algorithms_316 :
  insert_chars [x50; xce; xa9; xcc; x90; x73; xc3; x85] 4 [xc3; xa6; xc3; x98; xc3; xa5] = Ok [x50; xce; xa9; xcc; x90; x73; xc3; x85; xc3; xa6; xc3; x98; xc3; xa5].
Proof. vm_compute; reflexivity. Qed.
Example test_Algorithms_317 :
  exists x, insert_chars [x50; xce; xa9; xcc; x90; x73; xc3; x85] 5 [xc3; xa6; xc3; x98; xc3; xa5] = Throw x.
Proof. repeat (eexists || split); vm_compute; reflexivity. Qed.
Example test_Algorithms_318 :
  insert_chars [x50; xce; xa9; xcc; x90; x73; xc3; x85] (-3) [xc3; xa6; xc3; x98; xc3; xa5] = Ok [x50; xc3; xa6; xc3; x98; xc3; xa5; xce; xa9; xcc; x90; x73; xc3; x85].
Proof. vm_compute; reflexivity. Qed.
Example test_Algorithms_323 :
  insert_codepoint [x41; x42; xc2; xa3; xc6; x92; x43; x44; xe2; x80; xb9; xc3; x9f] 0 197 = Ok [xc3; x85; x41; x42; xc2; xa3; xc6; x92; x43; x44; xe2; x80; xb9; xc3; x9f].
Proof. vm_compute; reflexivity. Qed.
Example test_Algorithms_324 :
  insert_codepoint [x41; x42; xc2; xa3; xc6; x92; x43; x44; xe2; x80; xb9; xc3; x9f] 3 197 = Ok [x41; x42; xc2; xa3; xc3; x85; xc6; x92; x43; x44; xe2; x80; xb9; xc3; x9f].
Proof. vm_compute; reflexivity. Qed.
Example test_Algorithms_325 :
  insert_codepoint [x41; x42; xc2; xa3; xc6; x92; x43; x44; xe2; x80; xb9; xc3; x9f] 8 197 = Ok [x41; x42; xc2; xa3; xc6; x92; x43; x44; xe2; x80; xb9; xc3; x9f; xc3; x85].
Proof. vm_compute; reflexivity. Qed.
Example test_Algorithms_326 :
  exists x, insert_codepoint [x41; x42; xc2; xa3; xc6; x92; x43; x44; xe2; x80; xb9; xc3; x9f] 9 197 = Throw x.
Proof. repeat (eexists || split); vm_compute; reflexivity. Qed.
Example test_Algorithms_327 :
  insert_codepoint [x41; x42; xc2; xa3; xc6; x92; x43; x44; xe2; x80; xb9; xc3; x9f] (-1) 197 = Ok [x41; x42; xc2; xa3; xc6; x92; x43; x44; xe2; x80; xb9; xc3; x85; xc3; x9f].
Proof. vm_compute; reflexivity. Qed.
Example test_Algorithms_332 :
  insert_codepoints [x41; x42; xc2; xa3; xc6; x92; x43; x44; xe2; x80; xb9; xc3; x9f] 0 [xc3; x98; xc3; x86; xc3; x85] = Ok [xc3; x98; xc3; x86; xc3; x85; x41; x42; xc2; xa3; xc6; x92; x43; x44; xe2; x80; xb9; xc3; x9f].
Proof. vm_compute; reflexivity. Qed.
Example test_Algorithms_333 :
  insert_codepoints [x41; x42; xc2; xa3; xc6; x92; x43; x44; xe2; x80; xb9; xc3; x9f] 3 [xc3; x98; xc3; x86; xc3; x85] = Ok [x41; x42; xc2; xa3; xc3; x98; xc3; x86; xc3; x85; xc6; x92; x43; x44; xe2; x80; xb9; xc3; x9f].
Proof. vm_compute; reflexivity. Qed.
Example test_Algorithms_334 :
  insert_codepoints [x41; x42; xc2; xa3; xc6; x92; x43; x44; xe2; x80; xb9; xc3; x9f] 8 [xc3; x98; xc3; x86; xc3; x85] = Ok [x41; x42; xc2; xa3; xc6; x92; x43; x44; xe2; x80; xb9; xc3; x9f; xc3; x98; xc3; x86; xc3; x85].
Proof. vm_compute; reflexivity. Qed.
Example test_Algorithms_335 :
  exists x, insert_codepoints [x41; x42; xc2; xa3; xc6; x92; x43; x44; xe2; x80; xb9; xc3; x9f] 9 [xc3; x98; xc3; x86; xc3; x85] = Throw x.
Proof. repeat (eexists || split); vm_compute; reflexivity. Qed.
Example test_Algorithms_336 :
  insert_codepoints [x41; x42; xc2; xa3; xc6; x92; x43; x44; xe2; x80; xb9; xc3; x9f] (-1) [xc3; x98; xc3; x86; xc3; x85] = Ok [x41; x42; xc2; xa3; xc6; x92; x43; x44; xe2; x80; xb9; xc3; x98; xc3; x86; xc3; x85; xc3; x9f].
Proof. vm_compute; reflexivity. Qed.
Example test_Algorithms_341 :
  is_valid_utf8 [x41; x42; xc2; xa3; xc6; x92; x43; x44; xe2; x80; xb9; xc3; x9f] = Ok true.
Proof. vm_compute; reflexivity. Qed.
Example test_Algorithms_342 :
  is_valid_utf8 [x51; xf0; xca; xca; x5a] = Ok false.
Proof. vm_compute; reflexivity. Qed.
Example test_Algorithms_348 :
  join [] [x2c; x20] = [].
Proof. vm_compute; reflexivity. Qed.
Example test_Algorithms_349 :
  join [[x4c; x6f; x72; x65; x6d]; [x69; x70; x73; x75; x6d]; [x64; x6f; x6c; x6f; x72]; [x73; x69; x74]; [x61; x6d; x65; x74]] [x2c; x20] = [x4c; x6f; x72; x65; x6d; x2c; x20; x69; x70; x73; x75; x6d; x2c; x20; x64; x6f; x6c; x6f; x72; x2c; x20; x73; x69; x74; x2c; x20; x61; x6d; x65; x74].
Proof. vm_compute; reflexivity. Qed.
Example test_Algorithms_355 :
  replace [x61; x62; x63; x20; x64; x65; x20; x66; x67; x68; x20; x64; x65; x20; x69] [x64; x65] [xc3; xb8; xc3; xa5] PTRDIFF_MAX = Ok [x61; x62; x63; x20; xc3; xb8; xc3; xa5; x20; x66; x67; x68; x20; xc3; xb8; xc3; xa5; x20; x69].
Proof. vm_compute; reflexivity. Qed.
Example test_Algorithms_356 :
  replace [x61; x62; x63; x20; x64; x65; x20; x66; x67; x68; x20; x64; x65; x20; x69] [x64; x65] [xc3; xb8; xc3; xa5] 1 = Ok [x61; x62; x63; x20; xc3; xb8; xc3; xa5; x20; x66; x67; x68; x20; x64; x65; x20; x69].
Proof. vm_compute; reflexivity. Qed.
Example test_Algorithms_357 :
  replace [x61; x62; x63; x20; x64; x65; x20; x66; x67; x68; x20; x64; x65; x20; x69] [x64; x65] [xc3; xb8; xc3; xa5] (-2) = Ok [x61; x62; x63; x20; xc3; xb8; xc3; xa5; x20; x66; x67; x68; x20; xc3; xb8; xc3; xa5; x20; x69].
Proof. vm_compute; reflexivity. Qed.
Example test_Algorithms_362 :
  replace_chars [x41; x42; xcc; x90; xc3; x86; xc3; x98; xc3; x85; xc3; xa4; xc3; xb6; xe2; x80; xa2] 3 6 [xe2; x88; x9a; xc6; x92] = Ok [x41; x42; xcc; x90; xc3; x86; xe2; x88; x9a; xc6; x92; xc3; xb6; xe2; x80; xa2].
Proof. vm_compute; reflexivity. Qed.
Example test_Algorithms_363 :
  replace_chars [x41; x42; xcc; x90; xc3; x86; xc3; x98; xc3; x85; xc3; xa4; xc3; xb6; xe2; x80; xa2] (-12) (-1) [xe2; x88; x9a; xc6; x92] = Ok [xe2; x88; x9a; xc6; x92; xe2; x80; xa2].
Proof. vm_compute; reflexivity. Qed.
Example test_Algorithms_364 :
  replace_chars [x41; x42; xcc; x90; xc3; x86; xc3; x98; xc3; x85; xc3; xa4; xc3; xb6; xe2; x80; xa2] 3 100 [xe2; x88; x9a; xc6; x92] = Ok [x41; x42; xcc; x90; xc3; x86; xe2; x88; x9a; xc6; x92].
Proof. vm_compute; reflexivity. Qed.
Example test_Algorithms_369 :
  replace_codepoints [x41; x42; xc3; x86; xc3; x98; xc3; x85; xc3; xa4; xc3; xb6; xe2; x80; xa2] 3 6 [xe2; x88; x9a; xc6; x92] = Ok [x41; x42; xc3; x86; xe2; x88; x9a; xc6; x92; xc3; xb6; xe2; x80; xa2].
Proof. vm_compute; reflexivity. Qed.
Example test_Algorithms_370 :
  replace_codepoints [x41; x42; xc3; x86; xc3; x98; xc3; x85; xc3; xa4; xc3; xb6; xe2; x80; xa2] (-12) (-1) [xe2; x88; x9a; xc6; x92] = Ok [xe2; x88; x9a; xc6; x92; xe2; x80; xa2].
Proof. vm_compute; reflexivity. Qed.
Example test_Algorithms_371 :
  replace_codepoints [x41; x42; xc3; x86; xc3; x98; xc3; x85; xc3; xa4; xc3; xb6; xe2; x80; xa2] 3 100 [xe2; x88; x9a; xc6; x92] = Ok [x41; x42; xc3; x86; xe2; x88; x9a; xc6; x92].
Proof. vm_compute; reflexivity. Qed.
Example test_Algorithms_376 :
  replace_codepoint [xc3; x98; x62; x6b; xc3; xb8; x61; xc3; xb8; x68; x6a; xc3; xb8; x64] 248 223 PTRDIFF_MAX = Ok [xc3; x98; x62; x6b; xc3; x9f; x61; xc3; x9f; x68; x6a; xc3; x9f; x64].
Proof. vm_compute; reflexivity. Qed.
Example test_Algorithms_377 :
  replace_codepoint [xc3; x98; x62; x6b; xc3; xb8; x61; xc3; xb8; x68; x6a; xc3; xb8; x64] 248 223 2 = Ok [xc3; x98; x62; x6b; xc3; x9f; x61; xc3; x9f; x68; x6a; xc3; xb8; x64].
Proof. vm_compute; reflexivity. Qed.
Example test_Algorithms_378 :
  replace_codepoint [xc3; x98; x62; x6b; xc3; xb8; x61; xc3; xb8; x68; x6a; xc3; xb8; x64] 248 223 (-2) = Ok [xc3; x98; x62; x6b; xc3; xb8; x61; xc3; x9f; x68; x6a; xc3; x9f; x64].
Proof. vm_compute; reflexivity. Qed.
Example test_Algorithms_383 :
  replace_invalid_utf8 [] 402 = Ok [].
Proof. vm_compute; reflexivity. Qed.
Example test_Algorithms_384 :
  replace_invalid_utf8 [xc3; x98; x62; x6b; xc3; xa6; xc3; xb8] 402 = Ok [xc3; x98; x62; x6b; xc3; xa6; xc3; xb8].
Proof. vm_compute; reflexivity. Qed.
Example test_Algorithms_385 :
  replace_invalid_utf8 [xc3; x98; x62; x6b; xe0; xaf; xc3; xa6; xc3; xb8] 402 = Ok [xc3; x98; x62; x6b; xc6; x92; xc3; xa6; xc3; xb8].
Proof. vm_compute; reflexivity. Qed.
Example test_Algorithms_391 :
  replace_invalid_utf8_inplace [xc3; x98; x62; x6b; xe0; xaf; xc3; xa6; xc3; xb8] 8482 = Ok [xc3; x98; x62; x6b; xe2; x84; xa2; xc3; xa6; xc3; xb8].
Proof. vm_compute; reflexivity. Qed.
Example test_Algorithms_392 :
  replace_invalid_utf8_inplace [xc3; x98; x62; x6b; xe2; x84; xa2; xc3; xa6; xc3; xb8] 8482 = Ok [xc3; x98; x62; x6b; xe2; x84; xa2; xc3; xa6; xc3; xb8].
Proof. vm_compute; reflexivity. Qed.
Example test_Algorithms_398 :
  reverse [x50; xcc; x90; x73] = Ok [x73; x50; xcc; x90].
Proof. vm_compute; reflexivity. Qed.
Example test_Algorithms_409 :
  split_chars [xc3; x85; x41; x42; xc3; x98; x51; x43; x44; xc3; x86] [198; 216; 197; 81] SIZE_MAX false = Ok [[]; [x41; x42]; []; [x43; x44]; []].
Proof. vm_compute; reflexivity. Qed.
Example test_Algorithms_410 :
  split_chars [xc3; x85; x41; x42; xc3; x98; x51; x43; x44; xc3; x86] [198; 216; 197; 81] SIZE_MAX true = Ok [[x41; x42]; [x43; x44]].
Proof. vm_compute; reflexivity. Qed.
Example test_Algorithms_411 :
  split_chars [xc3; x85; x41; x42; xc3; x98; x51; x43; x44; xc3; x86] [198; 216; 197; 81] 2 false = Ok [[]; [x41; x42]; [x51; x43; x44; xc3; x86]].
Proof. vm_compute; reflexivity. Qed.
Example test_Algorithms_412 :
  split_chars [xc3; x85; x41; x42; xc3; x98; x51; x43; x44; xc3; x86] [198; 216; 197; 81] 1 true = Ok [[x41; x42]; [x51; x43; x44; xc3; x86]].
Proof. vm_compute; reflexivity. Qed.
Example test_Algorithms_413 :
  split_chars [xc3; x85; x41; x42; xc3; x98; x51; x43; x44; xc3; x86] [198; 216; 197; 81] 2 true = Ok [[x41; x42]; [x43; x44]].
Proof. vm_compute; reflexivity. Qed.
Example test_Algorithms_418 :
  split_sep [x42; xc3; x98; x41; x42; x43; x20; x42; xc3; x98; x42; xc3; x98; x20; x63; x66; x67; xc3; xa5; x20; x42; xc3; x98] [x42; xc3; x98] SIZE_MAX false = Ok [[]; [x41; x42; x43; x20]; []; [x20; x63; x66; x67; xc3; xa5; x20]; []].
Proof. vm_compute; reflexivity. Qed.
Example test_Algorithms_419 :
  split_sep [x42; xc3; x98; x41; x42; x43; x20; x42; xc3; x98; x42; xc3; x98; x20; x63; x66; x67; xc3; xa5; x20; x42; xc3; x98] [x42; xc3; x98] SIZE_MAX true = Ok [[x41; x42; x43; x20]; [x20; x63; x66; x67; xc3; xa5; x20]].
Proof. vm_compute; reflexivity. Qed.
Example test_Algorithms_420 :
  split_sep [x42; xc3; x98; x41; x42; x43; x20; x42; xc3; x98; x42; xc3; x98; x20; x63; x66; x67; xc3; xa5; x20; x42; xc3; x98] [x42; xc3; x98] 3 false = Ok [[]; [x41; x42; x43; x20]; []; [x20; x63; x66; x67; xc3; xa5; x20; x42; xc3; x98]].
Proof. vm_compute; reflexivity. Qed.
Example test_Algorithms_425 :
  ci_split_sep [x42; xc3; x98; x41; x42; x43; x20; x42; xc3; xb8; x62; xc3; x98; x20; x63; x66; x67; xc3; xa5; x20; x62; xc3; x98] [x42; xc3; xb8] SIZE_MAX false = Ok [[]; [x41; x42; x43; x20]; []; [x20; x63; x66; x67; xc3; xa5; x20]; []].
Proof. vm_compute; reflexivity. Qed.
Example test_Algorithms_430 :
  split_lines [0] [x0a; x41; x42; x43; x0d; x0a; x0d; x63; x66; x67; xc3; xa5; x0a] SIZE_MAX false = Ok [[]; [x41; x42; x43]; []; [x63; x66; x67; xc3; xa5]; []].
Proof. vm_compute; reflexivity. Qed.
Example test_Algorithms_431 :
  split_lines [0] [x0a; x41; x42; x43; x0d; x0a; x0d; x63; x66; x67; xc3; xa5; x0a] SIZE_MAX true = Ok [[x41; x42; x43]; [x63; x66; x67; xc3; xa5]].
Proof. vm_compute; reflexivity. Qed.
Example test_Algorithms_432 :
  split_lines [0] [x0a; x41; x42; x43; x0d; x0a; x0d; x63; x66; x67; xc3; xa5; x0a] 2 false = Ok [[]; [x41; x42; x43]; [x0d; x63; x66; x67; xc3; xa5; x0a]].
Proof. vm_compute; reflexivity. Qed.
Example test_Algorithms_433 :
  split_lines [0] [x0a; x41; x42; x43; x0d; x0a; x0d; x63; x66; x67; xc3; xa5; x0a] 1 true = Ok [[x41; x42; x43]; [x0d; x63; x66; x67; xc3; xa5; x0a]].
Proof. vm_compute; reflexivity. Qed.
Example test_Algorithms_438 :
  starts_with [x42; xc3; x98; x41; x42; x43; x20; x42; xc3; x98; x42; xc3; x98; x20; x63; x66; x67; xc3; xa5; x20; x42; xc3; x98] [x42; xc3; x98; x41] = Ok true.
Proof. vm_compute; reflexivity. Qed.
Example test_Algorithms_439 :
  starts_with [x42; xc3; x98; x41; x42; x43; x20; x42; xc3; x98; x42; xc3; x98; x20; x63; x66; x67; xc3; xa5; x20; x42; xc3; x98] [x42; xc3; x98; x41; x44] = Ok false.
Proof. vm_compute; reflexivity. Qed.
Example test_Algorithms_440 :
  starts_with [x42; xc3; x98; x41; x42; x43] [x42; xc3; x98; x41; x42; x43] = Ok true.
Proof. vm_compute; reflexivity. Qed.
Example test_Algorithms_441 :
  starts_with [x42; xc3; x98; x41; x42; x43] [x42; xc3; x98; x41; x42; x43; x45] = Ok false.
Proof. vm_compute; reflexivity. Qed.
Example test_Algorithms_448 :
  trim [] [32; 216; 248] = Ok [].
Proof. vm_compute; reflexivity. Qed.
Example test_Algorithms_449 :
  trim [x66; x20; x6f; xc3; xb8; x6f] [32; 216; 248] = Ok [x66; x20; x6f; xc3; xb8; x6f].
Proof. vm_compute; reflexivity. Qed.
Example test_Algorithms_450 :
  trim [x20; xc3; xb8; x66; x20; x6f; xc3; xb8; x6f] [32; 216; 248] = Ok [x66; x20; x6f; xc3; xb8; x6f].
Proof. vm_compute; reflexivity. Qed.
Example test_Algorithms_451 :
  trim [x66; x20; x6f; xc3; xb8; x6f; x20; xc3; x98] [32; 216; 248] = Ok [x66; x20; x6f; xc3; xb8; x6f].
Proof. vm_compute; reflexivity. Qed.
Example test_Algorithms_452 :
  trim [x20; xc3; xb8; x66; x20; x6f; xc3; xb8; x6f; x20; xc3; x98] [32; 216; 248] = Ok [x66; x20; x6f; xc3; xb8; x6f].
Proof. vm_compute; reflexivity. Qed.
Example test_Algorithms_459 :
  trim_end [] [32; 216; 248] = Ok [].
Proof. vm_compute; reflexivity. Qed.
Example test_Algorithms_460 :
  trim_end [x66; x20; x6f; xc3; xb8; x6f] [32; 216; 248] = Ok [x66; x20; x6f; xc3; xb8; x6f].
Proof. vm_compute; reflexivity. Qed.
Example test_Algorithms_461 :
  trim_end [x20; xc3; xb8; x66; x20; x6f; xc3; xb8; x6f] [32; 216; 248] = Ok [x20; xc3; xb8; x66; x20; x6f; xc3; xb8; x6f].
Proof. vm_compute; reflexivity. Qed.
Example test_Algorithms_462 :
  trim_end [x66; x20; x6f; xc3; xb8; x6f; x20; xc3; x98] [32; 216; 248] = Ok [x66; x20; x6f; xc3; xb8; x6f].
Proof. vm_compute; reflexivity. Qed.
Example test_Algorithms_463 :
  trim_end [x20; xc3; xb8; x66; x20; x6f; xc3; xb8; x6f; x20; xc3; x98] [32; 216; 248] = Ok [x20; xc3; xb8; x66; x20; x6f; xc3; xb8; x6f].
Proof. vm_compute; reflexivity. Qed.
Example test_Algorithms_470 :
  trim_start [] [32; 216; 248] = Ok [].
Proof. vm_compute; reflexivity. Qed.
Example test_Algorithms_471 :
  trim_start [x66; x20; x6f; xc3; xb8; x6f] [32; 216; 248] = Ok [x66; x20; x6f; xc3; xb8; x6f].
Proof. vm_compute; reflexivity. Qed.
Example test_Algorithms_472 :
  trim_start [x20; xc3; xb8; x66; x20; x6f; xc3; xb8; x6f] [32; 216; 248] = Ok [x66; x20; x6f; xc3; xb8; x6f].
Proof. vm_compute; reflexivity. Qed.
Example test_Algorithms_473 :
  trim_start [x66; x20; x6f; xc3; xb8; x6f; x20; xc3; x98] [32; 216; 248] = Ok [x66; x20; x6f; xc3; xb8; x6f; x20; xc3; x98].
Proof. vm_compute; reflexivity. Qed.
Example test_Algorithms_474 :
  trim_start [x20; xc3; xb8; x66; x20; x6f; xc3; xb8; x6f; x20; xc3; x98] [32; 216; 248] = Ok [x66; x20; x6f; xc3; xb8; x6f; x20; xc3; x98].
Proof. vm_compute; reflexivity. Qed.
(** ** tests/YstringTest/test_CharClass.cpp *)
Example test_CharClass_13 :
  get_char_class 125251 = Ok CharClass.LOWERCASE_LETTER.
Proof. vm_compute; reflexivity. Qed.
Example test_CharClass_14 :
  get_char_class 125252 = Ok CharClass.NONSPACING_MARK.
Proof. vm_compute; reflexivity. Qed.
Example test_CharClass_15 :
  get_char_class 125258 = Ok CharClass.NONSPACING_MARK.
Proof. vm_compute; reflexivity. Qed.
Example test_CharClass_16 :
  get_char_class 125259 = Ok CharClass.MODIFIER_LETTER.
Proof. vm_compute; reflexivity. Qed.
Example test_CharClass_21 :
  get_char_class 7693 = Ok CharClass.LOWERCASE_LETTER.
Proof. vm_compute; reflexivity. Qed.
Example test_CharClass_22 :
  get_char_class 7694 = Ok CharClass.UPPERCASE_LETTER.
Proof. vm_compute; reflexivity. Qed.
Example test_CharClass_30 :
  get_char_class 192 = Ok CharClass.UPPERCASE_LETTER.
Proof. vm_compute; reflexivity. Qed.
Example test_CharClass_31 :
  get_char_class 214 = Ok CharClass.UPPERCASE_LETTER.
Proof. vm_compute; reflexivity. Qed.
Example test_CharClass_32 :
  get_char_class 215 = Ok CharClass.MATH_SYMBOL.
Proof. vm_compute; reflexivity. Qed.
Example test_CharClass_37 :
  get_char_class 65 = Ok CharClass.UPPERCASE_LETTER.
Proof. vm_compute; reflexivity. Qed.
(** ** tests/YstringTest/test_ConvertCase.cpp *)
Example test_ConvertCase_15 :
  to_upper 97 = 65.
Proof. vm_compute; reflexivity. Qed.
Example test_ConvertCase_16 :
  to_upper 90 = 90.
Proof. vm_compute; reflexivity. Qed.
Example test_ConvertCase_17 :
  to_upper 32 = 32.
Proof. vm_compute; reflexivity. Qed.
Example test_ConvertCase_22 :
  to_lower 97 = 97.
Proof. vm_compute; reflexivity. Qed.
Example test_ConvertCase_23 :
  to_lower 90 = 122.
Proof. vm_compute; reflexivity. Qed.
Example test_ConvertCase_24 :
  to_lower 32 = 32.
Proof. vm_compute; reflexivity. Qed.
Example test_ConvertCase_29 :
  to_lower 227 = 227.
Proof. vm_compute; reflexivity. Qed.
Example test_ConvertCase_30 :
  to_lower 195 = 227.
Proof. vm_compute; reflexivity. Qed.
Example test_ConvertCase_31 :
  to_upper 227 = 195.
Proof. vm_compute; reflexivity. Qed.
Example test_ConvertCase_32 :
  to_upper 195 = 195.
Proof. vm_compute; reflexivity. Qed.
Example test_ConvertCase_33 :
  to_title 227 = 195.
Proof. vm_compute; reflexivity. Qed.
Example test_ConvertCase_34 :
  to_title 195 = 195.
Proof. vm_compute; reflexivity. Qed.
Example test_ConvertCase_39 :
  to_lower_str [x41; x62; x63; x44; x20; xc3; x86; xc3; x98; xc3; x85; x2e] = Ok [x61; x62; x63; x64; x20; xc3; xa6; xc3; xb8; xc3; xa5; x2e].
Proof. vm_compute; reflexivity. Qed.
Example test_ConvertCase_44 :
  to_title_str [x41; x42; x43; x44; x20; xc3; xa6; xc3; xb8; xc3; xa5; x2e] = Ok [x41; x62; x63; x64; x20; xc3; x86; xc3; xb8; xc3; xa5; x2e].
Proof. vm_compute; reflexivity. Qed.
Example test_ConvertCase_45 :
  to_title_str [x41; x42; x43; x44; x20; xc3; xa6; xc3; xb8; xc3; xa5; x20; xc3; x9f; xc3; x9f; x2e] = Ok [x41; x62; x63; x64; x20; xc3; x86; xc3; xb8; xc3; xa5; x20; x53; x73; xc3; x9f; x2e].
Proof. vm_compute; reflexivity. Qed.
Example test_ConvertCase_50 :
  to_upper_str [x41; x62; x43; x44; x20; xc3; xa6; xc3; xb8; xc3; xa5; x2e] = Ok [x41; x42; x43; x44; x20; xc3; x86; xc3; x98; xc3; x85; x2e].
Proof. vm_compute; reflexivity. Qed.
Example test_ConvertCase_51 :
  to_upper_str [x44; x61; xc3; x9f; x2e] = Ok [x44; x41; x53; x53; x2e].
Proof. vm_compute; reflexivity. Qed.
(** ** tests/YstringTest/test_DecodeUtf8.cpp *)
Example test_DecodeUtf8_72 :
  decode_next [x00] 0%nat = Ok (0, 1%nat).
Proof. vm_compute; reflexivity. Qed.
Example test_DecodeUtf8_73 :
  decode_next [x41] 0%nat = Ok (65, 1%nat).
Proof. vm_compute; reflexivity. Qed.
Example test_DecodeUtf8_74 :
  decode_next [x7f] 0%nat = Ok (127, 1%nat).
Proof. vm_compute; reflexivity. Qed.
Example test_DecodeUtf8_75 :
  decode_next [xc1; x80] 0%nat = Ok (64, 2%nat).
Proof. vm_compute; reflexivity. Qed.
Example test_DecodeUtf8_76 :
  decode_next [xdf; xbf] 0%nat = Ok (2047, 2%nat).
Proof. vm_compute; reflexivity. Qed.
Example test_DecodeUtf8_77 :
  decode_next [xe0; xa0; x80] 0%nat = Ok (2048, 3%nat).
Proof. vm_compute; reflexivity. Qed.
Example test_DecodeUtf8_78 :
  decode_next [xef; xbf; xbf] 0%nat = Ok (65535, 3%nat).
Proof. vm_compute; reflexivity. Qed.
Example test_DecodeUtf8_79 :
  decode_next [xf0; x90; x80; x80] 0%nat = Ok (65536, 4%nat).
Proof. vm_compute; reflexivity. Qed.
Example test_DecodeUtf8_80 :
  decode_next [xf7; xbf; xbf; xbf] 0%nat = Ok (2097151, 4%nat).
Proof. vm_compute; reflexivity. Qed.
Example test_DecodeUtf8_85 :
  decode_next [x40; x80] 0%nat = Ok (64, 1%nat).
Proof. vm_compute; reflexivity. Qed.
Example test_DecodeUtf8_86 :
  decode_next [xd0; x80; x80] 0%nat = Ok (1024, 2%nat).
Proof. vm_compute; reflexivity. Qed.
Example test_DecodeUtf8_87 :
  decode_next [xe8; x80; x80; x80] 0%nat = Ok (32768, 3%nat).
Proof. vm_compute; reflexivity. Qed.
Example test_DecodeUtf8_88 :
  decode_next [xf4; x80; x80; x80; x80] 0%nat = Ok (1048576, 4%nat).
Proof. vm_compute; reflexivity. Qed.
Example test_DecodeUtf8_93 :
  decode_next [] 0%nat = Ok (INVALID_CHAR, 0%nat).
Proof. vm_compute; reflexivity. Qed.
Example test_DecodeUtf8_98 :
  decode_next [x80] 0%nat = Ok (INVALID_CHAR, 0%nat).
Proof. vm_compute; reflexivity. Qed.
Example test_DecodeUtf8_99 :
  decode_next [xbf] 0%nat = Ok (INVALID_CHAR, 0%nat).
Proof. vm_compute; reflexivity. Qed.
Example test_DecodeUtf8_104 :
  decode_next [xc1] 0%nat = Ok (INVALID_CHAR, 0%nat).
Proof. vm_compute; reflexivity. Qed.
Example test_DecodeUtf8_105 :
  decode_next [xe1] 0%nat = Ok (INVALID_CHAR, 0%nat).
Proof. vm_compute; reflexivity. Qed.
Example test_DecodeUtf8_106 :
  decode_next [xe1; x80] 0%nat = Ok (INVALID_CHAR, 0%nat).
Proof. vm_compute; reflexivity. Qed.
Example test_DecodeUtf8_107 :
  decode_next [xf1] 0%nat = Ok (INVALID_CHAR, 0%nat).
Proof. vm_compute; reflexivity. Qed.
Example test_DecodeUtf8_108 :
  decode_next [xf1; x80] 0%nat = Ok (INVALID_CHAR, 0%nat).
Proof. vm_compute; reflexivity. Qed.
Example test_DecodeUtf8_109 :
  decode_next [xf1; x80; x80] 0%nat = Ok (INVALID_CHAR, 0%nat).
Proof. vm_compute; reflexivity. Qed.
Example test_DecodeUtf8_114 :
  decode_next [xf9; x80; x80; x80; x80] 0%nat = Ok (INVALID_CHAR, 0%nat).
Proof. vm_compute; reflexivity. Qed.
Example test_DecodeUtf8_115 :
  decode_next [xfd; x80; x80; x80; x80; x80] 0%nat = Ok (INVALID_CHAR, 0%nat).
Proof. vm_compute; reflexivity. Qed.
Example test_DecodeUtf8_116 :
  decode_next [xfe; xa0; x80; x80; x80; x80; x80] 0%nat = Ok (INVALID_CHAR, 0%nat).
Proof. vm_compute; reflexivity. Qed.
Example test_DecodeUtf8_117 :
  decode_next [xff; xa0; x80; x80; x80; x80; x80; x80] 0%nat = Ok (INVALID_CHAR, 0%nat).
Proof. vm_compute; reflexivity. Qed.
Example test_DecodeUtf8_122 :
  decode_prev [x00] 1%nat = Ok (0, 0%nat).
Proof. vm_compute; reflexivity. Qed.
Example test_DecodeUtf8_123 :
  decode_prev [x41] 1%nat = Ok (65, 0%nat).
Proof. vm_compute; reflexivity. Qed.
Example test_DecodeUtf8_124 :
  decode_prev [x7f] 1%nat = Ok (127, 0%nat).
Proof. vm_compute; reflexivity. Qed.
Example test_DecodeUtf8_125 :
  decode_prev [xc1; x80] 2%nat = Ok (64, 0%nat).
Proof. vm_compute; reflexivity. Qed.
Example test_DecodeUtf8_126 :
  decode_prev [xdf; xbf] 2%nat = Ok (2047, 0%nat).
Proof. vm_compute; reflexivity. Qed.
Example test_DecodeUtf8_127 :
  decode_prev [xe0; xa0; x80] 3%nat = Ok (2048, 0%nat).
Proof. vm_compute; reflexivity. Qed.
Example test_DecodeUtf8_128 :
  decode_prev [xef; xbf; xbf] 3%nat = Ok (65535, 0%nat).
Proof. vm_compute; reflexivity. Qed.
Example test_DecodeUtf8_129 :
  decode_prev [xf0; x90; x80; x80] 4%nat = Ok (65536, 0%nat).
Proof. vm_compute; reflexivity. Qed.
Example test_DecodeUtf8_130 :
  decode_prev [xf7; xbf; xbf; xbf] 4%nat = Ok (2097151, 0%nat).
Proof. vm_compute; reflexivity. Qed.
Example test_DecodeUtf8_135 :
  decode_prev [x80; x40] 2%nat = Ok (64, 1%nat).
Proof. vm_compute; reflexivity. Qed.
Example test_DecodeUtf8_136 :
  decode_prev [x80; xd0; x80] 3%nat = Ok (1024, 1%nat).
Proof. vm_compute; reflexivity. Qed.
Example test_DecodeUtf8_137 :
  decode_prev [x80; xe8; x80; x80] 4%nat = Ok (32768, 1%nat).
Proof. vm_compute; reflexivity. Qed.
Example test_DecodeUtf8_138 :
  decode_prev [x80; xf4; x80; x80; x80] 5%nat = Ok (1048576, 1%nat).
Proof. vm_compute; reflexivity. Qed.
Example test_DecodeUtf8_143 :
  decode_prev [] 0%nat = Ok (INVALID_CHAR, 0%nat).
Proof. vm_compute; reflexivity. Qed.
Example test_DecodeUtf8_148 :
  decode_prev [x80] 1%nat = Ok (INVALID_CHAR, 1%nat).
Proof. vm_compute; reflexivity. Qed.
Example test_DecodeUtf8_149 :
  decode_prev [xbf] 1%nat = Ok (INVALID_CHAR, 1%nat).
Proof. vm_compute; reflexivity. Qed.
Example test_DecodeUtf8_154 :
  decode_prev [xc1] 1%nat = Ok (INVALID_CHAR, 1%nat).
Proof. vm_compute; reflexivity. Qed.
Example test_DecodeUtf8_155 :
  decode_prev [xe1] 1%nat = Ok (INVALID_CHAR, 1%nat).
Proof. vm_compute; reflexivity. Qed.
Example test_DecodeUtf8_156 :
  decode_prev [xe1; x80] 2%nat = Ok (INVALID_CHAR, 2%nat).
Proof. vm_compute; reflexivity. Qed.
Example test_DecodeUtf8_157 :
  decode_prev [xf1] 1%nat = Ok (INVALID_CHAR, 1%nat).
Proof. vm_compute; reflexivity. Qed.
Example test_DecodeUtf8_158 :
  decode_prev [xf1; x80] 2%nat = Ok (INVALID_CHAR, 2%nat).
Proof. vm_compute; reflexivity. Qed.
Example test_DecodeUtf8_159 :
  decode_prev [xf1; x80; x80] 3%nat = Ok (INVALID_CHAR, 3%nat).
Proof. vm_compute; reflexivity. Qed.
Example test_DecodeUtf8_164 :
  decode_prev [xf9; x80; x80; x80; x80] 5%nat = Ok (INVALID_CHAR, 5%nat).
Proof. vm_compute; reflexivity. Qed.
Example test_DecodeUtf8_165 :
  decode_prev [xfd; x80; x80; x80; x80; x80] 6%nat = Ok (INVALID_CHAR, 6%nat).
Proof. vm_compute; reflexivity. Qed.
Example test_DecodeUtf8_166 :
  decode_prev [xfe; xa0; x80; x80; x80; x80; x80] 7%nat = Ok (INVALID_CHAR, 7%nat).
Proof. vm_compute; reflexivity. Qed.
(** The assertion relies on undefined behaviour: see C05.  The authors expect
    [Ok (INVALID_CHAR, 8)]. *)
Example test_DecodeUtf8_167 :
  decode_prev [xff; xa0; x80; x80; x80; x80; x80; x80] 8%nat = UB.
Proof. vm_compute; reflexivity. Qed.
Example test_DecodeUtf8_172 :
  skip_next [] 0%nat = Ok None.
Proof. vm_compute; reflexivity. Qed.
Example test_DecodeUtf8_173 :
  skip_next [x5a; x5a] 0%nat = Ok (Some 1%nat).
Proof. vm_compute; reflexivity. Qed.
Example test_DecodeUtf8_174 :
  skip_next [xe0; xa0; x80; x5a] 0%nat = Ok (Some 3%nat).
Proof. vm_compute; reflexivity. Qed.
Example test_DecodeUtf8_175 :
  skip_next [xe0; xa0; x80; x80; x80; x5a] 0%nat = Ok (Some 3%nat).
Proof. vm_compute; reflexivity. Qed.
Example test_DecodeUtf8_176 :
  skip_next [xf0; xa0; x80; x5a] 0%nat = Ok (Some 3%nat).
Proof. vm_compute; reflexivity. Qed.
Example test_DecodeUtf8_177 :
  skip_next [xf0; x5a] 0%nat = Ok (Some 1%nat).
Proof. vm_compute; reflexivity. Qed.
Example test_DecodeUtf8_178 :
  skip_next [x80; xa0; x80; x80; x80; x80; x80; x80; x5a] 0%nat = Ok (Some 8%nat).
Proof. vm_compute; reflexivity. Qed.
Example test_DecodeUtf8_179 :
  skip_next [xff; xa0; x80; x80; x80; x80; x80; x80; x5a] 0%nat = Ok (Some 8%nat).
Proof. vm_compute; reflexivity. Qed.
Example test_DecodeUtf8_180 :
  skip_next [x80; x5a] 0%nat = Ok (Some 1%nat).
Proof. vm_compute; reflexivity. Qed.
Example test_DecodeUtf8_185 :
  skip_prev [] 0%nat = Ok None.
Proof. vm_compute; reflexivity. Qed.
Example test_DecodeUtf8_186 :
  skip_prev [x41; x42] 2%nat = Ok (Some 1%nat).
Proof. vm_compute; reflexivity. Qed.
Example test_DecodeUtf8_187 :
  skip_prev [x42; x80] 2%nat = Ok (Some 1%nat).
Proof. vm_compute; reflexivity. Qed.
Example test_DecodeUtf8_188 :
  skip_prev [x42; x80; x80; x80; x80; x80; x80] 7%nat = Ok (Some 1%nat).
Proof. vm_compute; reflexivity. Qed.
Example test_DecodeUtf8_189 :
  skip_prev [xe0; x80; x80; x80; x80; x80; x80] 7%nat = Ok (Some 3%nat).
Proof. vm_compute; reflexivity. Qed.
Example test_DecodeUtf8_190 :
  skip_prev [xe0; x80; x80; x80] 4%nat = Ok (Some 3%nat).
Proof. vm_compute; reflexivity. Qed.
Example test_DecodeUtf8_191 :
  skip_prev [x41; xe0; x80; x80] 4%nat = Ok (Some 1%nat).
Proof. vm_compute; reflexivity. Qed.
Example test_DecodeUtf8_192 :
  skip_prev [x41; xf0] 2%nat = Ok (Some 1%nat).
Proof. vm_compute; reflexivity. Qed.
Example test_DecodeUtf8_193 :
  skip_prev [x41; xf0; x80] 3%nat = Ok (Some 1%nat).
Proof. vm_compute; reflexivity. Qed.
Example test_DecodeUtf8_194 :
  skip_prev [x41; xf0; x80; x80] 4%nat = Ok (Some 1%nat).
Proof. vm_compute; reflexivity. Qed.
Example test_DecodeUtf8_195 :
  skip_prev [x41; xf0; x80; x80; x80] 5%nat = Ok (Some 1%nat).
Proof. vm_compute; reflexivity. Qed.
Example test_DecodeUtf8_196 :
  skip_prev [x41; xf0; x80; x80; x80; x80] 6%nat = Ok (Some 5%nat).
Proof. vm_compute; reflexivity. Qed.
Example test_DecodeUtf8_203 :
  remove_utf8_codepoint [xc3; x86; xe2; x80; xb9; xc3; xa7; xef; xac; x81; xe2; x88; x9a; xe2; x89; x88; x42] = Ok (true, [xe2; x80; xb9; xc3; xa7; xef; xac; x81; xe2; x88; x9a; xe2; x89; x88; x42]).
Proof. vm_compute; reflexivity. Qed.
Example test_DecodeUtf8_205 :
  remove_utf8_codepoint [xe2; x80; xb9; xc3; xa7; xef; xac; x81; xe2; x88; x9a; xe2; x89; x88; x42] = Ok (true, [xc3; xa7; xef; xac; x81; xe2; x88; x9a; xe2; x89; x88; x42]).
Proof. vm_compute; reflexivity. Qed.
Example test_DecodeUtf8_207 :
  remove_utf8_codepoint [xc3; xa7; xef; xac; x81; xe2; x88; x9a; xe2; x89; x88; x42] = Ok (true, [xef; xac; x81; xe2; x88; x9a; xe2; x89; x88; x42]).
Proof. vm_compute; reflexivity. Qed.
Example test_DecodeUtf8_209 :
  remove_utf8_codepoint [xef; xac; x81; xe2; x88; x9a; xe2; x89; x88; x42] = Ok (true, [xe2; x88; x9a; xe2; x89; x88; x42]).
Proof. vm_compute; reflexivity. Qed.
Example test_DecodeUtf8_211 :
  remove_utf8_codepoint [xe2; x88; x9a; xe2; x89; x88; x42] = Ok (true, [xe2; x89; x88; x42]).
Proof. vm_compute; reflexivity. Qed.
Example test_DecodeUtf8_213 :
  remove_utf8_codepoint [xe2; x89; x88; x42] = Ok (true, [x42]).
Proof. vm_compute; reflexivity. Qed.
Example test_DecodeUtf8_215 :
  remove_utf8_codepoint [x42] = Ok (true, []).
Proof. vm_compute; reflexivity. Qed.
Example test_DecodeUtf8_217 :
  remove_utf8_codepoint [] = Ok (false, []).
Proof. vm_compute; reflexivity. Qed.
Example test_DecodeUtf8_224 :
  pop_utf8_codepoint [xc3; x86; xe2; x80; xb9; xc3; xa7; xef; xac; x81; xe2; x88; x9a; xe2; x89; x88; x42] = Ok (Some 198, [xe2; x80; xb9; xc3; xa7; xef; xac; x81; xe2; x88; x9a; xe2; x89; x88; x42]).
Proof. vm_compute; reflexivity. Qed.
Example test_DecodeUtf8_226 :
  pop_utf8_codepoint [xe2; x80; xb9; xc3; xa7; xef; xac; x81; xe2; x88; x9a; xe2; x89; x88; x42] = Ok (Some 8249, [xc3; xa7; xef; xac; x81; xe2; x88; x9a; xe2; x89; x88; x42]).
Proof. vm_compute; reflexivity. Qed.
Example test_DecodeUtf8_228 :
  pop_utf8_codepoint [xc3; xa7; xef; xac; x81; xe2; x88; x9a; xe2; x89; x88; x42] = Ok (Some 231, [xef; xac; x81; xe2; x88; x9a; xe2; x89; x88; x42]).
Proof. vm_compute; reflexivity. Qed.
Example test_DecodeUtf8_230 :
  pop_utf8_codepoint [xef; xac; x81; xe2; x88; x9a; xe2; x89; x88; x42] = Ok (Some 64257, [xe2; x88; x9a; xe2; x89; x88; x42]).
Proof. vm_compute; reflexivity. Qed.
Example test_DecodeUtf8_232 :
  pop_utf8_codepoint [xe2; x88; x9a; xe2; x89; x88; x42] = Ok (Some 8730, [xe2; x89; x88; x42]).
Proof. vm_compute; reflexivity. Qed.
Example test_DecodeUtf8_234 :
  pop_utf8_codepoint [xe2; x89; x88; x42] = Ok (Some 8776, [x42]).
Proof. vm_compute; reflexivity. Qed.
Example test_DecodeUtf8_236 :
  pop_utf8_codepoint [x42] = Ok (Some 66, []).
Proof. vm_compute; reflexivity. Qed.
Example test_DecodeUtf8_238 :
  pop_utf8_codepoint [] = Ok (None, []).
Proof. vm_compute; reflexivity. Qed.
Example test_DecodeUtf8_245 :
  remove_last_utf8_codepoint [xc3; x86; xe2; x80; xb9; xc3; xa7; xef; xac; x81; xe2; x88; x9a; xe2; x89; x88; x42] = Ok (true, [xc3; x86; xe2; x80; xb9; xc3; xa7; xef; xac; x81; xe2; x88; x9a; xe2; x89; x88]).
Proof. vm_compute; reflexivity. Qed.
Example test_DecodeUtf8_247 :
  remove_last_utf8_codepoint [xc3; x86; xe2; x80; xb9; xc3; xa7; xef; xac; x81; xe2; x88; x9a; xe2; x89; x88] = Ok (true, [xc3; x86; xe2; x80; xb9; xc3; xa7; xef; xac; x81; xe2; x88; x9a]).
Proof. vm_compute; reflexivity. Qed.
Example test_DecodeUtf8_249 :
  remove_last_utf8_codepoint [xc3; x86; xe2; x80; xb9; xc3; xa7; xef; xac; x81; xe2; x88; x9a] = Ok (true, [xc3; x86; xe2; x80; xb9; xc3; xa7; xef; xac; x81]).
Proof. vm_compute; reflexivity. Qed.
Example test_DecodeUtf8_251 :
  remove_last_utf8_codepoint [xc3; x86; xe2; x80; xb9; xc3; xa7; xef; xac; x81] = Ok (true, [xc3; x86; xe2; x80; xb9; xc3; xa7]).
Proof. vm_compute; reflexivity. Qed.
Example test_DecodeUtf8_253 :
  remove_last_utf8_codepoint [xc3; x86; xe2; x80; xb9; xc3; xa7] = Ok (true, [xc3; x86; xe2; x80; xb9]).
Proof. vm_compute; reflexivity. Qed.
Example test_DecodeUtf8_255 :
  remove_last_utf8_codepoint [xc3; x86; xe2; x80; xb9] = Ok (true, [xc3; x86]).
Proof. vm_compute; reflexivity. Qed.
Example test_DecodeUtf8_257 :
  remove_last_utf8_codepoint [xc3; x86] = Ok (true, []).
Proof. vm_compute; reflexivity. Qed.
Example test_DecodeUtf8_259 :
  remove_last_utf8_codepoint [] = Ok (false, []).
Proof. vm_compute; reflexivity. Qed.
Example test_DecodeUtf8_266 :
  pop_last_utf8_codepoint [xc3; x86; xe2; x80; xb9; xc3; xa7; xef; xac; x81; xe2; x88; x9a; xe2; x89; x88; x42] = Ok (Some 66, [xc3; x86; xe2; x80; xb9; xc3; xa7; xef; xac; x81; xe2; x88; x9a; xe2; x89; x88]).
Proof. vm_compute; reflexivity. Qed.
Example test_DecodeUtf8_268 :
  pop_last_utf8_codepoint [xc3; x86; xe2; x80; xb9; xc3; xa7; xef; xac; x81; xe2; x88; x9a; xe2; x89; x88] = Ok (Some 8776, [xc3; x86; xe2; x80; xb9; xc3; xa7; xef; xac; x81; xe2; x88; x9a]).
Proof. vm_compute; reflexivity. Qed.
Example test_DecodeUtf8_270 :
  pop_last_utf8_codepoint [xc3; x86; xe2; x80; xb9; xc3; xa7; xef; xac; x81; xe2; x88; x9a] = Ok (Some 8730, [xc3; x86; xe2; x80; xb9; xc3; xa7; xef; xac; x81]).
Proof. vm_compute; reflexivity. Qed.
Example test_DecodeUtf8_272 :
  pop_last_utf8_codepoint [xc3; x86; xe2; x80; xb9; xc3; xa7; xef; xac; x81] = Ok (Some 64257, [xc3; x86; xe2; x80; xb9; xc3; xa7]).
Proof. vm_compute; reflexivity. Qed.
Example test_DecodeUtf8_274 :
  pop_last_utf8_codepoint [xc3; x86; xe2; x80; xb9; xc3; xa7] = Ok (Some 231, [xc3; x86; xe2; x80; xb9]).
Proof. vm_compute; reflexivity. Qed.
Example test_DecodeUtf8_276 :
  pop_last_utf8_codepoint [xc3; x86; xe2; x80; xb9] = Ok (Some 8249, [xc3; x86]).
Proof. vm_compute; reflexivity. Qed.
Example test_DecodeUtf8_278 :
  pop_last_utf8_codepoint [xc3; x86] = Ok (Some 198, []).
Proof. vm_compute; reflexivity. Qed.
Example test_DecodeUtf8_280 :
  pop_last_utf8_codepoint [] = Ok (None, []).
Proof. vm_compute; reflexivity. Qed.
(** ** tests/YstringTest/test_EncodeUtf8.cpp *)
Example test_EncodeUtf8_27 :
  encode_utf8_buf 0 4 = ([x00], 1).
Proof. vm_compute; reflexivity. Qed.
Example test_EncodeUtf8_28 :
  encode_utf8_buf 65 4 = ([x41], 1).
Proof. vm_compute; reflexivity. Qed.
Example test_EncodeUtf8_29 :
  encode_utf8_buf 127 4 = ([x7f], 1).
Proof. vm_compute; reflexivity. Qed.
Example test_EncodeUtf8_30 :
  encode_utf8_buf 128 4 = ([xc2; x80], 2).
Proof. vm_compute; reflexivity. Qed.
Example test_EncodeUtf8_31 :
  encode_utf8_buf 2047 4 = ([xdf; xbf], 2).
Proof. vm_compute; reflexivity. Qed.
Example test_EncodeUtf8_32 :
  encode_utf8_buf 2048 4 = ([xe0; xa0; x80], 3).
Proof. vm_compute; reflexivity. Qed.
Example test_EncodeUtf8_33 :
  encode_utf8_buf 2048 4 = ([xe0; xa0; x80], 3).
Proof. vm_compute; reflexivity. Qed.
Example test_EncodeUtf8_34 :
  encode_utf8_buf 65535 4 = ([xef; xbf; xbf], 3).
Proof. vm_compute; reflexivity. Qed.
Example test_EncodeUtf8_35 :
  encode_utf8_buf 65536 4 = ([xf0; x90; x80; x80], 4).
Proof. vm_compute; reflexivity. Qed.
Example test_EncodeUtf8_36 :
  encode_utf8_buf 1114111 4 = ([xf4; x8f; xbf; xbf], 4).
Proof. vm_compute; reflexivity. Qed.
Example test_EncodeUtf8_37 :
  encode_utf8_buf 1114112 4 = ([], 0).
Proof. vm_compute; reflexivity. Qed.
(** ** tests/YstringTest/test_Escape.cpp *)
Example test_Escape_16 :
  escape_json [x41; x42; x09; x20; x5c; x20; x0f; x74; x79] = Ok [x41; x42; x5c; x74; x20; x5c; x5c; x20; x5c; x75; x30; x30; x30; x46; x74; x79].
Proof. vm_compute; reflexivity. Qed.
(** ** tests/YstringTest/test_Normalize.cpp *)
Example test_Normalize_16 :
  to_decomposed 100 [x41; x62; x63; x64; x20; x31; x32; x33] = Ok [x41; x62; x63; x64; x20; x31; x32; x33].
Proof. vm_compute; reflexivity. Qed.
Example test_Normalize_17 :
  to_decomposed 100 [xc3; x84] = Ok [x41; xcc; x88].
Proof. vm_compute; reflexivity. Qed.
Example test_Normalize_18 :
  to_decomposed 100 [xc7; x95] = Ok [x55; xcc; x88; xcc; x84].
Proof. vm_compute; reflexivity. Qed.
Example test_Normalize_19 :
  to_decomposed 100 [x43; x44; xc7; x95; x71; x72] = Ok [x43; x44; x55; xcc; x88; xcc; x84; x71; x72].
Proof. vm_compute; reflexivity. Qed.
Example test_Normalize_24 :
  to_composed true [x41; x62; x63; x64; x20; x31; x32; x33] = Ok [x41; x62; x63; x64; x20; x31; x32; x33].
Proof. vm_compute; reflexivity. Qed.
Example test_Normalize_25 :
  to_composed true [x41; xcc; x88] = Ok [xc3; x84].
Proof. vm_compute; reflexivity. Qed.
Example test_Normalize_30 :
  decompose 196 = Ok [65; 776].
Proof. vm_compute; reflexivity. Qed.
Example test_Normalize_31 :
  decompose 469 = Ok [85; 776; 772].
Proof. vm_compute; reflexivity. Qed.
Example test_Normalize_36 :
  to_composed true [x43; x44; x55; xcc; x88; xcc; x84; x71; x72] = Ok [x43; x44; xc7; x95; x71; x72].
Proof. vm_compute; reflexivity. Qed.
(** ** tests/YstringTest/test_Unescape.cpp *)
Example test_Unescape_19 :
  exists r, find_first_escaped_char [x46; x6f; x6f; x20; x5c; x61; x20; x5c; x78; x31; x32; x46; x47; x20; x5c; x75; x41; x62; x63; x44; x45; x5c; x5c; x5c; x31; x30] 0 = Ok r /\ substr [x46; x6f; x6f; x20; x5c; x61; x20; x5c; x78; x31; x32; x46; x47; x20; x5c; x75; x41; x62; x63; x44; x45; x5c; x5c; x5c; x31; x30] (sub_offset r) (sub_length r) = Ok [x5c; x61] /\ sub_end r = 6.
Proof. repeat (eexists || split); vm_compute; reflexivity. Qed.
Example test_Unescape_21 :
  exists r, find_first_escaped_char [x46; x6f; x6f; x20; x5c; x61; x20; x5c; x78; x31; x32; x46; x47; x20; x5c; x75; x41; x62; x63; x44; x45; x5c; x5c; x5c; x31; x30] 6 = Ok r /\ substr [x46; x6f; x6f; x20; x5c; x61; x20; x5c; x78; x31; x32; x46; x47; x20; x5c; x75; x41; x62; x63; x44; x45; x5c; x5c; x5c; x31; x30] (sub_offset r) (sub_length r) = Ok [x5c; x78; x31; x32; x46] /\ sub_end r = 12.
Proof. repeat (eexists || split); vm_compute; reflexivity. Qed.
Example test_Unescape_23 :
  exists r, find_first_escaped_char [x46; x6f; x6f; x20; x5c; x61; x20; x5c; x78; x31; x32; x46; x47; x20; x5c; x75; x41; x62; x63; x44; x45; x5c; x5c; x5c; x31; x30] 12 = Ok r /\ substr [x46; x6f; x6f; x20; x5c; x61; x20; x5c; x78; x31; x32; x46; x47; x20; x5c; x75; x41; x62; x63; x44; x45; x5c; x5c; x5c; x31; x30] (sub_offset r) (sub_length r) = Ok [x5c; x75; x41; x62; x63; x44] /\ sub_end r = 20.
Proof. repeat (eexists || split); vm_compute; reflexivity. Qed.
Example test_Unescape_25 :
  exists r, find_first_escaped_char [x46; x6f; x6f; x20; x5c; x61; x20; x5c; x78; x31; x32; x46; x47; x20; x5c; x75; x41; x62; x63; x44; x45; x5c; x5c; x5c; x31; x30] 20 = Ok r /\ substr [x46; x6f; x6f; x20; x5c; x61; x20; x5c; x78; x31; x32; x46; x47; x20; x5c; x75; x41; x62; x63; x44; x45; x5c; x5c; x5c; x31; x30] (sub_offset r) (sub_length r) = Ok [x5c; x5c] /\ sub_end r = 23.
Proof. repeat (eexists || split); vm_compute; reflexivity. Qed.
Example test_Unescape_27 :
  exists r, find_first_escaped_char [x46; x6f; x6f; x20; x5c; x61; x20; x5c; x78; x31; x32; x46; x47; x20; x5c; x75; x41; x62; x63; x44; x45; x5c; x5c; x5c; x31; x30] 23 = Ok r /\ substr [x46; x6f; x6f; x20; x5c; x61; x20; x5c; x78; x31; x32; x46; x47; x20; x5c; x75; x41; x62; x63; x44; x45; x5c; x5c; x5c; x31; x30] (sub_offset r) (sub_length r) = Ok [x5c; x31; x30].
Proof. repeat (eexists || split); vm_compute; reflexivity. Qed.
Example test_Unescape_32 :
  has_escaped_chars [x41; x42; x20; x5c; x78; x34; x31; x20; x5c; x27; x20; x5c; x61] = Ok true.
Proof. vm_compute; reflexivity. Qed.
Example test_Unescape_33 :
  has_escaped_chars [x41; x42; x20; x43; x44; x20; x45; x46] = Ok false.
Proof. vm_compute; reflexivity. Qed.
Example test_Unescape_38 :
  unescape [x41; x42; x20; x5c; x78; x34; x31; x20; x5c; x27; x20; x5c; x61] = Ok [x41; x42; x20; x41; x20; x27; x20; x07].
Proof. vm_compute; reflexivity. Qed.
Example test_Unescape_39 :
  unescape [x5c; x30; x34; x30] = Ok [x20].
Proof. vm_compute; reflexivity. Qed.
Example test_Unescape_40 :
  unescape [x41; x20; x5c; x75; x44; x38; x30; x30; x5c; x75; x44; x43; x30; x30; x20; x42] = Ok [x41; x20; xf0; x90; x80; x80; x20; x42].
Proof. vm_compute; reflexivity. Qed.
Example test_Unescape_45 :
  unescape [x5c; x5b; x5c; x5e; x5c; x7b; x5c; x2d; x5c; x7d; x5c; x5d] = Ok [x5b; x5e; x7b; x2d; x7d; x5d].
Proof. vm_compute; reflexivity. Qed.
Example test_Unescape_54 :
  fst (unescape_next [x5c; x61; x5c; x62; x5c; x66; x5c; x6e; x5c; x72; x5c; x74; x5c; x76; x5c; x30]) = (Ok (Some 7), [x5c; x62; x5c; x66; x5c; x6e; x5c; x72; x5c; x74; x5c; x76; x5c; x30]).
Proof. vm_compute; reflexivity. Qed.
Example test_Unescape_58 :
  fst (unescape_next [x5c; x62; x5c; x66; x5c; x6e; x5c; x72; x5c; x74; x5c; x76; x5c; x30]) = (Ok (Some 8), [x5c; x66; x5c; x6e; x5c; x72; x5c; x74; x5c; x76; x5c; x30]).
Proof. vm_compute; reflexivity. Qed.
Example test_Unescape_62 :
  fst (unescape_next [x5c; x66; x5c; x6e; x5c; x72; x5c; x74; x5c; x76; x5c; x30]) = (Ok (Some 12), [x5c; x6e; x5c; x72; x5c; x74; x5c; x76; x5c; x30]).
Proof. vm_compute; reflexivity. Qed.
Example test_Unescape_66 :
  fst (unescape_next [x5c; x6e; x5c; x72; x5c; x74; x5c; x76; x5c; x30]) = (Ok (Some 10), [x5c; x72; x5c; x74; x5c; x76; x5c; x30]).
Proof. vm_compute; reflexivity. Qed.
Example test_Unescape_70 :
  fst (unescape_next [x5c; x72; x5c; x74; x5c; x76; x5c; x30]) = (Ok (Some 13), [x5c; x74; x5c; x76; x5c; x30]).
Proof. vm_compute; reflexivity. Qed.
Example test_Unescape_74 :
  fst (unescape_next [x5c; x74; x5c; x76; x5c; x30]) = (Ok (Some 9), [x5c; x76; x5c; x30]).
Proof. vm_compute; reflexivity. Qed.
Example test_Unescape_78 :
  fst (unescape_next [x5c; x76; x5c; x30]) = (Ok (Some 11), [x5c; x30]).
Proof. vm_compute; reflexivity. Qed.
Example test_Unescape_82 :
  fst (unescape_next [x5c; x30]) = (Ok (Some 0), []).
Proof. vm_compute; reflexivity. Qed.
Example test_Unescape_83 :
  fst (unescape_next []) = (Ok None, []).
Proof. vm_compute; reflexivity. Qed.
Example test_Unescape_92 :
  fst (unescape_next [x5c; x34; x30; x5c; x33; x37; x37; x31; x5c; x30]) = (Ok (Some 32), [x5c; x33; x37; x37; x31; x5c; x30]).
Proof. vm_compute; reflexivity. Qed.
Example test_Unescape_96 :
  fst (unescape_next [x5c; x33; x37; x37; x31; x5c; x30]) = (Ok (Some 255), [x31; x5c; x30]).
Proof. vm_compute; reflexivity. Qed.
Example test_Unescape_100 :
  fst (unescape_next [x31; x5c; x30]) = (Ok (Some 49), [x5c; x30]).
Proof. vm_compute; reflexivity. Qed.
Example test_Unescape_104 :
  fst (unescape_next [x5c; x30]) = (Ok (Some 0), []).
Proof. vm_compute; reflexivity. Qed.
Example test_Unescape_105 :
  fst (unescape_next []) = (Ok None, []).
Proof. vm_compute; reflexivity. Qed.
Example test_Unescape_114 :
  fst (unescape_next [x5c; x75; x44; x38; x30; x30; x5c; x75; x44; x43; x30; x30]) = (Ok (Some 65536), []).
Proof. vm_compute; reflexivity. Qed.
Example test_Unescape_123 :
  fst (unescape_next [xc3; x86; xc3; x98]) = (Ok (Some 198), [xc3; x98]).
Proof. vm_compute; reflexivity. Qed.
Example test_Unescape_127 :
  fst (unescape_next [xc3; x98]) = (Ok (Some 216), []).
Proof. vm_compute; reflexivity. Qed.
Example test_Unescape_133 :
  fst (fst (unescape_next [xc0; x40])) = Throw YstringException.
Proof. vm_compute; reflexivity. Qed.
Example test_Unescape_139 :
  fst (fst (unescape_next [x5c; x78; x5c; x61])) = Throw YstringException.
Proof. vm_compute; reflexivity. Qed.
Example test_Unescape_140 :
  fst (unescape_next [x5c; x78; x5c; x61]) = (Throw YstringException, [x5c; x78; x5c; x61]).
Proof. vm_compute; reflexivity. Qed.
Example test_Unescape_149 :
  fst (unescape_next [x5c; x0a; x5c; x0a; x46; x5c; x0a]) = (Ok (Some 70), [x5c; x0a]).
Proof. vm_compute; reflexivity. Qed.
Example test_Unescape_152 :
  fst (unescape_next [x5c; x0a]) = (Ok (None), []).
Proof. vm_compute; reflexivity. Qed.
(** ** tests/YstringTest/test_Utf32.cpp *)
Example test_Utf32_16 :
  from_utf32_char 197 = [xc3; x85].
Proof. vm_compute; reflexivity. Qed.
Example test_Utf32_21 :
  from_utf32 [65; 197; 233; 230; 937] = [x41; xc3; x85; xc3; xa9; xc3; xa6; xce; xa9].
Proof. vm_compute; reflexivity. Qed.
Example test_Utf32_26 :
  to_utf32 [x41; xc3; x85; xc3; xa9; xc3; xa6; xce; xa9] = Ok [65; 197; 233; 230; 937].
Proof. vm_compute; reflexivity. Qed.
