(** The assertions of /repo/tests as data, printed from the text of the tests by tools/repo_tests.py; every row begins with the line.
    RepoTests.v says what a row means and checks it. *)
From Coq Require Import List ZArith NArith String.
From Verif Require Import Chars Syntax Parser Views RepoTests.
Import ListNotations.
Local Open Scope string_scope.
Local Open Scope Z_scope.

(** tests/matching.cpp *)
Definition t_matching : list test := [
  Run 32 MMatch false (Tree (RCls (CChar 97))) (View (codes "a")) (Matches true);
  Run 33 MSearch false (Tree (RCls (CChar 97))) (View (codes "abc")) (Matches true);
  Run 34 MSearch false (Tree (RCls (CChar 98))) (View (codes "abc")) (Matches true);
  Run 35 MSearch false (Tree (RCls (CChar 99))) (View (codes "abc")) (Matches true);
  Run 36 MStarts false (Tree (RCls (CChar 97))) (View (codes "abc")) (Matches true);
  Run 37 MStarts false (Tree (RCls (CChar 98))) (View (codes "abc")) (Matches false);
  Run 38 MMatch false (Tree (RCls (CChar 98))) (View (codes "abc")) (Matches false);
  Run 39 MMatch false (Tree (RCls (CChar 98))) (View (codes "a")) (Matches false);
  Run 40 MMatch false (Tree RAny) (View (codes "a")) (Matches true);
  Run 41 MMatch false (Tree (RCls (CSet [(CRange 97 122)]))) (View (codes "a")) (Matches true);
  Run 42 MMatch false (Tree (RCls (CSet [(CRange 97 122)]))) (View (codes "f")) (Matches true);
  Run 43 MMatch false (Tree (RCls (CSet [(CRange 97 122)]))) (View (codes "z")) (Matches true);
  Run 44 MMatch false (Tree (RCls (CSet [(CRange 97 122)]))) (View (codes "Z")) (Matches false);
  Run 45 MMatch false (Tree (RCls (CSet [(CRange 97 122); (CRange 48 57)]))) (View (codes "0")) (Matches true);
  Run 46 MMatch false (Tree (RCls (CSet [(CRange 97 122); (CRange 48 57)]))) (View (codes "A")) (Matches false);
  Run 47 MMatch false (Tree (RCls (CSet [xdigit_chars]))) (View (codes "0")) (Matches true);
  Run 48 MMatch false (Tree (RCls (CSet [xdigit_chars]))) (View (codes "9")) (Matches true);
  Run 49 MMatch false (Tree (RCls (CSet [xdigit_chars]))) (View (codes "a")) (Matches true);
  Run 50 MMatch false (Tree (RCls (CSet [xdigit_chars]))) (View (codes "f")) (Matches true);
  Run 51 MMatch false (Tree (RCls (CSet [xdigit_chars]))) (View (codes "g")) (Matches false);
  Run 52 MMatch false (Tree (RStr [97; 98; 99; 100; 101; 102])) (View (codes "abcdef")) (Matches true);
  Run 53 MMatch false (Tree (RStr [97; 98; 99; 100; 101; 102])) (View (codes "abcgef")) (Matches false);
  Run 54 MMatch false (Tree (RStr [])) (View []) (Matches true);
  Run 55 MMatch false (Tree (RSelect [(RCls (CChar 97)); (RCls (CChar 98)); (RCls (CChar 99))])) (View (codes "a")) (Matches true);
  Run 56 MMatch false (Tree (RSelect [(RCls (CChar 97)); (RCls (CChar 98)); (RCls (CChar 99))])) (View (codes "b")) (Matches true);
  Run 57 MMatch false (Tree (RSelect [(RCls (CChar 97)); (RCls (CChar 98)); (RCls (CChar 99))])) (View (codes "c")) (Matches true);
  Run 58 MMatch false (Tree (RSelect [(RCls (CChar 97)); (RCls (CChar 98)); (RCls (CChar 99))])) (View (codes "d")) (Matches false);
  Run 59 MMatch false (Tree (RRep Greedy 0 1 [(RStr [120; 121])])) (View (codes "xy")) (Matches true);
  Run 60 MMatch false (Tree (RRep Greedy 0 1 [(RStr [120; 121])])) (View []) (Matches true);
  Run 61 MMatch false (Tree (RSeq [(RAssert ASubjectBegin); (RStr [97; 98; 99])])) (View (codes "abc")) (Matches true);
  Run 62 MMatch false (Tree (RSeq [(RAssert ASubjectBegin); (RStr [100; 101; 102]); (RAssert ASubjectEnd)])) (View (codes "def")) (Matches true);
  Run 63 MMatch false (Tree (RSeq [(RCls (CChar 97)); (RAssert ASubjectBegin)])) (View (codes "a")) (Matches false);
  Run 64 MMatch false (Tree (RSeq [(RAssert ASubjectEnd); (RCls (CChar 97))])) (View (codes "a")) (Matches false);
  Run 66 MMatch false (Tree (RSeq [(RRep Lazy 1 0 [(RCls (CChar 97))]); (RCls (CChar 120))])) (View (codes "aaax")) (Matches true);
  Run 67 MMatch false (Tree (RSeq [(RRep Lazy 1 0 [(RCls (CChar 97))]); (RCls (CChar 120))])) (View (codes "ax")) (Matches true);
  Run 68 MMatch false (Tree (RSeq [(RRep Lazy 1 0 [(RCls (CChar 97))]); (RCls (CChar 120))])) (View (codes "x")) (Matches false);
  Run 70 MMatch false (Tree (RSeq [(RRep Possessive 1 0 [(RCls (CChar 97))]); (RCls (CChar 120))])) (View (codes "aaax")) (Matches true);
  Run 71 MMatch false (Tree (RSeq [(RRep Possessive 1 0 [(RCls (CChar 97))]); (RCls (CChar 120))])) (View (codes "ax")) (Matches true);
  Run 72 MMatch false (Tree (RSeq [(RRep Possessive 1 0 [(RCls (CChar 97))]); (RCls (CChar 120))])) (View (codes "x")) (Matches false);
  Run 74 MMatch false (Tree (RSeq [(RRep Lazy 0 0 [(RCls (CChar 97))]); (RCls (CChar 120))])) (View (codes "aaax")) (Matches true);
  Run 75 MMatch false (Tree (RSeq [(RRep Lazy 0 0 [(RCls (CChar 97))]); (RCls (CChar 120))])) (View (codes "ax")) (Matches true);
  Run 76 MMatch false (Tree (RSeq [(RRep Lazy 0 0 [(RCls (CChar 97))]); (RCls (CChar 120))])) (View (codes "x")) (Matches true);
  Run 77 MMatch false (Tree (RSeq [(RRep Lazy 0 0 [(RCls (CChar 97))]); (RCls (CChar 120))])) (View (codes "y")) (Matches false);
  Run 79 MMatch false (Tree (RSeq [(RRep Possessive 0 0 [(RCls (CChar 97))]); (RCls (CChar 120))])) (View (codes "aaax")) (Matches true);
  Run 80 MMatch false (Tree (RSeq [(RRep Possessive 0 0 [(RCls (CChar 97))]); (RCls (CChar 120))])) (View (codes "ax")) (Matches true);
  Run 81 MMatch false (Tree (RSeq [(RRep Possessive 0 0 [(RCls (CChar 97))]); (RCls (CChar 120))])) (View (codes "x")) (Matches true);
  Run 82 MMatch false (Tree (RSeq [(RRep Possessive 0 0 [(RCls (CChar 97))]); (RCls (CChar 120))])) (View (codes "y")) (Matches false);
  Run 84 MMatch false (Tree (RSeq [(RRep Possessive 0 0 [(RCls (CChar 97))]); (RStr [97; 98])])) (View (codes "aaab")) (Matches false);
  Run 85 MMatch false (Tree (RSeq [(RRep Possessive 1 0 [(RCls (CChar 97))]); (RStr [97; 98])])) (View (codes "aaab")) (Matches false);
  Run 86 MMatch false (Tree (RSeq [(RRep Possessive 0 0 [(RCls (CChar 97))]); (RStr [97; 98])])) (View (codes "ab")) (Matches false);
  Run 87 MMatch false (Tree (RSeq [(RRep Possessive 1 0 [(RCls (CChar 97))]); (RStr [97; 98])])) (View (codes "aab")) (Matches false);
  Run 89 MMatch false (Tree (RSeq [(RRep Possessive 0 0 [(RCls (CChar 97))]); (RStr [98; 97])])) (View (codes "aaba")) (Matches true);
  Run 90 MMatch false (Tree (RSeq [(RRep Possessive 1 0 [(RCls (CChar 97))]); (RStr [98; 97])])) (View (codes "aaba")) (Matches true);
  Run 91 MMatch false (Tree (RSeq [(RRep Possessive 0 0 [(RCls (CChar 97))]); (RStr [98; 97])])) (View (codes "ba")) (Matches true);
  Run 92 MMatch false (Tree (RSeq [(RRep Possessive 1 0 [(RCls (CChar 97))]); (RStr [98; 97])])) (View (codes "aba")) (Matches true);
  Run 94 MMatch false (Tree (RSeq [(RRep Lazy 3 0 [(RCls (CChar 97))]); (RCls (CChar 120))])) (View (codes "aaax")) (Matches true);
  Run 96 MSearch false (Tree (RRep Greedy 0 5 [(RCls (CChar 97))])) (View (codes "aaaaaa")) (Matches true);
  Run 97 MMatch false (Tree (RSeq [(RRep Greedy 0 5 [(RCls (CChar 97))]); (RAssert ASubjectEnd)])) (View (codes "aaaaaa")) (Matches false);
  Run 98 MMatch false (Tree (RSeq [(RRep Greedy 0 5 [(RCls (CChar 97))]); (RAssert ASubjectEnd)])) (View (codes "aaaaa")) (Matches true);
  Run 100 MMatch false (Tree (RRep Greedy 0 0 [(RCls (CChar 97))])) (View (codes "aaa")) (Matches true);
  Run 101 MMatch false (Tree (RRep Greedy 1 0 [(RCls (CChar 97))])) (View (codes "aaa")) (Matches true);
  Run 102 MMatch false (Tree (RRep Greedy 0 0 [(RCls (CChar 97))])) (View []) (Matches true);
  Run 103 MMatch false (Tree (RRep Greedy 1 0 [(RCls (CChar 97))])) (View (codes "a")) (Matches true);
  Run 105 MMatch false (Tree (RSeq [(RRep Greedy 0 0 [(RCls (CChar 97))]); (RStr [120; 98])])) (View (codes "aaxb")) (Matches true);
  Run 106 MMatch false (Tree (RSeq [(RRep Greedy 1 0 [(RCls (CChar 97))]); (RStr [120; 98])])) (View (codes "aaxb")) (Matches true);
  Run 107 MMatch false (Tree (RSeq [(RRep Greedy 0 0 [(RCls (CChar 97))]); (RStr [120; 98])])) (View (codes "xb")) (Matches true);
  Run 108 MMatch false (Tree (RSeq [(RRep Greedy 1 0 [(RCls (CChar 97))]); (RStr [120; 98])])) (View (codes "axb")) (Matches true);
  Run 110 MMatch false (Tree (RSeq [(RRep Greedy 0 0 [(RCls (CChar 97))]); (RStr [97; 98])])) (View (codes "aaab")) (Matches true);
  Run 111 MMatch false (Tree (RSeq [(RRep Greedy 1 0 [(RCls (CChar 97))]); (RStr [97; 98])])) (View (codes "aaab")) (Matches true);
  Run 112 MMatch false (Tree (RSeq [(RRep Greedy 0 0 [(RCls (CChar 97))]); (RStr [97; 98])])) (View (codes "ab")) (Matches true);
  Run 113 MMatch false (Tree (RSeq [(RRep Greedy 1 0 [(RCls (CChar 97))]); (RStr [97; 98])])) (View (codes "aab")) (Matches true);
  Run 115 MMatch false (Tree (RSeq [(RRep Greedy 2 5 [(RCls (CChar 97))]); (RStr [97; 98])])) (View (codes "aab")) (Matches false);
  Run 116 MMatch false (Tree (RSeq [(RRep Greedy 2 5 [(RCls (CChar 97))]); (RStr [97; 98])])) (View (codes "aaab")) (Matches true);
  Run 117 MMatch false (Tree (RSeq [(RRep Greedy 2 5 [(RCls (CChar 97))]); (RStr [97; 98])])) (View (codes "aaaab")) (Matches true);
  Run 118 MMatch false (Tree (RSeq [(RRep Greedy 2 5 [(RCls (CChar 97))]); (RStr [97; 98])])) (View (codes "aaaaab")) (Matches true);
  Run 119 MMatch false (Tree (RSeq [(RRep Greedy 2 5 [(RCls (CChar 97))]); (RStr [97; 98])])) (View (codes "aaaaaab")) (Matches true);
  Run 120 MMatch false (Tree (RSeq [(RRep Greedy 2 5 [(RCls (CChar 97))]); (RStr [97; 98])])) (View (codes "aaaaaaab")) (Matches false);
  Run 123 MMatch false (Tree (RSeq [(RRep Greedy 0 1 [(RRep Lazy 0 0 [(RCls (CChar 49))])]); (RCls (CChar 120))])) (View (codes "x")) (Matches true);
  Run 125 MMatch false (Tree (RSeq [(RRep Greedy 0 1 [(RRep Lazy 0 1 [(RCls (CChar 49))])]); (RCls (CChar 120))])) (View (codes "1x")) (Matches true);
  Run 126 MMatch false (Tree (RSeq [(RRep Greedy 0 1 [(RRep Lazy 0 0 [(RCls (CChar 49))])]); (RCls (CChar 120))])) (View (codes "1x")) (Matches true);
  Run 127 MMatch false (Tree (RSeq [(RRep Greedy 0 1 [(RRep Lazy 0 0 [(RCls (CChar 49))])]); (RCls (CChar 120))])) (View (codes "1x")) (Matches true);
  Run 128 MMatch false (Tree (RSeq [(RRep Possessive 1 0 [(RRep Greedy 0 1 [(RCls (CChar 97))])]); (RCls (CChar 98))])) (View (codes "aaab")) (Matches true);
  Run 130 MMatch false (Tree (RSeq [(RRep Greedy 0 1 [(RRep Lazy 0 0 [(RCls (CChar 49))]); (RCls (CChar 121))]); (RCls (CChar 120))])) (View (codes "1yx")) (Matches true);
  Run 131 MMatch false (Tree (RRep Possessive 1 0 [(RSelect [REmpty; (RCls (CChar 97))])])) (View (codes "aaa")) (Matches true);
  Run 133 MMatch false (Tree (RRep Greedy 1 0 [(RRep Greedy 0 0 [(RCls (CChar 120))])])) (View (codes "x")) (Matches true);
  Run 134 MMatch false (Tree (RRep Greedy 1 0 [(RRep Lazy 0 0 [(RCls (CChar 120))])])) (View (codes "x")) (Matches true);
  Run 135 MMatch false (Tree (RRep Greedy 1 0 [(RRep Possessive 0 0 [(RCls (CChar 120))])])) (View (codes "x")) (Matches true);
  Run 137 MMatch false (Tree (RRep Lazy 1 0 [(RRep Greedy 0 0 [(RCls (CChar 120))])])) (View (codes "x")) (Matches true);
  Run 138 MMatch false (Tree (RRep Lazy 1 0 [(RRep Lazy 0 0 [(RCls (CChar 120))])])) (View (codes "x")) (Matches true);
  Run 139 MMatch false (Tree (RRep Lazy 1 0 [(RRep Possessive 0 0 [(RCls (CChar 120))])])) (View (codes "x")) (Matches true);
  Run 141 MMatch false (Tree (RRep Possessive 1 0 [(RRep Greedy 0 0 [(RCls (CChar 120))])])) (View (codes "x")) (Matches true);
  Run 142 MMatch false (Tree (RRep Possessive 1 0 [(RRep Lazy 0 0 [(RCls (CChar 120))])])) (View (codes "x")) (Matches true);
  Run 143 MMatch false (Tree (RRep Possessive 1 0 [(RRep Possessive 0 0 [(RCls (CChar 120))])])) (View (codes "x")) (Matches true);
  Run 145 MMatch false (Tree (RSeq [(RRep Greedy 1 0 [(RRep Greedy 0 0 [(RCls (CChar 120))])]); (RCls (CChar 121))])) (View (codes "xy")) (Matches true);
  Run 146 MMatch false (Tree (RSeq [(RRep Greedy 1 0 [(RRep Lazy 0 0 [(RCls (CChar 120))])]); (RCls (CChar 121))])) (View (codes "xy")) (Matches true);
  Run 147 MMatch false (Tree (RSeq [(RRep Greedy 1 0 [(RRep Possessive 0 0 [(RCls (CChar 120))])]); (RCls (CChar 121))])) (View (codes "xy")) (Matches true);
  Run 149 MMatch false (Tree (RSeq [(RRep Lazy 1 0 [(RRep Greedy 0 0 [(RCls (CChar 120))])]); (RCls (CChar 121))])) (View (codes "xy")) (Matches true);
  Run 150 MMatch false (Tree (RSeq [(RRep Lazy 1 0 [(RRep Lazy 0 0 [(RCls (CChar 120))])]); (RCls (CChar 121))])) (View (codes "xy")) (Matches true);
  Run 151 MMatch false (Tree (RSeq [(RRep Lazy 1 0 [(RRep Possessive 0 0 [(RCls (CChar 120))])]); (RCls (CChar 121))])) (View (codes "xy")) (Matches true);
  Run 153 MMatch false (Tree (RSeq [(RRep Possessive 1 0 [(RRep Greedy 0 0 [(RCls (CChar 120))])]); (RCls (CChar 121))])) (View (codes "xy")) (Matches true);
  Run 154 MMatch false (Tree (RSeq [(RRep Possessive 1 0 [(RRep Lazy 0 0 [(RCls (CChar 120))])]); (RCls (CChar 121))])) (View (codes "xy")) (Matches true);
  Run 155 MMatch false (Tree (RSeq [(RRep Possessive 1 0 [(RRep Possessive 0 0 [(RCls (CChar 120))])]); (RCls (CChar 121))])) (View (codes "xy")) (Matches true);
  Run 158 MMatch false (Tree (RSeq [(RRep Greedy 0 0 [(RRep Greedy 1 0 [(RCls (CChar 120))])]); (RCls (CChar 121))])) (View (codes "xy")) (Matches true);
  Run 159 MMatch false (Tree (RSeq [(RRep Greedy 0 0 [(RRep Lazy 1 0 [(RCls (CChar 120))])]); (RCls (CChar 121))])) (View (codes "xy")) (Matches true);
  Run 160 MMatch false (Tree (RSeq [(RRep Greedy 0 0 [(RRep Possessive 1 0 [(RCls (CChar 120))])]); (RCls (CChar 121))])) (View (codes "xy")) (Matches true);
  Run 162 MMatch false (Tree (RSeq [(RRep Lazy 0 0 [(RRep Greedy 1 0 [(RCls (CChar 120))])]); (RCls (CChar 121))])) (View (codes "xy")) (Matches true);
  Run 163 MMatch false (Tree (RSeq [(RRep Lazy 0 0 [(RRep Lazy 1 0 [(RCls (CChar 120))])]); (RCls (CChar 121))])) (View (codes "xy")) (Matches true);
  Run 164 MMatch false (Tree (RSeq [(RRep Lazy 0 0 [(RRep Possessive 1 0 [(RCls (CChar 120))])]); (RCls (CChar 121))])) (View (codes "xy")) (Matches true);
  Run 166 MMatch false (Tree (RSeq [(RRep Possessive 0 0 [(RRep Greedy 1 0 [(RCls (CChar 120))])]); (RCls (CChar 121))])) (View (codes "xy")) (Matches true);
  Run 167 MMatch false (Tree (RSeq [(RRep Possessive 0 0 [(RRep Lazy 1 0 [(RCls (CChar 120))])]); (RCls (CChar 121))])) (View (codes "xy")) (Matches true);
  Run 168 MMatch false (Tree (RSeq [(RRep Possessive 1 0 [(RRep Possessive 0 0 [(RCls (CChar 120))])]); (RCls (CChar 121))])) (View (codes "xy")) (Matches true);
  Run 171 MStarts false (Tree (RSeq [(RCls (CChar 97)); (RBound word_chars)])) (View (codes "a ")) (Matches true);
  Run 172 MStarts false (Tree (RSeq [(RCls (CChar 97)); (RBound word_chars)])) (U8 (codes "a ")) (Matches true);
  Run 173 MStarts false (Tree (RSeq [(RRep Greedy 1 0 [(RCls (CChar 97))]); (RBound word_chars); RAny])) (View (codes "aaaa ")) (Matches true);
  Run 174 MStarts false (Tree (RSeq [(RRep Greedy 1 0 [RAny]); (RBound word_chars)])) (View (codes "  aaaa")) (Matches true);
  Run 175 MStarts false (Tree (RSeq [(RRep Greedy 1 0 [(RCls (CChar 97))]); (RBound word_chars); RAny])) (U8 (codes "aaaa ")) (Matches true);
  Run 176 MStarts false (Tree (RSeq [(RRep Greedy 1 0 [RAny]); (RBound word_chars)])) (U8 (codes "  aaaa")) (Matches true);
  Run 177 MMatch false (Tree (RSeq [(RCls (CChar 97)); (RBound word_chars); (RCls (CChar 32))])) (Pointer (codes "a ")) (Matches true);
  Run 178 MMatch false (Tree (RSeq [(RCls (CChar 97)); (RNotBound word_chars); (RCls (CChar 98))])) (Pointer (codes "ab")) (Matches true);
  Run 181 MMatch true (Tree (RAssert ASubjectBegin)) (Pointer []) (Matches true);
  Run 182 MMatch true (Tree (RAssert ASubjectEnd)) (Pointer []) (Matches true);
  Run 183 MMatch true (Tree (RAssert ALineBegin)) (Pointer []) (Matches true);
  Run 184 MMatch true (Tree (RAssert ALineEnd)) (Pointer []) (Matches true);
  Run 185 MMatch true (Tree (RAssert ASubjectEndLine)) (Pointer []) (Matches true);
  Run 186 MMatch true (Tree RAny) (Pointer [10]) (Matches false);
  Run 187 MStarts true (Tree (RRep Greedy 1 0 [RAny])) (Pointer [97; 97; 97; 10; 98; 98; 98]) (Matches true);
  Run 188 MStarts true (Tree (RRep Greedy 1 0 [RAny])) (Pointer [97; 97; 97; 10; 98; 98; 98]) (SizeIs 3);
  Run 189 MStarts true (Tree (RSeq [(RRep Greedy 1 0 [RAny]); (RAssert ALineEnd); (RCls (CChar 10))])) (Pointer [97; 97; 97; 10; 98; 98; 98]) (Matches true);
  Run 190 MStarts true (Tree (RSeq [(RRep Greedy 1 0 [RAny]); (RAssert ALineEnd); (RCls (CChar 10))])) (Pointer [97; 97; 97; 10; 98; 98; 98]) (SizeIs 4)].
(** tests/z_matching.cpp *)
Definition t_z_matching : list test := [
  Run 21 MMatch false (Tree (RSeq [(RRep Greedy 0 1 [(RRep Lazy 0 0 [RAny])]); (RCls (CChar 120))])) (View (codes "x")) (Matches true);
  Run 22 MMatch false (Tree (RSeq [(RRep Lazy 0 1 [(RRep Lazy 0 0 [RAny])]); (RCls (CChar 120))])) (View (codes "1x")) (Matches true);
  Run 23 MMatch false (Tree (RSeq [(RRep Greedy 0 1 [(RRep Lazy 0 0 [RAny])]); (RCls (CChar 120))])) (View (codes "1x")) (Matches true);
  Run 24 MMatch false (Tree (RSeq [(RRep Greedy 0 1 [(RRep Lazy 0 0 [(RCls (CChar 49))])]); (RCls (CChar 120))])) (View (codes "1x")) (Matches true);
  Run 25 MMatch false (Tree (RSeq [(RRep Greedy 0 1 [(RRep Lazy 0 0 [(RCls (CChar 49))]); (RCls (CChar 121))]); (RCls (CChar 120))])) (View (codes "1yx")) (Matches true);
  Run 26 MMatch false (Tree (RSeq [(RRep Possessive 1 0 [(RRep Greedy 0 1 [(RCls (CChar 97))])]); (RCls (CChar 98))])) (View (codes "aaab")) (Matches true);
  Run 27 MMatch false (Tree (RRep Possessive 1 0 [(RSelect [REmpty; (RCls (CChar 97))])])) (View (codes "aaa")) (Matches true);
  Run 28 MMatch false (Tree (RRep Lazy 1 0 [(RSelect [REmpty; (RCls (CChar 97))])])) (View (codes "aaa")) (Matches true);
  Run 29 MMatch false (Tree (RRep Possessive 1 0 [(RRep Lazy 0 0 [(RCls (CChar 97))])])) (View (codes "aaaa")) (Matches true);
  Run 30 MMatch false (Tree (RRep Lazy 0 0 [(RCls (CChar 98))])) (View []) (Matches true);
  Run 31 MMatch false (Tree (RRep Possessive 1 0 [(RRep Lazy 0 0 [(RCls (CChar 97))]); (RRep Lazy 0 0 [(RCls (CChar 98))])])) (View (codes "aaaa")) (Matches true);
  Run 32 MMatch false (Tree (RRep Possessive 1 0 [(RRep Lazy 0 0 [(RCls (CChar 97))]); (RRep Lazy 0 0 [(RCls (CChar 98))])])) (View (codes "aaaab")) (Matches true)].
(** tests/_bad_cycle.cpp *)
Definition t_bad_cycle : list test := [
  Run 18 MMatch false (Tree (RRep Greedy 1 0 [(RSelect [(RStr [97; 98]); (RCls (CChar 97))])])) (View (codes "ab")) (Matches true)].
(** tests/matching2.cpp *)
Definition t_matching2 : list test := [
  Run 36 MSearch false (Text (Bytes [])) (View (codes "abc")) (Matches true);
  Run 37 MMatch false (Text (Bytes (codes "abc"))) (View (codes "abc")) (Matches true);
  Run 39 MMatch false (Text (Bytes (codes "a"))) (View (codes "a")) (Matches true);
  Run 40 MSearch false (Text (Bytes (codes "a"))) (View (codes "abc")) (Matches true);
  Run 41 MSearch false (Text (Bytes (codes "b"))) (View (codes "abc")) (Matches true);
  Run 42 MMatch false (Text (Bytes (codes "^b"))) (View (codes "abc")) (Matches false);
  Run 43 MMatch false (Text (Bytes (codes "b"))) (View (codes "a")) (Matches false);
  Run 44 MMatch false (Text (Bytes (codes "."))) (View (codes "a")) (Matches true);
  Run 45 MSearch false (Text (Bytes (codes "."))) (View (codes "abc")) (Matches true);
  Run 46 MMatch false (Text (Bytes (codes "[\-]"))) (View (codes "-")) (Matches true);
  Run 47 MMatch false (Text (Bytes (codes "[\\]"))) (View (codes "\")) (Matches true);
  Run 48 MMatch false (Text (Bytes (codes "[a-z]"))) (View (codes "a")) (Matches true);
  Run 49 MMatch false (Text (Bytes (codes "[a-z]"))) (View (codes "f")) (Matches true);
  Run 50 MMatch false (Text (Bytes (codes "[a-z]"))) (View (codes "z")) (Matches true);
  Run 51 MMatch false (Text (Bytes (codes "[a-z]"))) (View (codes "Z")) (Matches false);
  Run 52 MMatch false (Text (Bytes (codes "\u0050"))) (View (codes "P")) (Matches true);
  Run 53 MMatch false (Text (Bytes (codes "[\u0050-\u0051]"))) (View (codes "Q")) (Matches true);
  Run 54 MMatch false (Text (Bytes (codes "P"))) (View (codes "P")) (Matches true);
  Run 56 MMatch false (Text (Bytes (codes "^[\x30-\x39]+?$"))) (View (codes "123456789")) (Matches true);
  Run 57 MMatch false (Text (Bytes (codes "[a-z0-9]"))) (View (codes "0")) (Matches true);
  Run 58 MMatch false (Text (Bytes (codes "[a-z0-9]"))) (View (codes "A")) (Matches false);
  Run 59 MMatch false (Text (Bytes (codes "[[:xdigit:]]"))) (View (codes "0")) (Matches true);
  Run 60 MMatch false (Text (Bytes (codes "[[:xdigit:]]"))) (View (codes "9")) (Matches true);
  Run 61 MMatch false (Text (Bytes (codes "[[:xdigit:]]"))) (View (codes "a")) (Matches true);
  Run 62 MMatch false (Text (Bytes (codes "[[:xdigit:]]"))) (View (codes "A")) (Matches true);
  Run 63 MMatch false (Text (Bytes (codes "[[:xdigit:]]"))) (View (codes "f")) (Matches true);
  Run 64 MMatch false (Text (Bytes (codes "[[:xdigit:]]"))) (View (codes "g")) (Matches false);
  Run 65 MMatch false (Text (Bytes (codes "abcdef"))) (View (codes "abcdef")) (Matches true);
  Run 66 MMatch false (Text (Bytes (codes "abcdef"))) (View (codes "abcGef")) (Matches false);
  Run 67 MMatch false (Text (Bytes [])) (View []) (Matches true);
  Run 68 MMatch false (Text (Bytes (codes "(?:a|b|c)"))) (View (codes "a")) (Matches true);
  Run 69 MMatch false (Text (Bytes (codes "(?:a|b|c)"))) (View (codes "b")) (Matches true);
  Run 70 MMatch false (Text (Bytes (codes "(?:a|b|c)"))) (View (codes "c")) (Matches true);
  Run 71 MMatch false (Text (Bytes (codes "(?:a|b|c)"))) (View (codes "d")) (Matches false);
  Run 72 MMatch false (Text (Bytes (codes "(?:xy)?"))) (View (codes "xy")) (Matches true);
  Run 73 MMatch false (Text (Bytes (codes "(?:xy)?"))) (View []) (Matches true);
  Run 74 MSearch false (Text (Bytes (codes "(?:xy)?"))) (View (codes "zxy")) (Matches true);
  Run 75 MSearch false (Text (Bytes (codes "(?:xy)?$"))) (View (codes "zxy")) (Matches true);
  Run 76 MMatch false (Text (Bytes (codes "~(?:xy)?$"))) (View (codes "zxy")) (Matches false);
  Run 78 MMatch false (Text (Bytes (codes "^abc"))) (View (codes "abc")) (Matches true);
  Run 79 MMatch false (Text (Bytes (codes "^def$"))) (View (codes "def")) (Matches true);
  Run 80 MMatch false (Text (Bytes (codes "a^"))) (View (codes "a")) (Matches false);
  Run 81 MMatch false (Text (Bytes (codes "$a"))) (View (codes "a")) (Matches false);
  Run 83 MSearch false (Text (Bytes (codes "a+?"))) (View (codes "aaax")) (Matches true);
  Run 84 MSearch false (Text (Bytes (codes "a+?"))) (View (codes "ax")) (Matches true);
  Run 85 MMatch false (Text (Bytes (codes "a+?"))) (View (codes "x")) (Matches false);
  Run 87 MSearch false (Text (Bytes (codes "a++"))) (View (codes "aaax")) (Matches true);
  Run 88 MSearch false (Text (Bytes (codes "a++"))) (View (codes "ax")) (Matches true);
  Run 89 MMatch false (Text (Bytes (codes "a++"))) (View (codes "x")) (Matches false);
  Run 91 MMatch false (Text (Bytes (codes "a*?x"))) (View (codes "aaax")) (Matches true);
  Run 92 MMatch false (Text (Bytes (codes "a*?x"))) (View (codes "ax")) (Matches true);
  Run 93 MMatch false (Text (Bytes (codes "a*?x"))) (View (codes "x")) (Matches true);
  Run 94 MMatch false (Text (Bytes (codes "a*?x"))) (View (codes "y")) (Matches false);
  Run 96 MMatch false (Text (Bytes (codes "a*+x"))) (View (codes "aaax")) (Matches true);
  Run 97 MMatch false (Text (Bytes (codes "a*+x"))) (View (codes "ax")) (Matches true);
  Run 98 MMatch false (Text (Bytes (codes "a*+x"))) (View (codes "x")) (Matches true);
  Run 99 MMatch false (Text (Bytes (codes "a*+x"))) (View (codes "y")) (Matches false);
  Run 101 MMatch false (Text (Bytes (codes "a*+ab"))) (View (codes "aaab")) (Matches false);
  Run 102 MMatch false (Text (Bytes (codes "a++ab"))) (View (codes "aaab")) (Matches false);
  Run 103 MMatch false (Text (Bytes (codes "a*+ab"))) (View (codes "ab")) (Matches false);
  Run 104 MMatch false (Text (Bytes (codes "a++ab"))) (View (codes "aab")) (Matches false);
  Run 106 MMatch false (Text (Bytes (codes "a*+ba"))) (View (codes "aaba")) (Matches true);
  Run 107 MMatch false (Text (Bytes (codes "a++ba"))) (View (codes "aaba")) (Matches true);
  Run 108 MMatch false (Text (Bytes (codes "a*+ba"))) (View (codes "ba")) (Matches true);
  Run 109 MMatch false (Text (Bytes (codes "a++ba"))) (View (codes "aba")) (Matches true);
  Run 111 MMatch false (Text (Bytes (codes "a{3,}x"))) (View (codes "aaax")) (Matches true);
  Run 112 MMatch false (Text (Bytes (codes "a{3,}x"))) (View (codes "aaaax")) (Matches true);
  Run 114 MMatch false (Text (Bytes (codes "^a{5}"))) (View (codes "aaaaa")) (Matches true);
  Run 115 MSearch false (Text (Bytes (codes "^a{5}"))) (View (codes "aaaaaa")) (Matches true);
  Run 116 MMatch false (Text (Bytes (codes "^a{5}$"))) (View (codes "aaaaaa")) (Matches false);
  Run 118 MMatch false (Text (Bytes (codes "a*"))) (View (codes "aaa")) (Matches true);
  Run 119 MMatch false (Text (Bytes (codes "a+"))) (View (codes "aaa")) (Matches true);
  Run 120 MMatch false (Text (Bytes (codes "a*"))) (View []) (Matches true);
  Run 121 MMatch false (Text (Bytes (codes "a+"))) (View (codes "a")) (Matches true);
  Run 123 MMatch false (Text (Bytes (codes "a*$"))) (View (codes "aaa")) (Matches true);
  Run 124 MMatch false (Text (Bytes (codes "a+$"))) (View (codes "aaa")) (Matches true);
  Run 125 MMatch false (Text (Bytes (codes "a*$"))) (View []) (Matches true);
  Run 126 MMatch false (Text (Bytes (codes "a+$"))) (View (codes "a")) (Matches true);
  Run 128 MMatch false (Text (Bytes (codes "a*xb"))) (View (codes "aaxb")) (Matches true);
  Run 129 MMatch false (Text (Bytes (codes "a+xb"))) (View (codes "aaxb")) (Matches true);
  Run 130 MMatch false (Text (Bytes (codes "a*xb"))) (View (codes "xb")) (Matches true);
  Run 131 MMatch false (Text (Bytes (codes "a+xb"))) (View (codes "axb")) (Matches true);
  Run 133 MMatch false (Text (Bytes (codes "a*ab"))) (View (codes "aaab")) (Matches true);
  Run 134 MMatch false (Text (Bytes (codes "a+ab"))) (View (codes "aaab")) (Matches true);
  Run 135 MMatch false (Text (Bytes (codes "a*ab"))) (View (codes "ab")) (Matches true);
  Run 136 MMatch false (Text (Bytes (codes "a+ab"))) (View (codes "aab")) (Matches true);
  Run 138 MMatch false (Text (Bytes (codes "^a{2,5}ab"))) (View (codes "aab")) (Matches false);
  Run 139 MMatch false (Text (Bytes (codes "^a{2,5}ab"))) (View (codes "aaab")) (Matches true);
  Run 140 MMatch false (Text (Bytes (codes "^a{2,5}ab"))) (View (codes "aaaab")) (Matches true);
  Run 141 MMatch false (Text (Bytes (codes "^a{2,5}ab"))) (View (codes "aaaaab")) (Matches true);
  Run 142 MMatch false (Text (Bytes (codes "^a{2,5}ab"))) (View (codes "aaaaaab")) (Matches true);
  Run 143 MMatch false (Text (Bytes (codes "^a{2,5}ab"))) (View (codes "aaaaaaab")) (Matches false);
  Run 145 MMatch false (Text (Bytes (codes "[a-z]+[^a-z]+"))) (View (codes "abcdef123456")) (Matches true);
  Run 147 MMatch false (Text (Bytes (codes "(abc)"))) (View (codes "abc")) (Matches true);
  Run 148 MMatch false (Text (Bytes (codes "(abc)+"))) (View (codes "abc")) (Matches true);
  Run 149 MMatch false (Text (Bytes (codes "(abc)+"))) (View (codes "abcabc")) (Matches true);
  Run 150 MMatch false (Text (Bytes (codes "(abc)+"))) (View (codes "abcabcabc")) (Matches true);
  Run 152 MMatch false (Text (Bytes (codes "(?<name>abc)"))) (View (codes "abc")) (Matches true);
  Run 153 MMatch false (Text (Bytes (codes "(?<name>abc)+"))) (View (codes "abc")) (Matches true);
  Run 154 MMatch false (Text (Bytes (codes "(?<name>abc)+"))) (View (codes "abcabc")) (Matches true);
  Run 155 MMatch false (Text (Bytes (codes "(?<name>abc)+"))) (View (codes "abcabcabc")) (Matches true);
  Run 156 MMatch false (Text (Bytes (codes "(?<name>abc)+"))) (View (codes "name")) (Matches false);
  Run 158 MSearch false (Text (Bytes (codes "^([a-z]+)"))) (View (codes "abcdef1234")) (GroupIs 0 (codes "abcdef"));
  Run 159 MMatch false (Text (Bytes (codes "^([a-z]+)1234"))) (View (codes "abcdef1234")) (GroupIs 0 (codes "abcdef1234"));
  Run 160 MSearch false (Text (Bytes (codes "^([a-z])"))) (View (codes "abcdef1234")) (GroupIs 0 (codes "a"));
  Run 162 MMatch false (Text (Bytes (codes "^([0-9]+[a-z]+)+"))) (View (codes "123abc456def")) (Matches true);
  Run 163 MMatch false (Text (Bytes (codes "^([0-9]+[a-z]+)+"))) (View (codes "123abc456def")) (GroupIs 1 (codes "456def"));
  Run 164 MMatch false (Text (Bytes (codes "^([0-9]+[a-z]+)+"))) (View (codes "123abc456def")) (GroupIs 0 (codes "123abc456def"));
  Run 166 MMatch false (Text (Bytes (codes "^([0-9]++[a-z]++)+"))) (View (codes "123abc456def")) (Matches true);
  Run 167 MMatch false (Text (Bytes (codes "^([0-9]++[a-z]++)+"))) (View (codes "123abc456def")) (GroupIs 1 (codes "456def"));
  Run 168 MMatch false (Text (Bytes (codes "^([0-9]++[a-z]++)+"))) (View (codes "123abc456def")) (GroupIs 0 (codes "123abc456def"));
  Run 170 MSearch false (Text (Bytes (codes "^([0-9]+?[a-z]+?)+"))) (View (codes "123abc456def")) (Matches true);
  Run 171 MSearch false (Text (Bytes (codes "^([0-9]+?[a-z]+?)+"))) (View (codes "123abc456def")) (GroupIs 1 (codes "123a"));
  Run 172 MSearch false (Text (Bytes (codes "^([0-9]+?[a-z]+?)+"))) (View (codes "123abc456def")) (GroupIs 0 (codes "123a"));
  Run 174 MMatch false (Text (Bytes (codes "^([0-9]+?[a-z]++)+"))) (View (codes "123abc456def")) (Matches true);
  Run 175 MMatch false (Text (Bytes (codes "^([0-9]+?[a-z]++)+"))) (View (codes "123abc456def")) (GroupIs 1 (codes "456def"));
  Run 176 MMatch false (Text (Bytes (codes "^([0-9]+?[a-z]++)+"))) (View (codes "123abc456def")) (GroupIs 0 (codes "123abc456def"));
  Run 178 MMatch false (Text (Bytes (codes "^([a-z]{2})([a-z]{2})"))) (View (codes "abcd")) (GroupIs 2 (codes "cd"));
  Run 182 MMatch false (Text (Bytes (codes "^([a-z]+):\g{1}$"))) (View (codes "abc:abc")) (Matches true);
  Run 183 MMatch false (Text (Bytes (codes "^([a-z]+):\g{1}$"))) (View (codes "abc:abc")) (GroupIs 1 (codes "abc"));
  Run 184 MMatch false (Text (Bytes (codes "^([a-z]+):\g{1}$"))) (View (codes "abc:abce")) (Matches false);
  Run 185 MMatch false (Text (Bytes (codes "^([a-z]+)\g{1}$"))) (View (codes "abcabc")) (Matches true);
  Run 186 MMatch false (Text (Bytes (codes "^([a-z]+)\g{1}$"))) (View (codes "abcabcd")) (Matches false);
  Syntax 187 (Bytes (codes "^([a-z]+)\g{-1}$")) true;
  Run 188 MMatch false (Text (Bytes (codes "^([a-z]+)\g{-1}$"))) (View (codes "abcabc")) (Matches true);
  Syntax 189 (Bytes (codes "^([a-z]+)\g{-2}$")) false;
  Run 192 MMatch false (Text (Bytes (codes "^(?<text>[a-z]+):\g{text}$"))) (View (codes "abc:abc")) (Matches true);
  Run 194 MMatch false (Text (Bytes (codes "^abc$"))) (View (codes "abc")) (Matches true);
  Run 195 MMatch false (Text (Bytes (codes "^abc$"))) (View (codes "abc")) (Matches true);
  Run 197 MMatch false (Text (Bytes (codes "^abc$"))) (View (codes "abc")) (Matches true);
  Run 198 MMatch false (Text (Bytes (codes "^abc$"))) (View (codes "abc")) (Matches true);
  Run 200 MMatch false (Text (Bytes (codes "\(\)"))) (View (codes "()")) (Matches true);
  Run 201 MMatch false (Text (Bytes (codes "\[\]"))) (View (codes "[]")) (Matches true);
  Run 202 MMatch false (Text (Bytes (codes "\[\]"))) (View (codes "[]")) (Matches true);
  Run 204 MMatch false (Text (Bytes (codes "\[([A-Z]*?)\]"))) (View (codes "[]")) (Matches true);
  Run 205 MMatch false (Text (Bytes (codes "\[([A-Z]*?)\]"))) (View (codes "[URL]")) (Matches true);
  Run 207 MMatch false (Text (Bytes (codes "\[([\s\S]*?)\]\(([\s\S]*?)\)"))) (Pointer (codes "[URL](https://cpp.fail/ctre)")) (Matches true);
  Run 209 MMatch false (Text (Bytes (codes "\s"))) (Pointer (codes " ")) (Matches true);
  Run 210 MMatch false (Text (Bytes (codes "[[:space:]]"))) (Pointer (codes " ")) (Matches true);
  Run 211 MMatch false (Text (Bytes (codes "\h"))) (Pointer (codes " ")) (Matches true);
  Run 212 MMatch false (Text (Bytes (codes "\h"))) (Pointer [8201]) (Matches true);
  Run 213 MMatch false (Text (Bytes (codes "\v"))) (Pointer [10]) (Matches true);
  Run 215 MMatch false (Text (Bytes (codes "\S"))) (Pointer (codes "A")) (Matches true);
  Run 216 MMatch false (Text (Bytes (codes "\H"))) (Pointer (codes "A")) (Matches true);
  Run 217 MMatch false (Text (Bytes (codes "\V"))) (Pointer (codes "A")) (Matches true);
  Run 220 MMatch false (Text (Bytes (codes "abc"))) (Pointer (codes "abc")) (Matches true);
  Run 221 MMatch false (Text (Bytes (codes "[_]"))) (Pointer (codes "_")) (Matches true);
  Run 222 MMatch false (Text (Bytes (codes "[()]"))) (Pointer (codes "(")) (Matches true);
  Run 223 MMatch false (Text (Bytes (codes "[$]"))) (Pointer (codes "$")) (Matches true);
  Run 224 MMatch false (Text (Bytes (codes "[*]"))) (Pointer (codes "*")) (Matches true);
  Run 225 MMatch false (Text (Bytes (codes "[+]"))) (Pointer (codes "+")) (Matches true);
  Run 226 MMatch false (Text (Bytes (codes "[?]"))) (Pointer (codes "?")) (Matches true);
  Run 227 MMatch false (Text (Bytes (codes "[{}]"))) (Pointer (codes "{")) (Matches true);
  Run 228 MMatch false (Text (Bytes (codes "[(-)]"))) (Pointer (codes "(")) (Matches true);
  Run 229 MMatch false (Text (Bytes (codes "[(-)]"))) (Pointer (codes ")")) (Matches true);
  Run 231 MMatch false (Text (Bytes (codes "[A-Z_a-z]"))) (Pointer (codes "a")) (Matches true);
  Run 232 MMatch false (Text (Bytes (codes "[A-Z_a-z]"))) (Pointer (codes "_")) (Matches true);
  Run 233 MMatch false (Text (Bytes (codes "[A-Z_a-z]"))) (Pointer (codes "Z")) (Matches true);
  Run 237 MMatch false (Text (Bytes (codes "<"))) (Pointer (codes "<")) (Matches true);
  Run 238 MMatch false (Text (Bytes (codes "(<)"))) (Pointer (codes "<")) (Matches true);
  Run 239 MMatch false (Text (Bytes (codes "(<>)"))) (Pointer (codes "<>")) (Matches true);
  Run 240 MMatch false (Text (Bytes (codes "(<>?)"))) (Pointer (codes "<")) (Matches true);
  Run 241 MMatch false (Text (Bytes (codes "(<?>)"))) (Pointer (codes ">")) (Matches true);
  Run 242 MMatch false (Text (Bytes (codes "()"))) (Pointer []) (Matches true);
  Run 245 MMatch false (Then (Text (Bytes (codes "[a-z]"))) (Text (Bytes (codes "[0-9]")))) (Pointer (codes "a9")) (Matches true);
  Run 246 MMatch false (Or (Text (Bytes (codes "a"))) (Text (Bytes (codes "b")))) (Pointer (codes "a")) (Matches true);
  Run 247 MMatch false (Or (Text (Bytes (codes "a"))) (Text (Bytes (codes "b")))) (Pointer (codes "b")) (Matches true);
  Run 248 MMatch false (Or (Text (Bytes (codes "a"))) (Text (Bytes (codes "b")))) (Pointer (codes "c")) (Matches false);
  Run 250 MMatch false (Text (Bytes (codes "((a)(b))"))) (View (codes "ab")) (GroupIs 0 (codes "ab"));
  Run 251 MMatch false (Text (Bytes (codes "((a)(b))"))) (View (codes "ab")) (GroupIs 1 (codes "ab"));
  Run 252 MMatch false (Text (Bytes (codes "((a)(b))"))) (View (codes "ab")) (GroupIs 2 (codes "a"));
  Run 253 MMatch false (Text (Bytes (codes "((a)(b))"))) (View (codes "ab")) (GroupIs 3 (codes "b"));
  Run 255 MSearch false (Text (Bytes (codes "^x(?=y)"))) (View (codes "xy")) (GroupIs 0 (codes "x"));
  Run 256 MSearch false (Text (Bytes (codes "^x(?!a)"))) (View (codes "xy")) (GroupIs 0 (codes "x"));
  Run 258 MMatch false (Text (Bytes (codes "a(?!3)[0-9]"))) (View (codes "a0")) (Matches true);
  Run 259 MMatch false (Text (Bytes (codes "a(?!3)[0-9]"))) (View (codes "a9")) (Matches true);
  Run 260 MMatch false (Text (Bytes (codes "a(?!3)[0-9]"))) (View (codes "a3")) (Matches false);
  Run 262 MMatch false (Text (Bytes (codes ".*(.)\g{1}.*"))) (View (codes "abcdefghijk")) (Matches false);
  Run 263 MMatch false (Text (Bytes (codes ".*(.)\g{1}.*"))) (View (codes "aabcdefghijk")) (Matches true);
  Run 264 MMatch false (Text (Bytes (codes ".*(.)\g{1}.*"))) (View (codes "abcdeffghijk")) (Matches true);
  Run 266 MMatch false (Text (Bytes (codes "(?=.*(.)\g{1})[a-z]+"))) (View (codes "abcdeffghijk")) (Matches true);
  Run 267 MMatch false (Text (Bytes (codes "(?=.*(.)\g{1}{2})[a-z]+"))) (View (codes "abcddeffghijk")) (Matches false);
  Run 268 MMatch false (Text (Bytes (codes "(?=.*(.)\g{1}{2})[a-z]+"))) (View (codes "abcdddeffghijk")) (Matches true);
  Run 270 MMatch false (Text (Bytes (codes "(?!.*(.)\g{1})[a-z]+"))) (View (codes "abcdefgh")) (Matches true);
  Run 271 MMatch false (Text (Bytes (codes "(?!.*(.)\g{1})[a-z]+"))) (View (codes "abcdeefgh")) (Matches false);
  Run 273 MMatch false (Text (Bytes (codes "_"))) (View (codes "_")) (Matches true);
  Run 274 MMatch false (Text (Bytes (codes "[<]"))) (View (codes "<")) (Matches true);
  Run 275 MMatch false (Text (Bytes (codes "[>]"))) (View (codes ">")) (Matches true);
  Run 276 MMatch false (Text (Bytes (codes "[<>]"))) (View (codes "<")) (Matches true);
  Run 277 MMatch false (Text (Bytes (codes "[<>]+"))) (View (codes "><")) (Matches true);
  Run 279 MMatch false (Text (Bytes (codes "<[a-z]+>"))) (View (codes "<aloha>")) (Matches true);
  Run 280 MMatch false (Text (Bytes (codes "(<[a-z]+>)\g{1}"))) (View (codes "<aloha><aloha>")) (Matches true);
  Run 283 MMatch false (Text (Bytes (codes "[^\^]"))) (View (codes "a")) (Matches true);
  Run 284 MMatch false (Text (Bytes (codes "[^^]"))) (View (codes "a")) (Matches true);
  Run 285 MMatch false (Text (Bytes (codes "[\-]"))) (View (codes "-")) (Matches true);
  Run 287 MMatch false (Text (Bytes (codes "[\--\-]"))) (View (codes "-")) (Matches true);
  Run 290 MMatch false (Text (Bytes (codes "(|a)+"))) (View (codes "aaaaaa")) (Matches true);
  Run 293 MMatch false (Text (Bytes (codes """"))) (View (codes """")) (Matches true);
  Run 294 MMatch false (Text (Bytes (codes "[""]"))) (View (codes """")) (Matches true);
  Run 295 MMatch false (Text (Bytes (codes "[^""]"))) (View (codes "a")) (Matches true);
  Run 296 MMatch false (Text (Bytes (codes "<"))) (View (codes "<")) (Matches true);
  Run 297 MMatch false (Text (Bytes (codes "[<]"))) (View (codes "<")) (Matches true);
  Run 298 MMatch false (Text (Bytes (codes "\<"))) (View (codes "<")) (Matches true);
  Run 299 MMatch false (Text (Bytes (codes "[\<]"))) (View (codes "<")) (Matches true);
  Run 300 MMatch false (Text (Bytes (codes "[^<]"))) (View (codes "a")) (Matches true);
  Run 303 MMatch false (Text (Bytes (codes "[\+\-]"))) (View (codes "+")) (Matches true);
  Run 304 MMatch false (Text (Bytes (codes "[\+\-]"))) (View (codes "-")) (Matches true);
  Run 305 MMatch false (Text (Bytes (codes "[[:punct:]]"))) (Pointer (codes "-")) (Matches true);
  Run 306 MMatch false (Text (Bytes (codes "[[:punct:]]"))) (Pointer (codes "+")) (Matches true);
  Run 307 MSearch false (Text (Bytes (codes "[\+\-]"))) (View (codes "a+c")) (Matches true);
  Run 308 MMatch false (Text (Bytes (codes "^(?=.*?[\+\-])[a-z [:punct:]]{8,}$"))) (View (codes "abcdefg-")) (Matches true);
  Run 309 MMatch false (Text (Bytes (codes "^(?=.*?[\+\-])[a-z [:punct:]]{8,}$"))) (View (codes "abcdefg+")) (Matches true)].
(** tests/matching2-msvc-greedy.cpp *)
Definition t_matching2_msvc : list test := [
  Run 38 MSearch false (Text (Bytes [])) (View (codes "abc")) (Matches true);
  Run 39 MMatch false (Text (Bytes (codes "abc"))) (View (codes "abc")) (Matches true);
  Run 41 MMatch false (Text (Bytes (codes "a"))) (View (codes "a")) (Matches true);
  Run 42 MSearch false (Text (Bytes (codes "a"))) (View (codes "abc")) (Matches true);
  Run 43 MSearch false (Text (Bytes (codes "b"))) (View (codes "abc")) (Matches true);
  Run 44 MMatch false (Text (Bytes (codes "^b"))) (View (codes "abc")) (Matches false);
  Run 45 MMatch false (Text (Bytes (codes "b"))) (View (codes "a")) (Matches false);
  Run 46 MMatch false (Text (Bytes (codes "."))) (View (codes "a")) (Matches true);
  Run 47 MSearch false (Text (Bytes (codes "."))) (View (codes "abc")) (Matches true);
  Run 48 MMatch false (Text (Bytes (codes "[\-]"))) (View (codes "-")) (Matches true);
  Run 49 MMatch false (Text (Bytes (codes "[\\]"))) (View (codes "\")) (Matches true);
  Run 50 MMatch false (Text (Bytes (codes "[a-z]"))) (View (codes "a")) (Matches true);
  Run 51 MMatch false (Text (Bytes (codes "[a-z]"))) (View (codes "f")) (Matches true);
  Run 52 MMatch false (Text (Bytes (codes "[a-z]"))) (View (codes "z")) (Matches true);
  Run 53 MMatch false (Text (Bytes (codes "[a-z]"))) (View (codes "Z")) (Matches false);
  Run 54 MMatch false (Text (Bytes (codes "\u0050"))) (View (codes "P")) (Matches true);
  Run 55 MMatch false (Text (Bytes (codes "[\u0050-\u0051]"))) (View (codes "Q")) (Matches true);
  Run 56 MMatch false (Text (Bytes (codes "P"))) (View (codes "P")) (Matches true);
  Run 58 MMatch false (Text (Bytes (codes "^[\x30-\x39]+?$"))) (View (codes "123456789")) (Matches true);
  Run 59 MMatch false (Text (Bytes (codes "[a-z0-9]"))) (View (codes "0")) (Matches true);
  Run 60 MMatch false (Text (Bytes (codes "[a-z0-9]"))) (View (codes "A")) (Matches false);
  Run 61 MMatch false (Text (Bytes (codes "[[:xdigit:]]"))) (View (codes "0")) (Matches true);
  Run 62 MMatch false (Text (Bytes (codes "[[:xdigit:]]"))) (View (codes "9")) (Matches true);
  Run 63 MMatch false (Text (Bytes (codes "[[:xdigit:]]"))) (View (codes "a")) (Matches true);
  Run 64 MMatch false (Text (Bytes (codes "[[:xdigit:]]"))) (View (codes "A")) (Matches true);
  Run 65 MMatch false (Text (Bytes (codes "[[:xdigit:]]"))) (View (codes "f")) (Matches true);
  Run 66 MMatch false (Text (Bytes (codes "[[:xdigit:]]"))) (View (codes "g")) (Matches false);
  Run 67 MMatch false (Text (Bytes (codes "abcdef"))) (View (codes "abcdef")) (Matches true);
  Run 68 MMatch false (Text (Bytes (codes "abcdef"))) (View (codes "abcGef")) (Matches false);
  Run 69 MMatch false (Text (Bytes [])) (View []) (Matches true);
  Run 70 MMatch false (Text (Bytes (codes "(?:a|b|c)"))) (View (codes "a")) (Matches true);
  Run 71 MMatch false (Text (Bytes (codes "(?:a|b|c)"))) (View (codes "b")) (Matches true);
  Run 72 MMatch false (Text (Bytes (codes "(?:a|b|c)"))) (View (codes "c")) (Matches true);
  Run 73 MMatch false (Text (Bytes (codes "(?:a|b|c)"))) (View (codes "d")) (Matches false);
  Run 74 MMatch false (Text (Bytes (codes "(?:xy)?"))) (View (codes "xy")) (Matches true);
  Run 75 MMatch false (Text (Bytes (codes "(?:xy)?"))) (View []) (Matches true);
  Run 76 MSearch false (Text (Bytes (codes "(?:xy)?"))) (View (codes "zxy")) (Matches true);
  Run 77 MSearch false (Text (Bytes (codes "(?:xy)?$"))) (View (codes "zxy")) (Matches true);
  Run 78 MMatch false (Text (Bytes (codes "~(?:xy)?$"))) (View (codes "zxy")) (Matches false);
  Run 80 MMatch false (Text (Bytes (codes "^abc"))) (View (codes "abc")) (Matches true);
  Run 81 MMatch false (Text (Bytes (codes "^def$"))) (View (codes "def")) (Matches true);
  Run 82 MMatch false (Text (Bytes (codes "a^"))) (View (codes "a")) (Matches false);
  Run 83 MMatch false (Text (Bytes (codes "$a"))) (View (codes "a")) (Matches false);
  Run 85 MSearch false (Text (Bytes (codes "a+?"))) (View (codes "aaax")) (Matches true);
  Run 86 MSearch false (Text (Bytes (codes "a+?"))) (View (codes "ax")) (Matches true);
  Run 87 MMatch false (Text (Bytes (codes "a+?"))) (View (codes "x")) (Matches false);
  Run 89 MSearch false (Text (Bytes (codes "a++"))) (View (codes "aaax")) (Matches true);
  Run 90 MSearch false (Text (Bytes (codes "a++"))) (View (codes "ax")) (Matches true);
  Run 91 MMatch false (Text (Bytes (codes "a++"))) (View (codes "x")) (Matches false);
  Run 93 MMatch false (Text (Bytes (codes "a*?x"))) (View (codes "aaax")) (Matches true);
  Run 94 MMatch false (Text (Bytes (codes "a*?x"))) (View (codes "ax")) (Matches true);
  Run 95 MMatch false (Text (Bytes (codes "a*?x"))) (View (codes "x")) (Matches true);
  Run 96 MMatch false (Text (Bytes (codes "a*?x"))) (View (codes "y")) (Matches false);
  Run 98 MMatch false (Text (Bytes (codes "a*+x"))) (View (codes "aaax")) (Matches true);
  Run 99 MMatch false (Text (Bytes (codes "a*+x"))) (View (codes "ax")) (Matches true);
  Run 100 MMatch false (Text (Bytes (codes "a*+x"))) (View (codes "x")) (Matches true);
  Run 101 MMatch false (Text (Bytes (codes "a*+x"))) (View (codes "y")) (Matches false);
  Run 103 MMatch false (Text (Bytes (codes "a*+ab"))) (View (codes "aaab")) (Matches false);
  Run 104 MMatch false (Text (Bytes (codes "a++ab"))) (View (codes "aaab")) (Matches false);
  Run 105 MMatch false (Text (Bytes (codes "a*+ab"))) (View (codes "ab")) (Matches false);
  Run 106 MMatch false (Text (Bytes (codes "a++ab"))) (View (codes "aab")) (Matches false);
  Run 108 MMatch false (Text (Bytes (codes "a*+ba"))) (View (codes "aaba")) (Matches true);
  Run 109 MMatch false (Text (Bytes (codes "a++ba"))) (View (codes "aaba")) (Matches true);
  Run 110 MMatch false (Text (Bytes (codes "a*+ba"))) (View (codes "ba")) (Matches true);
  Run 111 MMatch false (Text (Bytes (codes "a++ba"))) (View (codes "aba")) (Matches true);
  Run 113 MMatch false (Text (Bytes (codes "a{3,}x"))) (View (codes "aaax")) (Matches true);
  Run 114 MMatch false (Text (Bytes (codes "a{3,}x"))) (View (codes "aaaax")) (Matches true);
  Run 116 MMatch false (Text (Bytes (codes "^a{5}"))) (View (codes "aaaaa")) (Matches true);
  Run 117 MSearch false (Text (Bytes (codes "^a{5}"))) (View (codes "aaaaaa")) (Matches true);
  Run 118 MMatch false (Text (Bytes (codes "^a{5}$"))) (View (codes "aaaaaa")) (Matches false);
  Run 120 MMatch false (Text (Bytes (codes "a*"))) (View (codes "aaa")) (Matches true);
  Run 121 MMatch false (Text (Bytes (codes "a+"))) (View (codes "aaa")) (Matches true);
  Run 122 MMatch false (Text (Bytes (codes "a*"))) (View []) (Matches true);
  Run 123 MMatch false (Text (Bytes (codes "a+"))) (View (codes "a")) (Matches true);
  Run 125 MMatch false (Text (Bytes (codes "a*$"))) (View (codes "aaa")) (Matches true);
  Run 126 MMatch false (Text (Bytes (codes "a+$"))) (View (codes "aaa")) (Matches true);
  Run 127 MMatch false (Text (Bytes (codes "a*$"))) (View []) (Matches true);
  Run 128 MMatch false (Text (Bytes (codes "a+$"))) (View (codes "a")) (Matches true);
  Run 130 MMatch false (Text (Bytes (codes "a*xb"))) (View (codes "aaxb")) (Matches true);
  Run 131 MMatch false (Text (Bytes (codes "a+xb"))) (View (codes "aaxb")) (Matches true);
  Run 132 MMatch false (Text (Bytes (codes "a*xb"))) (View (codes "xb")) (Matches true);
  Run 133 MMatch false (Text (Bytes (codes "a+xb"))) (View (codes "axb")) (Matches true);
  Run 135 MMatch false (Text (Bytes (codes "a*ab"))) (View (codes "aaab")) (Matches true);
  Run 136 MMatch false (Text (Bytes (codes "a+ab"))) (View (codes "aaab")) (Matches true);
  Run 137 MMatch false (Text (Bytes (codes "a*ab"))) (View (codes "ab")) (Matches true);
  Run 138 MMatch false (Text (Bytes (codes "a+ab"))) (View (codes "aab")) (Matches true);
  Run 140 MMatch false (Text (Bytes (codes "^a{2,5}ab"))) (View (codes "aab")) (Matches false);
  Run 141 MMatch false (Text (Bytes (codes "^a{2,5}ab"))) (View (codes "aaab")) (Matches true);
  Run 142 MMatch false (Text (Bytes (codes "^a{2,5}ab"))) (View (codes "aaaab")) (Matches true);
  Run 143 MMatch false (Text (Bytes (codes "^a{2,5}ab"))) (View (codes "aaaaab")) (Matches true);
  Run 144 MMatch false (Text (Bytes (codes "^a{2,5}ab"))) (View (codes "aaaaaab")) (Matches true);
  Run 145 MMatch false (Text (Bytes (codes "^a{2,5}ab"))) (View (codes "aaaaaaab")) (Matches false);
  Run 147 MMatch false (Text (Bytes (codes "[a-z]+[^a-z]+"))) (View (codes "abcdef123456")) (Matches true);
  Run 149 MMatch false (Text (Bytes (codes "(abc)"))) (View (codes "abc")) (Matches true);
  Run 150 MMatch false (Text (Bytes (codes "(abc)+"))) (View (codes "abc")) (Matches true);
  Run 151 MMatch false (Text (Bytes (codes "(abc)+"))) (View (codes "abcabc")) (Matches true);
  Run 152 MMatch false (Text (Bytes (codes "(abc)+"))) (View (codes "abcabcabc")) (Matches true);
  Run 154 MMatch false (Text (Bytes (codes "(?<name>abc)"))) (View (codes "abc")) (Matches true);
  Run 155 MMatch false (Text (Bytes (codes "(?<name>abc)+"))) (View (codes "abc")) (Matches true);
  Run 156 MMatch false (Text (Bytes (codes "(?<name>abc)+"))) (View (codes "abcabc")) (Matches true);
  Run 157 MMatch false (Text (Bytes (codes "(?<name>abc)+"))) (View (codes "abcabcabc")) (Matches true);
  Run 158 MMatch false (Text (Bytes (codes "(?<name>abc)+"))) (View (codes "name")) (Matches false);
  Run 160 MSearch false (Text (Bytes (codes "^([a-z]+)"))) (View (codes "abcdef1234")) (GroupIs 0 (codes "abcdef"));
  Run 161 MMatch false (Text (Bytes (codes "^([a-z]+)1234"))) (View (codes "abcdef1234")) (GroupIs 0 (codes "abcdef1234"));
  Run 162 MSearch false (Text (Bytes (codes "^([a-z])"))) (View (codes "abcdef1234")) (GroupIs 0 (codes "a"));
  Run 164 MMatch false (Text (Bytes (codes "^([0-9]+[a-z]+)+"))) (View (codes "123abc456def")) (Matches true);
  Run 165 MMatch false (Text (Bytes (codes "^([0-9]+[a-z]+)+"))) (View (codes "123abc456def")) (GroupIs 1 (codes "456def"));
  Run 166 MMatch false (Text (Bytes (codes "^([0-9]+[a-z]+)+"))) (View (codes "123abc456def")) (GroupIs 0 (codes "123abc456def"));
  Run 168 MMatch false (Text (Bytes (codes "^([0-9]++[a-z]++)+"))) (View (codes "123abc456def")) (Matches true);
  Run 169 MMatch false (Text (Bytes (codes "^([0-9]++[a-z]++)+"))) (View (codes "123abc456def")) (GroupIs 1 (codes "456def"));
  Run 170 MMatch false (Text (Bytes (codes "^([0-9]++[a-z]++)+"))) (View (codes "123abc456def")) (GroupIs 0 (codes "123abc456def"));
  Run 172 MSearch false (Text (Bytes (codes "^([0-9]+?[a-z]+?)+"))) (View (codes "123abc456def")) (Matches true);
  Run 173 MSearch false (Text (Bytes (codes "^([0-9]+?[a-z]+?)+"))) (View (codes "123abc456def")) (GroupIs 1 (codes "123a"));
  Run 174 MSearch false (Text (Bytes (codes "^([0-9]+?[a-z]+?)+"))) (View (codes "123abc456def")) (GroupIs 0 (codes "123a"));
  Run 176 MMatch false (Text (Bytes (codes "^([0-9]+?[a-z]++)+"))) (View (codes "123abc456def")) (Matches true);
  Run 177 MMatch false (Text (Bytes (codes "^([0-9]+?[a-z]++)+"))) (View (codes "123abc456def")) (GroupIs 1 (codes "456def"));
  Run 178 MMatch false (Text (Bytes (codes "^([0-9]+?[a-z]++)+"))) (View (codes "123abc456def")) (GroupIs 0 (codes "123abc456def"));
  Run 180 MMatch false (Text (Bytes (codes "^([a-z]{2})([a-z]{2})"))) (View (codes "abcd")) (GroupIs 2 (codes "cd"));
  Run 184 MMatch false (Text (Bytes (codes "^([a-z]+):\g{1}$"))) (View (codes "abc:abc")) (Matches true);
  Run 185 MMatch false (Text (Bytes (codes "^([a-z]+):\g{1}$"))) (View (codes "abc:abc")) (GroupIs 1 (codes "abc"));
  Run 186 MMatch false (Text (Bytes (codes "^([a-z]+):\g{1}$"))) (View (codes "abc:abce")) (Matches false);
  Run 187 MMatch false (Text (Bytes (codes "^([a-z]+)\g{1}$"))) (View (codes "abcabc")) (Matches true);
  Run 188 MMatch false (Text (Bytes (codes "^([a-z]+)\g{1}$"))) (View (codes "abcabcd")) (Matches false);
  Syntax 189 (Bytes (codes "^([a-z]+)\g{-1}$")) true;
  Run 190 MMatch false (Text (Bytes (codes "^([a-z]+)\g{-1}$"))) (View (codes "abcabc")) (Matches true);
  Syntax 191 (Bytes (codes "^([a-z]+)\g{-2}$")) false;
  Run 194 MMatch false (Text (Bytes (codes "^(?<text>[a-z]+):\g{text}$"))) (View (codes "abc:abc")) (Matches true);
  Run 196 MMatch false (Text (Bytes (codes "^abc$"))) (View (codes "abc")) (Matches true);
  Run 197 MMatch false (Text (Bytes (codes "^abc$"))) (View (codes "abc")) (Matches true);
  Run 199 MMatch false (Text (Bytes (codes "^abc$"))) (View (codes "abc")) (Matches true);
  Run 200 MMatch false (Text (Bytes (codes "^abc$"))) (View (codes "abc")) (Matches true);
  Run 202 MMatch false (Text (Bytes (codes "\(\)"))) (View (codes "()")) (Matches true);
  Run 203 MMatch false (Text (Bytes (codes "\[\]"))) (View (codes "[]")) (Matches true);
  Run 204 MMatch false (Text (Bytes (codes "\[\]"))) (View (codes "[]")) (Matches true);
  Run 206 MMatch false (Text (Bytes (codes "\[([A-Z]*?)\]"))) (View (codes "[]")) (Matches true);
  Run 207 MMatch false (Text (Bytes (codes "\[([A-Z]*?)\]"))) (View (codes "[URL]")) (Matches true);
  Run 209 MMatch false (Text (Bytes (codes "\[([\s\S]*?)\]\(([\s\S]*?)\)"))) (Pointer (codes "[URL](https://cpp.fail/ctre)")) (Matches true);
  Run 211 MMatch false (Text (Bytes (codes "abc"))) (Pointer (codes "abc")) (Matches true);
  Run 212 MMatch false (Text (Bytes (codes "[_]"))) (Pointer (codes "_")) (Matches true);
  Run 213 MMatch false (Text (Bytes (codes "[()]"))) (Pointer (codes "(")) (Matches true);
  Run 214 MMatch false (Text (Bytes (codes "[$]"))) (Pointer (codes "$")) (Matches true);
  Run 215 MMatch false (Text (Bytes (codes "[*]"))) (Pointer (codes "*")) (Matches true);
  Run 216 MMatch false (Text (Bytes (codes "[+]"))) (Pointer (codes "+")) (Matches true);
  Run 217 MMatch false (Text (Bytes (codes "[?]"))) (Pointer (codes "?")) (Matches true);
  Run 218 MMatch false (Text (Bytes (codes "[{}]"))) (Pointer (codes "{")) (Matches true);
  Run 219 MMatch false (Text (Bytes (codes "[(-)]"))) (Pointer (codes "(")) (Matches true);
  Run 220 MMatch false (Text (Bytes (codes "[(-)]"))) (Pointer (codes ")")) (Matches true);
  Run 222 MMatch false (Text (Bytes (codes "[A-Z_a-z]"))) (Pointer (codes "a")) (Matches true);
  Run 223 MMatch false (Text (Bytes (codes "[A-Z_a-z]"))) (Pointer (codes "_")) (Matches true);
  Run 224 MMatch false (Text (Bytes (codes "[A-Z_a-z]"))) (Pointer (codes "Z")) (Matches true);
  Run 229 MMatch false (Text (Bytes (codes "<"))) (Pointer (codes "<")) (Matches true);
  Run 230 MMatch false (Text (Bytes (codes "(<)"))) (Pointer (codes "<")) (Matches true);
  Run 231 MMatch false (Text (Bytes (codes "(<>)"))) (Pointer (codes "<>")) (Matches true);
  Run 232 MMatch false (Text (Bytes (codes "(<>?)"))) (Pointer (codes "<")) (Matches true);
  Run 233 MMatch false (Text (Bytes (codes "(<?>)"))) (Pointer (codes ">")) (Matches true);
  Run 234 MMatch false (Text (Bytes (codes "()"))) (Pointer []) (Matches true);
  Run 237 MMatch false (Then (Text (Bytes (codes "[a-z]"))) (Text (Bytes (codes "[0-9]")))) (Pointer (codes "a9")) (Matches true);
  Run 238 MMatch false (Or (Text (Bytes (codes "a"))) (Text (Bytes (codes "b")))) (Pointer (codes "a")) (Matches true);
  Run 239 MMatch false (Or (Text (Bytes (codes "a"))) (Text (Bytes (codes "b")))) (Pointer (codes "b")) (Matches true);
  Run 240 MMatch false (Or (Text (Bytes (codes "a"))) (Text (Bytes (codes "b")))) (Pointer (codes "c")) (Matches false);
  Run 242 MMatch false (Text (Bytes (codes "((a)(b))"))) (View (codes "ab")) (GroupIs 0 (codes "ab"));
  Run 243 MMatch false (Text (Bytes (codes "((a)(b))"))) (View (codes "ab")) (GroupIs 1 (codes "ab"));
  Run 244 MMatch false (Text (Bytes (codes "((a)(b))"))) (View (codes "ab")) (GroupIs 2 (codes "a"));
  Run 245 MMatch false (Text (Bytes (codes "((a)(b))"))) (View (codes "ab")) (GroupIs 3 (codes "b"));
  Run 247 MSearch false (Text (Bytes (codes "^x(?=y)"))) (View (codes "xy")) (GroupIs 0 (codes "x"));
  Run 248 MSearch false (Text (Bytes (codes "^x(?!a)"))) (View (codes "xy")) (GroupIs 0 (codes "x"));
  Run 250 MMatch false (Text (Bytes (codes "a(?!3)[0-9]"))) (View (codes "a0")) (Matches true);
  Run 251 MMatch false (Text (Bytes (codes "a(?!3)[0-9]"))) (View (codes "a9")) (Matches true);
  Run 252 MMatch false (Text (Bytes (codes "a(?!3)[0-9]"))) (View (codes "a3")) (Matches false);
  Run 254 MMatch false (Text (Bytes (codes ".*(.)\g{1}.*"))) (View (codes "abcdefghijk")) (Matches false);
  Run 255 MMatch false (Text (Bytes (codes ".*(.)\g{1}.*"))) (View (codes "aabcdefghijk")) (Matches true);
  Run 256 MMatch false (Text (Bytes (codes ".*(.)\g{1}.*"))) (View (codes "abcdeffghijk")) (Matches true);
  Run 258 MMatch false (Text (Bytes (codes "(?=.*(.)\g{1})[a-z]+"))) (View (codes "abcdeffghijk")) (Matches true);
  Run 259 MMatch false (Text (Bytes (codes "(?=.*(.)\g{1}{2})[a-z]+"))) (View (codes "abcddeffghijk")) (Matches false);
  Run 260 MMatch false (Text (Bytes (codes "(?=.*(.)\g{1}{2})[a-z]+"))) (View (codes "abcdddeffghijk")) (Matches true);
  Run 262 MMatch false (Text (Bytes (codes "(?!.*(.)\g{1})[a-z]+"))) (View (codes "abcdefgh")) (Matches true);
  Run 263 MMatch false (Text (Bytes (codes "(?!.*(.)\g{1})[a-z]+"))) (View (codes "abcdeefgh")) (Matches false);
  Run 265 MMatch false (Text (Bytes (codes "_"))) (View (codes "_")) (Matches true);
  Run 266 MMatch false (Text (Bytes (codes "[<]"))) (View (codes "<")) (Matches true);
  Run 267 MMatch false (Text (Bytes (codes "[>]"))) (View (codes ">")) (Matches true);
  Run 268 MMatch false (Text (Bytes (codes "[<>]"))) (View (codes "<")) (Matches true);
  Run 269 MMatch false (Text (Bytes (codes "[<>]+"))) (View (codes "><")) (Matches true);
  Run 271 MMatch false (Text (Bytes (codes "<[a-z]+>"))) (View (codes "<aloha>")) (Matches true);
  Run 272 MMatch false (Text (Bytes (codes "(<[a-z]+>)\g{1}"))) (View (codes "<aloha><aloha>")) (Matches true);
  Run 275 MMatch false (Text (Bytes (codes "[^\^]"))) (View (codes "a")) (Matches true);
  Run 276 MMatch false (Text (Bytes (codes "[^^]"))) (View (codes "a")) (Matches true);
  Run 277 MMatch false (Text (Bytes (codes "[\-]"))) (View (codes "-")) (Matches true);
  Run 278 MMatch false (Text (Bytes (codes "[\--\-]"))) (View (codes "-")) (Matches true);
  Run 281 MMatch false (Text (Bytes (codes "[a-z]+abc"))) (Pointer (codes "xxxabc")) (Matches true)].
(** tests/matching3.cpp *)
Definition t_matching3 : list test := [
  Run 31 MMatch false (Text (Bytes (codes "blabla"))) (Pointer (codes "blabla")) (Matches true);
  Run 32 MMatch false (Text (Bytes (codes "blabla"))) (Pointer (codes "blabla2")) (Matches false);
  Run 34 MSearch false (Text (Bytes [])) (Pointer (codes "abc")) (Matches true);
  Run 35 MMatch false (Text (Bytes (codes "abc"))) (Pointer (codes "abc")) (Matches true);
  Run 37 MMatch false (Text (Bytes (codes "a"))) (Pointer (codes "a")) (Matches true);
  Run 38 MSearch false (Text (Bytes (codes "a"))) (Pointer (codes "abc")) (Matches true);
  Run 39 MSearch false (Text (Bytes (codes "b"))) (Pointer (codes "abc")) (Matches true);
  Run 40 MMatch false (Text (Bytes (codes "^b"))) (Pointer (codes "abc")) (Matches false);
  Run 41 MMatch false (Text (Bytes (codes "b"))) (Pointer (codes "a")) (Matches false);
  Run 42 MMatch false (Text (Bytes (codes "."))) (Pointer (codes "a")) (Matches true);
  Run 43 MSearch false (Text (Bytes (codes "."))) (Pointer (codes "abc")) (Matches true);
  Run 44 MMatch false (Text (Bytes (codes "[\-]"))) (Pointer (codes "-")) (Matches true);
  Run 45 MMatch false (Text (Bytes (codes "[\\]"))) (Pointer (codes "\")) (Matches true);
  Run 46 MMatch false (Text (Bytes (codes "[a-z]"))) (Pointer (codes "a")) (Matches true);
  Run 47 MMatch false (Text (Bytes (codes "[a-z]"))) (Pointer (codes "f")) (Matches true);
  Run 48 MMatch false (Text (Bytes (codes "[a-z]"))) (Pointer (codes "z")) (Matches true);
  Run 49 MMatch false (Text (Bytes (codes "[a-z]"))) (Pointer (codes "Z")) (Matches false);
  Run 50 MMatch false (Text (Bytes (codes "^[\x30-\x39]+?$"))) (Pointer (codes "123456789")) (Matches true);
  Run 51 MMatch false (Text (Bytes (codes "[a-z0-9]"))) (Pointer (codes "0")) (Matches true);
  Run 52 MMatch false (Text (Bytes (codes "[a-z0-9]"))) (Pointer (codes "A")) (Matches false);
  Run 53 MMatch false (Text (Bytes (codes "[[:xdigit:]]"))) (Pointer (codes "0")) (Matches true);
  Run 54 MMatch false (Text (Bytes (codes "[[:xdigit:]]"))) (Pointer (codes "9")) (Matches true);
  Run 55 MMatch false (Text (Bytes (codes "[[:xdigit:]]"))) (Pointer (codes "a")) (Matches true);
  Run 56 MMatch false (Text (Bytes (codes "[[:xdigit:]]"))) (Pointer (codes "A")) (Matches true);
  Run 57 MMatch false (Text (Bytes (codes "[[:xdigit:]]"))) (Pointer (codes "f")) (Matches true);
  Run 58 MMatch false (Text (Bytes (codes "[[:xdigit:]]"))) (Pointer (codes "g")) (Matches false);
  Run 59 MMatch false (Text (Bytes (codes "abcdef"))) (Pointer (codes "abcdef")) (Matches true);
  Run 60 MMatch false (Text (Bytes (codes "abcdef"))) (Pointer (codes "abcGef")) (Matches false);
  Run 61 MMatch false (Text (Bytes [])) (Pointer []) (Matches true);
  Run 62 MMatch false (Text (Bytes (codes "(?:a|b|c)"))) (Pointer (codes "a")) (Matches true);
  Run 63 MMatch false (Text (Bytes (codes "(?:a|b|c)"))) (Pointer (codes "b")) (Matches true);
  Run 64 MMatch false (Text (Bytes (codes "(?:a|b|c)"))) (Pointer (codes "c")) (Matches true);
  Run 65 MMatch false (Text (Bytes (codes "(?:a|b|c)"))) (Pointer (codes "d")) (Matches false);
  Run 66 MMatch false (Text (Bytes (codes "(?:xy)?"))) (Pointer (codes "xy")) (Matches true);
  Run 67 MMatch false (Text (Bytes (codes "(?:xy)?"))) (Pointer []) (Matches true);
  Run 68 MSearch false (Text (Bytes (codes "(?:xy)?"))) (Pointer (codes "zxy")) (Matches true);
  Run 69 MSearch false (Text (Bytes (codes "(?:xy)?$"))) (Pointer (codes "zxy")) (Matches true);
  Run 70 MMatch false (Text (Bytes (codes "~(?:xy)?$"))) (Pointer (codes "zxy")) (Matches false);
  Run 72 MMatch false (Text (Bytes (codes "^abc"))) (Pointer (codes "abc")) (Matches true);
  Run 73 MMatch false (Text (Bytes (codes "^def$"))) (Pointer (codes "def")) (Matches true);
  Run 74 MMatch false (Text (Bytes (codes "a^"))) (Pointer (codes "a")) (Matches false);
  Run 75 MMatch false (Text (Bytes (codes "$a"))) (Pointer (codes "a")) (Matches false);
  Run 77 MSearch false (Text (Bytes (codes "a+?"))) (Pointer (codes "aaax")) (Matches true);
  Run 78 MSearch false (Text (Bytes (codes "a+?"))) (Pointer (codes "ax")) (Matches true);
  Run 79 MMatch false (Text (Bytes (codes "a+?"))) (Pointer (codes "x")) (Matches false);
  Run 81 MSearch false (Text (Bytes (codes "a++"))) (Pointer (codes "aaax")) (Matches true);
  Run 82 MSearch false (Text (Bytes (codes "a++"))) (Pointer (codes "ax")) (Matches true);
  Run 83 MMatch false (Text (Bytes (codes "a++"))) (Pointer (codes "x")) (Matches false);
  Run 85 MMatch false (Text (Bytes (codes "a*?x"))) (Pointer (codes "aaax")) (Matches true);
  Run 86 MMatch false (Text (Bytes (codes "a*?x"))) (Pointer (codes "ax")) (Matches true);
  Run 87 MMatch false (Text (Bytes (codes "a*?x"))) (Pointer (codes "x")) (Matches true);
  Run 88 MMatch false (Text (Bytes (codes "a*?x"))) (Pointer (codes "y")) (Matches false);
  Run 90 MMatch false (Text (Bytes (codes "a*+x"))) (Pointer (codes "aaax")) (Matches true);
  Run 91 MMatch false (Text (Bytes (codes "a*+x"))) (Pointer (codes "ax")) (Matches true);
  Run 92 MMatch false (Text (Bytes (codes "a*+x"))) (Pointer (codes "x")) (Matches true);
  Run 93 MMatch false (Text (Bytes (codes "a*+x"))) (Pointer (codes "y")) (Matches false);
  Run 95 MMatch false (Text (Bytes (codes "a*+ab"))) (Pointer (codes "aaab")) (Matches false);
  Run 96 MMatch false (Text (Bytes (codes "a++ab"))) (Pointer (codes "aaab")) (Matches false);
  Run 97 MMatch false (Text (Bytes (codes "a*+ab"))) (Pointer (codes "ab")) (Matches false);
  Run 98 MMatch false (Text (Bytes (codes "a++ab"))) (Pointer (codes "aab")) (Matches false);
  Run 100 MMatch false (Text (Bytes (codes "a*+ba"))) (Pointer (codes "aaba")) (Matches true);
  Run 101 MMatch false (Text (Bytes (codes "a++ba"))) (Pointer (codes "aaba")) (Matches true);
  Run 102 MMatch false (Text (Bytes (codes "a*+ba"))) (Pointer (codes "ba")) (Matches true);
  Run 103 MMatch false (Text (Bytes (codes "a++ba"))) (Pointer (codes "aba")) (Matches true);
  Run 105 MMatch false (Text (Bytes (codes "a{3,}x"))) (Pointer (codes "aaax")) (Matches true);
  Run 106 MMatch false (Text (Bytes (codes "a{3,}x"))) (Pointer (codes "aaaax")) (Matches true);
  Run 108 MMatch false (Text (Bytes (codes "^a{5}"))) (Pointer (codes "aaaaa")) (Matches true);
  Run 109 MSearch false (Text (Bytes (codes "^a{5}"))) (Pointer (codes "aaaaaa")) (Matches true);
  Run 110 MMatch false (Text (Bytes (codes "^a{5}$"))) (Pointer (codes "aaaaaa")) (Matches false);
  Run 112 MMatch false (Text (Bytes (codes "a*"))) (Pointer (codes "aaa")) (Matches true);
  Run 113 MMatch false (Text (Bytes (codes "a+"))) (Pointer (codes "aaa")) (Matches true);
  Run 114 MMatch false (Text (Bytes (codes "a*"))) (Pointer []) (Matches true);
  Run 115 MMatch false (Text (Bytes (codes "a+"))) (Pointer (codes "a")) (Matches true);
  Run 117 MMatch false (Text (Bytes (codes "a*$"))) (Pointer (codes "aaa")) (Matches true);
  Run 118 MMatch false (Text (Bytes (codes "a+$"))) (Pointer (codes "aaa")) (Matches true);
  Run 119 MMatch false (Text (Bytes (codes "a*$"))) (Pointer []) (Matches true);
  Run 120 MMatch false (Text (Bytes (codes "a+$"))) (Pointer (codes "a")) (Matches true);
  Run 122 MMatch false (Text (Bytes (codes "a*xb"))) (Pointer (codes "aaxb")) (Matches true);
  Run 123 MMatch false (Text (Bytes (codes "a+xb"))) (Pointer (codes "aaxb")) (Matches true);
  Run 124 MMatch false (Text (Bytes (codes "a*xb"))) (Pointer (codes "xb")) (Matches true);
  Run 125 MMatch false (Text (Bytes (codes "a+xb"))) (Pointer (codes "axb")) (Matches true);
  Run 127 MMatch false (Text (Bytes (codes "a*ab"))) (Pointer (codes "aaab")) (Matches true);
  Run 128 MMatch false (Text (Bytes (codes "a+ab"))) (Pointer (codes "aaab")) (Matches true);
  Run 129 MMatch false (Text (Bytes (codes "a*ab"))) (Pointer (codes "ab")) (Matches true);
  Run 130 MMatch false (Text (Bytes (codes "a+ab"))) (Pointer (codes "aab")) (Matches true);
  Run 132 MMatch false (Text (Bytes (codes "^a{2,5}ab"))) (Pointer (codes "aab")) (Matches false);
  Run 133 MMatch false (Text (Bytes (codes "^a{2,5}ab"))) (Pointer (codes "aaab")) (Matches true);
  Run 134 MMatch false (Text (Bytes (codes "^a{2,5}ab"))) (Pointer (codes "aaaab")) (Matches true);
  Run 135 MMatch false (Text (Bytes (codes "^a{2,5}ab"))) (Pointer (codes "aaaaab")) (Matches true);
  Run 136 MMatch false (Text (Bytes (codes "^a{2,5}ab"))) (Pointer (codes "aaaaaab")) (Matches true);
  Run 137 MMatch false (Text (Bytes (codes "^a{2,5}ab"))) (Pointer (codes "aaaaaaab")) (Matches false);
  Run 139 MMatch false (Text (Bytes (codes "(abc)"))) (Pointer (codes "abc")) (Matches true);
  Run 140 MMatch false (Text (Bytes (codes "(abc)+"))) (Pointer (codes "abc")) (Matches true);
  Run 141 MMatch false (Text (Bytes (codes "(abc)+"))) (Pointer (codes "abcabc")) (Matches true);
  Run 142 MMatch false (Text (Bytes (codes "(abc)+"))) (Pointer (codes "abcabcabc")) (Matches true);
  Run 144 MMatch false (Text (Bytes (codes "(?<name>abc)"))) (Pointer (codes "abc")) (Matches true);
  Run 145 MMatch false (Text (Bytes (codes "(?<name>abc)+"))) (Pointer (codes "abc")) (Matches true);
  Run 146 MMatch false (Text (Bytes (codes "(?<name>abc)+"))) (Pointer (codes "abcabc")) (Matches true);
  Run 147 MMatch false (Text (Bytes (codes "(?<name>abc)+"))) (Pointer (codes "abcabcabc")) (Matches true);
  Run 148 MMatch false (Text (Bytes (codes "(?<name>abc)+"))) (Pointer (codes "name")) (Matches false);
  Run 154 MMatch false (Text (Bytes (codes "^([0-9]+[a-z]+)+"))) (Pointer (codes "123abc456def")) (Matches true);
  Run 158 MMatch false (Text (Bytes (codes "^([0-9]++[a-z]++)+"))) (Pointer (codes "123abc456def")) (Matches true);
  Run 162 MSearch false (Text (Bytes (codes "^([0-9]+?[a-z]+?)+"))) (Pointer (codes "123abc456def")) (Matches true);
  Run 166 MMatch false (Text (Bytes (codes "^([0-9]+?[a-z]++)+"))) (Pointer (codes "123abc456def")) (Matches true);
  Run 173 MMatch false (Text (Bytes (codes "^([a-z]+):\g{1}$"))) (View (codes "abc:abc")) (Matches true);
  Run 175 MMatch false (Text (Bytes (codes "^([a-z]+):\g{1}$"))) (View (codes "abc:abce")) (Matches false);
  Run 176 MMatch false (Text (Bytes (codes "^([a-z]+)\g{1}$"))) (View (codes "abcabc")) (Matches true);
  Run 177 MMatch false (Text (Bytes (codes "^([a-z]+)\g{1}$"))) (View (codes "abcabcd")) (Matches false);
  Run 179 MMatch false (Text (Bytes (codes "^([a-z]+)\g{-1}$"))) (View (codes "abcabc")) (Matches true);
  Run 182 MMatch false (Text (Bytes (codes "^(?<text>[a-z]+):\g{text}$"))) (View (codes "abc:abc")) (Matches true);
  Run 184 MMatch false (Text (Bytes (codes "^abc$"))) (Pointer (codes "abc")) (Matches true);
  Run 191 MMatch false (Text (Bytes (codes "\[\]"))) (Pointer (codes "[]")) (Matches true);
  Run 193 MMatch false (Text (Bytes (codes "a+(?!b)"))) (Pointer (codes "aaaaaa")) (Matches true);
  Run 194 MMatch false (Text (Bytes (codes "a+(?!b)."))) (Pointer (codes "aaaaaac")) (Matches true);
  Run 195 MMatch false (Text (Bytes (codes "a+(?=b)."))) (Pointer (codes "aaaaaab")) (Matches true);
  Run 197 MMatch false (Text (Bytes (codes "a++a"))) (View (codes "aaa")) (Matches false);
  Run 198 MMatch false (Text (Bytes (codes "a++a*+"))) (View (codes "aaa")) (Matches true);
  Run 200 MMatch false (Text (Bytes (codes "^(\w+)"))) (Pointer (codes "WORD")) (Matches true);
  Run 203 MMatch false (Text (Bytes (codes "(?=foo)foo"))) (Pointer (codes "foo")) (Matches true);
  Run 204 MMatch false (Text (Bytes (codes "(?!notfoo)foo"))) (Pointer (codes "foo")) (Matches true);
  Run 206 MMatch false (Text (Bytes (codes "ab(?<=ab)foo"))) (Pointer (codes "abfoo")) (Matches true);
  Run 207 MMatch false (Text (Bytes (codes "ab(?<!foo)foo"))) (Pointer (codes "abfoo")) (Matches true);
  Run 210 MMatch false (Text (Bytes (codes "(?i)AB(?c)AB"))) (Pointer (codes "abAB")) (Matches true);
  Run 214 MMatch false (Text (Bytes (codes "x+?"))) (Pointer (codes "x")) (Matches true);
  Run 215 MMatch false (Text (Bytes (codes "x+"))) (Pointer (codes "x")) (Matches true);
  Run 216 MMatch false (Text (Bytes (codes "x+?"))) (Pointer (codes "x")) (Matches true);
  Run 217 MMatch false (Text (Bytes (codes "x+"))) (Pointer (codes "x")) (Matches true);
  Run 218 MMatch false (Text (Bytes (codes "x+?"))) (U8 (codes "x")) (Matches true);
  Run 219 MMatch false (Text (Bytes (codes "x+"))) (U8 (codes "x")) (Matches true);
  Run 220 MSearch false (Text (Bytes (codes "(?<!a)b"))) (Pointer (codes "xb")) (Matches true);
  Run 221 MSearch false (Text (Bytes (codes "(?<!a)b"))) (Pointer (codes "xb")) (Matches true);
  Run 222 MSearch false (Text (Bytes (codes "(?<!a)b"))) (U8 (codes "xb")) (Matches true);
  Run 226 MSearch false (Text (Utf8 [40; 63; 60; 33; 196; 155; 41; 98])) (U8 [196; 141; 98]) (Matches true);
  Run 227 MSearch false (Text (Utf8 [40; 63; 60; 61; 196; 155; 41; 98])) (U8 [196; 141; 98]) (Matches false);
  Run 230 MMatch false (Text (Bytes (codes "(?>abc)?"))) (Pointer (codes "abc")) (Matches true);
  Run 231 MMatch false (Text (Bytes (codes "(?>abc)?"))) (Pointer []) (Matches true);
  Run 233 MMatch false (Text (Bytes (codes " ?[\p{N}]"))) (Pointer (codes " 1")) (Matches true);
  Run 234 MMatch false (Text (Bytes (codes " ?\p{N}"))) (Pointer (codes " 1")) (Matches true);
  Run 235 MMatch false (Text (Bytes (codes " ?\p{N}+"))) (Pointer (codes " 1234")) (Matches true);
  Run 238 MSearch false (Text (Bytes (codes "(?<=ba|cd)s"))) (Pointer (codes "bas")) (Matches true);
  Run 239 MSearch false (Text (Bytes (codes "(?<!ba|cd)s"))) (Pointer (codes "bas")) (Matches false);
  Run 240 MSearch false (Text (Bytes (codes "(?<=ba|cd)s"))) (Pointer (codes "cds")) (Matches true);
  Run 241 MSearch false (Text (Bytes (codes "(?<!ba|cd)s"))) (Pointer (codes "cds")) (Matches false);
  Run 244 MMatch false (Text (Bytes (codes "[^]"))) (Pointer (codes "a")) (Matches true);
  Run 245 MMatch false (Text (Bytes (codes "[^]"))) (Pointer []) (Matches false);
  Run 246 MMatch false (Text (Bytes (codes "[^]+"))) (Pointer (codes "x")) (Matches true);
  Run 247 MMatch false (Text (Bytes (codes "[^]?"))) (Pointer []) (Matches true)].
(** tests/ci.cpp *)
Definition t_case_insensitive : list test := [
  RunCase 20 false (Text (Bytes (codes "aloha"))) (Pointer (codes "aloha")) (Matches true);
  RunCase 21 false (Text (Bytes (codes "aloha"))) (Pointer (codes "ALOHA")) (Matches false);
  RunCase 23 false (Text (Bytes (codes "[a-z]+"))) (Pointer (codes "aloha")) (Matches true);
  RunCase 24 false (Text (Bytes (codes "[a-z]+"))) (Pointer (codes "ALOHA")) (Matches false);
  RunCase 26 true (Text (Bytes (codes "aloha"))) (Pointer (codes "aloha")) (Matches true);
  RunCase 27 true (Text (Bytes (codes "aloha"))) (Pointer (codes "ALOHA")) (Matches true);
  RunCase 29 true (Text (Bytes (codes "[a-z]+"))) (Pointer (codes "aloha")) (Matches true);
  RunCase 30 true (Text (Bytes (codes "[a-z]+"))) (Pointer (codes "ALOHA")) (Matches true);
  RunCase 32 true (Text (Bytes (codes "[a-z]+"))) (Pointer (codes "9")) (Matches false);
  RunCase 33 true (Text (Bytes (codes "[a-z]+"))) (Pointer (codes " ")) (Matches false);
  RunCase 35 true (Text (Bytes (codes "[a-Z]+"))) (Pointer (codes "9")) (Matches false);
  RunCase 36 true (Text (Bytes (codes "[a-Z]+"))) (Pointer (codes " ")) (Matches false);
  RunCase 38 true (Text (Bytes (codes "[a-Z]+"))) (Pointer (codes "z")) (Matches false);
  RunCase 39 true (Text (Bytes (codes "[a-Z]+"))) (Pointer (codes "z")) (Matches false)].
(** tests/generating.cpp *)
Definition t_generating : list test := [
  Builds 36 (Bytes []) REmpty;
  Builds 37 (Bytes (codes "y")) (RCls (CChar 121));
  Builds 41 (Utf8 [240; 159; 152; 141]) (RCls (CChar 128525));
  Builds 42 (Utf8 [91; 240; 159; 152; 141; 93]) (RCls (CSet [(CChar 128525)]));
  Builds 44 (Utf32 [128525]) (RCls (CChar 128525));
  Builds 45 (Utf32 [91; 128525; 93]) (RCls (CSet [(CChar 128525)]));
  Stack 48 (Bytes (codes "abc")) 1;
  Builds 49 (Bytes (codes "abc")) (RStr [97; 98; 99]);
  Builds 50 (Bytes (codes "(?:abc)")) (RStr [97; 98; 99]);
  Builds 53 (Bytes (codes "\x40")) (RCls (CChar 64));
  Builds 54 (Bytes (codes "\x7F")) (RCls (CChar 127));
  Builds 56 (Bytes (codes "\x80")) (RCls (CChar 128));
  Builds 57 (Bytes (codes "\xFF")) (RCls (CChar 255));
  Builds 58 (Bytes (codes "\x{FF}")) (RCls (CChar 255));
  Builds 59 (Bytes (codes "\x{FFF}")) (RCls (CChar 4095));
  Builds 60 (Bytes (codes "\x{ABCD}")) (RCls (CChar 43981));
  Builds 63 (Bytes (codes ".")) RAny;
  Builds 66 (Bytes (codes "x.ab")) (RSeq [(RCls (CChar 120)); RAny; (RStr [97; 98])]);
  Builds 69 (Bytes (codes "\d")) (RCls (CSet [digit_chars]));
  Builds 70 (Bytes (codes "\D")) (RCls (CNeg [digit_chars]));
  Builds 71 (Bytes (codes "\n")) (RCls (CChar 10));
  Builds 72 (Bytes (codes "\N")) (RCls (CNeg [(CChar 10)]));
  Builds 73 (Bytes (codes "\w")) (RCls (CSet [word_chars]));
  Builds 74 (Bytes (codes "\W")) (RCls (CNeg [word_chars]));
  Builds 75 (Bytes (codes "\s")) (RCls (CSet [space_chars]));
  Builds 76 (Bytes (codes "\S")) (RCls (CNeg [space_chars]));
  Builds 79 (Bytes (codes "[a]")) (RCls (CSet [(CChar 97)]));
  Builds 80 (Bytes (codes "[^a]")) (RCls (CNeg [(CChar 97)]));
  Builds 81 (Bytes (codes "[[:digit:]]")) (RCls (CSet [digit_chars]));
  Builds 82 (Bytes (codes "[ab]")) (RCls (CSet [(CChar 97); (CChar 98)]));
  Builds 83 (Bytes (codes "[^ab]")) (RCls (CNeg [(CChar 97); (CChar 98)]));
  Builds 84 (Bytes (codes "[[:digit:][:digit:]]")) (RCls (CSet [digit_chars]));
  Builds 85 (Bytes (codes "[^[:punct:]]")) (RCls (CNeg [punct_chars]));
  Builds 86 (Bytes (codes "[[:^digit:]]")) (RCls (CSet [(CNegate [digit_chars])]));
  Builds 87 (Bytes (codes "[[:^digit:][:^alpha:]]")) (RCls (CSet [(CNegate [digit_chars]); (CNegate [alpha_chars])]));
  Builds 88 (Bytes (codes "[[:digit:][:alpha:]]")) (RCls (CSet [digit_chars; alpha_chars]));
  Builds 89 (Bytes (codes "[[:digit:][:^alpha:]]")) (RCls (CSet [digit_chars; (CNegate [alpha_chars])]));
  Builds 90 (Bytes (codes "[a-z]")) (RCls (CSet [(CRange 97 122)]));
  Builds 91 (Bytes (codes "[a-z0-9]")) (RCls (CSet [(CRange 97 122); (CRange 48 57)]));
  Builds 92 (Bytes (codes "[^a-z]")) (RCls (CNeg [(CRange 97 122)]));
  Builds 93 (Bytes (codes "[^a-z0-9]")) (RCls (CNeg [(CRange 97 122); (CRange 48 57)]));
  Builds 94 (Bytes (codes "[a-z[:digit:]]")) (RCls (CSet [(CRange 97 122); digit_chars]));
  Builds 95 (Bytes (codes "[a-z98]")) (RCls (CSet [(CRange 97 122); (CChar 57); (CChar 56)]));
  Builds 96 (Bytes (codes "[\w]")) (RCls (CSet [(CSet [word_chars])]));
  Builds 97 (Bytes (codes "[\x30-\x39]")) (RCls (CSet [(CRange 48 57)]));
  Builds 100 (Bytes (codes "(?:abc|def)")) (RSelect [(RStr [97; 98; 99]); (RStr [100; 101; 102])]);
  Builds 101 (Bytes (codes "(?:abc|def|ghi)")) (RSelect [(RStr [97; 98; 99]); (RStr [100; 101; 102]); (RStr [103; 104; 105])]);
  Builds 102 (Bytes (codes "(?:a|b|c|d)")) (RSelect [(RCls (CChar 97)); (RCls (CChar 98)); (RCls (CChar 99)); (RCls (CChar 100))]);
  Builds 103 (Bytes (codes "(?:a|b|c|)")) (RSelect [(RCls (CChar 97)); (RCls (CChar 98)); (RCls (CChar 99)); REmpty]);
  Builds 104 (Bytes (codes "(?:a|)")) (RSelect [(RCls (CChar 97)); REmpty]);
  Builds 105 (Bytes (codes "(?:|a)")) (RSelect [REmpty; (RCls (CChar 97))]);
  Builds 106 (Bytes (codes "(?:|)")) (RSelect [REmpty; REmpty]);
  Builds 107 (Bytes (codes "(x|)")) (RCap 1 [(RSelect [(RCls (CChar 120)); REmpty])]);
  Builds 108 (Bytes (codes "(|x)")) (RCap 1 [(RSelect [REmpty; (RCls (CChar 120))])]);
  Builds 109 (Bytes (codes "(|)")) (RCap 1 [(RSelect [REmpty; REmpty])]);
  Builds 113 (Bytes (codes "xx?")) (RSeq [(RCls (CChar 120)); (RRep Greedy 0 1 [(RCls (CChar 120))])]);
  Builds 114 (Bytes (codes "xx?+")) (RSeq [(RCls (CChar 120)); (RRep Possessive 0 1 [(RCls (CChar 120))])]);
  Builds 115 (Bytes (codes "xx??")) (RSeq [(RCls (CChar 120)); (RRep Lazy 0 1 [(RCls (CChar 120))])]);
  Builds 116 (Bytes (codes "(?:abc)?")) (RRep Greedy 0 1 [(RStr [97; 98; 99])]);
  Builds 117 (Bytes (codes "(?:x)?")) (RRep Greedy 0 1 [(RCls (CChar 120))]);
  Builds 118 (Bytes (codes "(?:x?)?")) (RRep Greedy 0 1 [(RCls (CChar 120))]);
  Builds 119 (Bytes (codes "(?:x?)??")) (RRep Lazy 0 1 [(RCls (CChar 120))]);
  Builds 121 (Bytes (codes "(?:x??)?")) (RRep Lazy 0 1 [(RCls (CChar 120))]);
  Builds 122 (Bytes (codes "(?:x??)??")) (RRep Lazy 0 1 [(RCls (CChar 120))]);
  Builds 125 (Bytes (codes "x+")) (RRep Greedy 1 0 [(RCls (CChar 120))]);
  Builds 126 (Bytes (codes "(?:abc)+")) (RRep Greedy 1 0 [(RStr [97; 98; 99])]);
  Builds 127 (Bytes (codes "x*")) (RRep Greedy 0 0 [(RCls (CChar 120))]);
  Builds 128 (Bytes (codes "(?:abc)*")) (RRep Greedy 0 0 [(RStr [97; 98; 99])]);
  Builds 129 (Bytes (codes "x{1}")) (RRep Greedy 1 1 [(RCls (CChar 120))]);
  Builds 130 (Bytes (codes "x{1,}")) (RRep Greedy 1 0 [(RCls (CChar 120))]);
  Builds 131 (Bytes (codes "x{198}")) (RRep Greedy 198 198 [(RCls (CChar 120))]);
  Builds 132 (Bytes (codes "x{198,}")) (RRep Greedy 198 0 [(RCls (CChar 120))]);
  Builds 133 (Bytes (codes "x{1,2}")) (RRep Greedy 1 2 [(RCls (CChar 120))]);
  Builds 134 (Bytes (codes "x{1,1234}")) (RRep Greedy 1 1234 [(RCls (CChar 120))]);
  Builds 135 (Bytes (codes "x{567,1234}")) (RRep Greedy 567 1234 [(RCls (CChar 120))]);
  Builds 136 (Bytes (codes "[x]{567,1234}")) (RRep Greedy 567 1234 [(RCls (CSet [(CChar 120)]))]);
  Builds 137 (Bytes (codes "[^x]{567,1234}")) (RRep Greedy 567 1234 [(RCls (CNeg [(CChar 120)]))]);
  Builds 138 (Bytes (codes "(?:abc){3,42}")) (RRep Greedy 3 42 [(RStr [97; 98; 99])]);
  Builds 141 (Bytes (codes "x*x*")) (RRep Greedy 0 0 [(RCls (CChar 120))]);
  Builds 142 (Bytes (codes "x+x+")) (RRep Greedy 2 0 [(RCls (CChar 120))]);
  Builds 143 (Bytes (codes "x+x*")) (RRep Greedy 1 0 [(RCls (CChar 120))]);
  Builds 144 (Bytes (codes "x*x+")) (RRep Greedy 1 0 [(RCls (CChar 120))]);
  Builds 145 (Bytes (codes "x{1,3}x{2,4}")) (RRep Greedy 3 7 [(RCls (CChar 120))]);
  Builds 146 (Bytes (codes "a?a?a?")) (RRep Greedy 0 3 [(RCls (CChar 97))]);
  Builds 147 (Bytes (codes "a?a?b")) (RSeq [(RRep Greedy 0 2 [(RCls (CChar 97))]); (RCls (CChar 98))]);
  Same 148 (Bytes (codes "a?a?b")) (Bytes (codes "(?:a?a?)b"));
  Builds 151 (Bytes (codes "x*?x*?")) (RRep Lazy 0 0 [(RCls (CChar 120))]);
  Builds 152 (Bytes (codes "x+?x+?")) (RRep Lazy 2 0 [(RCls (CChar 120))]);
  Builds 153 (Bytes (codes "x+?x*?")) (RRep Lazy 1 0 [(RCls (CChar 120))]);
  Builds 154 (Bytes (codes "x*?x+?")) (RRep Lazy 1 0 [(RCls (CChar 120))]);
  Builds 155 (Bytes (codes "x{1,3}?x{2,4}?")) (RRep Lazy 3 7 [(RCls (CChar 120))]);
  Builds 156 (Bytes (codes "a??a??a??")) (RRep Lazy 0 3 [(RCls (CChar 97))]);
  Builds 159 (Bytes (codes "a{0,0}+a{0,0}+")) (RRep Possessive 0 0 [(RCls (CChar 97))]);
  Builds 160 (Bytes (codes "a{1,0}+a{0,0}+")) (RRep Possessive 1 0 [(RCls (CChar 97))]);
  Builds 161 (Bytes (codes "a{0,0}+a{1,0}+")) (RSeq [RReject; (RCls (CChar 97))]);
  Builds 162 (Bytes (codes "a{1,0}+a{1,0}+")) (RSeq [RReject; (RCls (CChar 97))]);
  Builds 164 (Bytes (codes "a{0,1}+a{0,0}+")) (RRep Possessive 0 0 [(RCls (CChar 97))]);
  Builds 165 (Bytes (codes "a{1,1}+a{0,0}+")) (RRep Possessive 1 0 [(RCls (CChar 97))]);
  Builds 166 (Bytes (codes "a{0,1}+a{1,0}+")) (RRep Possessive 2 0 [(RCls (CChar 97))]);
  Builds 167 (Bytes (codes "a{1,1}+a{1,0}+")) (RRep Possessive 2 0 [(RCls (CChar 97))]);
  Builds 169 (Bytes (codes "a{0,0}+a{0,1}+")) (RRep Possessive 0 0 [(RCls (CChar 97))]);
  Builds 170 (Bytes (codes "a{1,0}+a{0,1}+")) (RRep Possessive 1 0 [(RCls (CChar 97))]);
  Builds 171 (Bytes (codes "a{0,0}+a{1,1}+")) (RSeq [RReject; (RCls (CChar 97))]);
  Builds 172 (Bytes (codes "a{1,0}+a{1,1}+")) (RSeq [RReject; (RCls (CChar 97))]);
  Builds 174 (Bytes (codes "a{0,1}+a{0,1}+")) (RRep Possessive 0 2 [(RCls (CChar 97))]);
  Builds 175 (Bytes (codes "a{1,1}+a{0,1}+")) (RRep Possessive 1 2 [(RCls (CChar 97))]);
  Builds 176 (Bytes (codes "a{0,1}+a{1,1}+")) (RRep Possessive 2 2 [(RCls (CChar 97))]);
  Builds 177 (Bytes (codes "a{1,1}+a{1,1}+")) (RRep Possessive 2 2 [(RCls (CChar 97))]);
  Builds 179 (Bytes (codes "a{1,2}+a{2,0}+")) (RRep Possessive 4 0 [(RCls (CChar 97))]);
  Builds 180 (Bytes (codes "a{1,2}+a{1,2}+")) (RRep Possessive 3 4 [(RCls (CChar 97))]);
  Builds 181 (Bytes (codes "a{1,1}+a{2,0}+")) (RRep Possessive 3 0 [(RCls (CChar 97))]);
  Builds 182 (Bytes (codes "a{1,1}+a{1,2}+")) (RRep Possessive 2 3 [(RCls (CChar 97))]);
  Builds 186 (Bytes (codes "x+?x+")) (RSeq [(RRep Lazy 1 0 [(RCls (CChar 120))]); (RRep Greedy 1 0 [(RCls (CChar 120))])]);
  Builds 190 (Bytes (codes "c++")) (RRep Possessive 1 0 [(RCls (CChar 99))]);
  Builds 191 (Bytes (codes "c+?")) (RRep Lazy 1 0 [(RCls (CChar 99))]);
  Builds 192 (Bytes (codes "g*+")) (RRep Possessive 0 0 [(RCls (CChar 103))]);
  Builds 193 (Bytes (codes "g*?")) (RRep Lazy 0 0 [(RCls (CChar 103))]);
  Builds 194 (Bytes (codes "i??")) (RRep Lazy 0 1 [(RCls (CChar 105))]);
  Builds 195 (Bytes (codes "l{1,2}+")) (RRep Possessive 1 2 [(RCls (CChar 108))]);
  Builds 196 (Bytes (codes "l{1,2}?")) (RRep Lazy 1 2 [(RCls (CChar 108))]);
  Builds 197 (Bytes (codes "q{4,4}+")) (RRep Possessive 4 4 [(RCls (CChar 113))]);
  Builds 198 (Bytes (codes "q{4,4}?")) (RRep Lazy 4 4 [(RCls (CChar 113))]);
  Builds 202 (Bytes (codes "(a)")) (RCap 1 [(RCls (CChar 97))]);
  Builds 203 (Bytes (codes "(x[cd])")) (RCap 1 [(RCls (CChar 120)); (RCls (CSet [(CChar 99); (CChar 100)]))]);
  Builds 204 (Bytes (codes "(x[cd])(ab)")) (RSeq [(RCap 1 [(RCls (CChar 120)); (RCls (CSet [(CChar 99); (CChar 100)]))]); (RCap 2 [(RStr [97; 98])])]);
  Builds 205 (Bytes (codes "(x[cd])(ab)+")) (RSeq [(RCap 1 [(RCls (CChar 120)); (RCls (CSet [(CChar 99); (CChar 100)]))]); (RRep Greedy 1 0 [(RCap 2 [(RStr [97; 98])])])]);
  Builds 206 (Bytes (codes "(?<n>x)")) (RNCap 1 [110] [(RCls (CChar 120))]);
  Builds 207 (Bytes (codes "(?<name>x)")) (RNCap 1 [110; 97; 109; 101] [(RCls (CChar 120))]);
  Builds 208 (Bytes (codes "(?<name>xy)")) (RNCap 1 [110; 97; 109; 101] [(RStr [120; 121])]);
  Builds 209 (Bytes (codes "(?<name>x|y)")) (RNCap 1 [110; 97; 109; 101] [(RSelect [(RCls (CChar 120)); (RCls (CChar 121))])]);
  Builds 210 (Bytes (codes "(?<xy>[x]y)")) (RNCap 1 [120; 121] [(RCls (CSet [(CChar 120)])); (RCls (CChar 121))]);
  Builds 211 (Bytes (codes "(?<xy>[x]y)(a)")) (RSeq [(RNCap 1 [120; 121] [(RCls (CSet [(CChar 120)])); (RCls (CChar 121))]); (RCap 2 [(RCls (CChar 97))])]);
  Builds 213 (Bytes (codes "()")) (RCap 1 [REmpty]);
  Builds 214 (Bytes (codes "(a)(b)")) (RSeq [(RCap 1 [(RCls (CChar 97))]); (RCap 2 [(RCls (CChar 98))])]);
  Builds 215 (Bytes (codes "((a)(b))")) (RCap 1 [(RCap 2 [(RCls (CChar 97))]); (RCap 3 [(RCls (CChar 98))])]);
  Builds 216 (Bytes (codes "(((a)(b)))")) (RCap 1 [(RCap 2 [(RCap 3 [(RCls (CChar 97))]); (RCap 4 [(RCls (CChar 98))])])]);
  Builds 218 (Bytes (codes "((?:a)(b))")) (RCap 1 [(RCls (CChar 97)); (RCap 2 [(RCls (CChar 98))])]);
  Builds 222 (Bytes (codes "(a)\g{1}")) (RSeq [(RCap 1 [(RCls (CChar 97))]); (RBack 1)]);
  Builds 223 (Bytes (codes "(?<ab>a)\g{ab}")) (RSeq [(RNCap 1 [97; 98] [(RCls (CChar 97))]); (RNBack [97; 98])]);
  Builds 224 (Bytes (codes "((a)\g{2})")) (RCap 1 [(RCap 2 [(RCls (CChar 97))]); (RBack 2)]);
  Builds 227 (Bytes (codes "^")) (RAssert ALineBegin);
  Builds 228 (Bytes (codes "$")) (RAssert ALineEnd);
  Builds 229 (Bytes (codes "^$")) (RSeq [(RAssert ALineBegin); (RAssert ALineEnd)]);
  Builds 230 (Bytes (codes "\A")) (RAssert ASubjectBegin);
  Builds 231 (Bytes (codes "\Z")) (RAssert ASubjectEndLine);
  Builds 232 (Bytes (codes "\z")) (RAssert ASubjectEnd);
  Builds 234 (Bytes (codes "^abc$")) (RSeq [(RAssert ALineBegin); (RStr [97; 98; 99]); (RAssert ALineEnd)]);
  Builds 235 (Bytes (codes "abc?")) (RSeq [(RStr [97; 98]); (RRep Greedy 0 1 [(RCls (CChar 99))])]);
  Builds 236 (Bytes (codes "abc.")) (RSeq [(RStr [97; 98; 99]); RAny]);
  Builds 237 (Bytes (codes "abc.?")) (RSeq [(RStr [97; 98; 99]); (RRep Greedy 0 1 [RAny])]);
  Builds 238 (Bytes (codes "abc.def")) (RSeq [(RStr [97; 98; 99]); RAny; (RStr [100; 101; 102])]);
  Builds 240 (Bytes (codes "^a|b$")) (RSelect [(RSeq [(RAssert ALineBegin); (RCls (CChar 97))]); (RSeq [(RCls (CChar 98)); (RAssert ALineEnd)])]);
  Builds 243 (Bytes (codes "(?>a)")) (RAtomic [(RCls (CChar 97))]);
  Builds 244 (Bytes (codes "(?>ab)")) (RAtomic [(RStr [97; 98])]);
  Builds 245 (Bytes (codes "(?>a+b)")) (RAtomic [(RRep Greedy 1 0 [(RCls (CChar 97))]); (RCls (CChar 98))]);
  Builds 248 (Bytes (codes "(?=a)")) (RAhead false [(RCls (CChar 97))]);
  Builds 249 (Bytes (codes "(?=ax)")) (RAhead false [(RStr [97; 120])]);
  Builds 250 (Bytes (codes "(?=[a]x)")) (RAhead false [(RCls (CSet [(CChar 97)])); (RCls (CChar 120))]);
  Builds 252 (Bytes (codes "(?!a)")) (RAhead true [(RCls (CChar 97))]);
  Builds 253 (Bytes (codes "(?!ax)")) (RAhead true [(RStr [97; 120])]);
  Builds 254 (Bytes (codes "(?![a]x)")) (RAhead true [(RCls (CSet [(CChar 97)])); (RCls (CChar 120))]);
  Builds 256 (Bytes (codes "^(?=(a))$")) (RSeq [(RAssert ALineBegin); (RAhead false [(RCap 1 [(RCls (CChar 97))])]); (RAssert ALineEnd)]);
  Builds 258 (Bytes (codes "^(?=.*(a))$")) (RSeq [(RAssert ALineBegin); (RAhead false [(RRep Greedy 0 0 [RAny]); (RCap 1 [(RCls (CChar 97))])]); (RAssert ALineEnd)]);
  Builds 260 (Bytes (codes "^(?=.*(a).*)$")) (RSeq [(RAssert ALineBegin); (RAhead false [(RRep Greedy 0 0 [RAny]); (RCap 1 [(RCls (CChar 97))]); (RRep Greedy 0 0 [RAny])]); (RAssert ALineEnd)]);
  Builds 262 (Bytes (codes "^(?=.*(a)\g{1}.*)$")) (RSeq [(RAssert ALineBegin); (RAhead false [(RRep Greedy 0 0 [RAny]); (RCap 1 [(RCls (CChar 97))]); (RBack 1); (RRep Greedy 0 0 [RAny])]); (RAssert ALineEnd)]);
  Builds 264 (Bytes (codes "^(?=.*(a)\g{1}.*)[a-z]$")) (RSeq [(RAssert ALineBegin); (RAhead false [(RRep Greedy 0 0 [RAny]); (RCap 1 [(RCls (CChar 97))]); (RBack 1); (RRep Greedy 0 0 [RAny])]); (RCls (CSet [(CRange 97 122)])); (RAssert ALineEnd)]);
  Builds 267 (Bytes (codes "(?<=a)")) (RBehind false [(RCls (CChar 97))]);
  Builds 268 (Bytes (codes "(?<!a)")) (RBehind true [(RCls (CChar 97))]);
  Builds 270 (Bytes (codes "(?<=ab)")) (RBehind false [(RStr [98; 97])]);
  Builds 271 (Bytes (codes "(?<!ab)")) (RBehind true [(RStr [98; 97])]);
  Builds 273 (Bytes (codes "(?<=ab|cd)")) (RBehind false [(RSelect [(RStr [98; 97]); (RStr [100; 99])])]);
  Builds 274 (Bytes (codes "(?<!ab|cd)")) (RBehind true [(RSelect [(RStr [98; 97]); (RStr [100; 99])])]);
  Builds 276 (Bytes (codes "(?<=(ab))")) (RBehind false [(RCap 1 [(RStr [98; 97])])]);
  Builds 277 (Bytes (codes "(?<!(ab))")) (RBehind true [(RCap 1 [(RStr [98; 97])])])].
(** tests/parsing.cpp *)
Definition t_parsing : list test := [
  Parses 21 (Bytes []) true;
  Parses 22 (Bytes (codes ".")) true;
  Parses 23 (Bytes (codes "a")) true;
  Parses 24 (Bytes (codes "ab")) true;
  Parses 25 (Bytes (codes "a|b")) true;
  Parses 26 (Bytes (codes "a|")) true;
  Parses 27 (Bytes (codes "|b")) true;
  Parses 28 (Bytes (codes "|")) true;
  Parses 29 (Bytes (codes "n")) true;
  Parses 32 (Bytes (codes "x?")) true;
  Parses 33 (Bytes (codes "x??")) true;
  Parses 34 (Bytes (codes "x?+")) true;
  Parses 35 (Bytes (codes "x*")) true;
  Parses 36 (Bytes (codes "x*+")) true;
  Parses 37 (Bytes (codes "x*?")) true;
  Parses 38 (Bytes (codes "x+")) true;
  Parses 39 (Bytes (codes "x++")) true;
  Parses 40 (Bytes (codes "x+?")) true;
  Parses 41 (Bytes (codes "x{1}")) true;
  Parses 42 (Bytes (codes "x{1,4}")) true;
  Parses 43 (Bytes (codes "x{1,4}+")) true;
  Parses 44 (Bytes (codes "x{1,4}?")) true;
  Parses 45 (Bytes (codes "x{1,}")) true;
  Parses 46 (Bytes (codes "x{1,}+")) true;
  Parses 47 (Bytes (codes "x{1,}?")) true;
  Parses 50 (Bytes (codes "[abc]")) true;
  Parses 51 (Bytes (codes "[a-c]")) true;
  Parses 52 (Bytes (codes "[a-ce-g]")) true;
  Parses 53 (Bytes (codes "[xa-c]")) true;
  Parses 54 (Bytes (codes "[a-cy]")) true;
  Parses 55 (Bytes (codes "\d")) true;
  Parses 56 (Bytes (codes "\D")) true;
  Parses 57 (Bytes (codes "\s")) true;
  Parses 58 (Bytes (codes "\S")) true;
  Parses 59 (Bytes (codes "\w")) true;
  Parses 60 (Bytes (codes "\W")) true;
  Parses 63 (Bytes (codes "^")) true;
  Parses 64 (Bytes (codes "$")) true;
  Parses 67 (Bytes (codes "\n")) true;
  Parses 68 (Bytes (codes "\r")) true;
  Parses 69 (Bytes (codes "\t")) true;
  Parses 70 (Bytes (codes "\0")) true;
  Parses 71 (Bytes (codes "\xAB")) true;
  Parses 72 (Bytes (codes "\x{A}")) true;
  Parses 73 (Bytes (codes "\x{ABCDEF}")) true;
  Parses 74 (Bytes (codes "\x{ABCDEFG}")) false;
  Parses 77 (Bytes (codes "[[:alpha:][:digit:]]")) true;
  Parses 78 (Bytes (codes "[^[:alpha:][:digit:]]")) true;
  Parses 79 (Bytes (codes "[[:^alpha:][:^digit:]]")) true;
  Parses 80 (Bytes (codes "[[:alpha:][:digit:]]+")) true;
  Parses 83 (Bytes (codes "<not capture>")) true;
  Parses 84 (Bytes (codes "(nonname)")) true;
  Parses 85 (Bytes (codes "(non<name>)")) true;
  Parses 86 (Bytes (codes "(?:noncapture)")) true;
  Parses 87 (Bytes (codes "(?:non<cap>ture)")) true;
  Parses 88 (Bytes (codes "(?<hello>:named)")) true;
  Parses 91 (Bytes []) true;
  Parses 92 (Bytes (codes "(.*).*")) true;
  Parses 93 (Bytes (codes "(?=^)b")) true;
  Parses 94 (Bytes (codes "(a*)*")) true;
  Parses 95 (Bytes (codes "(ab)*c")) true;
  Parses 96 (Bytes (codes "(tour|to|t)+")) true;
  Parses 97 (Bytes (codes "(tour|to|tournament)+")) true;
  Parses 98 (Bytes [40; 116; 111; 117; 114; 124; 116; 111; 124; 116; 111; 117; 114; 110; 97; 109; 101; 110; 116; 41; 43; 10; 116; 111; 117; 114; 110; 97]) true;
  Parses 99 (Bytes (codes "-.*,.*-")) true;
  Parses 101 (Bytes (codes "-\(.*\),\1-")) true;
  Parses 102 (Bytes (codes "A[[:lower:]]B")) true;
  Parses 103 (Bytes (codes "A[^[:lower:]0-9]B")) true;
  Parses 104 (Bytes (codes "A[^[:lower:]]B")) true;
  Parses 107 (Bytes (codes "[\n]+")) true;
  Parses 108 (Bytes (codes "[^\0]*")) true;
  Parses 109 (Bytes (codes "[^\W]")) true;
  Parses 113 (Bytes (codes "[abfor]*")) true;
  Parses 114 (Bytes (codes "[ace1-9]*")) true;
  Parses 115 (Bytes (codes "[ace1-9]+")) true;
  Parses 116 (Bytes (codes "[ace1-9]\{1,\}")) true;
  Parses 117 (Bytes (codes "[ace1-9]{1,}")) true;
  Parses 118 (Bytes (codes "\(.*\).*")) true;
  Parses 119 (Bytes (codes "\(a*\)*")) true;
  Parses 120 (Bytes (codes "\(ab\)*c")) true;
  Parses 121 (Bytes (codes "\d[\W]k")) true;
  Parses 122 (Bytes (codes "^[a-f]$")) true;
  Parses 123 (Bytes (codes "^[a]$")) true;
  Parses 124 (Bytes (codes "^[ab]$")) true;
  Parses 125 (Bytes (codes "/")) true;
  Parses 126 (Bytes (codes "[/]")) true;
  Parses 127 (Bytes (codes "[\[]")) true;
  Parses 128 (Bytes (codes "[\[-a]")) true;
  Parses 129 (Bytes (codes "[\[-\[]")) true;
  Parses 130 (Bytes (codes "[/-/]")) true;
  Parses 131 (Bytes (codes "[!-/]")) true;
  Parses 132 (Bytes (codes "[|]")) true;
  Parses 133 (Bytes (codes "^abc")) true;
  Parses 134 (Bytes (codes "a")) true;
  Parses 135 (Bytes (codes "a(?=^)b")) true;
  Parses 136 (Bytes (codes "a*")) true;
  Parses 137 (Bytes (codes "a*?")) true;
  Parses 138 (Bytes (codes "a.\{3,5\}c")) true;
  Parses 139 (Bytes (codes "a.c")) true;
  Parses 140 (Bytes (codes "a.{3,5}c")) true;
  Parses 141 (Bytes (codes "a\{100000000000000000\}")) true;
  Parses 142 (Bytes (codes "ab")) true;
  Parses 143 (Bytes (codes "ab*c")) true;
  Parses 144 (Bytes (codes "ab\{3,5\}c")) true;
  Parses 145 (Bytes (codes "abc$")) true;
  Parses 146 (Bytes (codes "ab{3,5}c")) true;
  Parses 147 (Bytes (codes "a{100000000000000000}")) true;
  Parses 148 (Bytes (codes "b*")) true;
  Parses 149 (Bytes (codes "ba")) true;
  Parses 150 (Bytes (codes "bc")) true;
  Parses 151 (Bytes (codes "cd((e)fg)hi")) true;
  Parses 152 (Bytes (codes "cd((e)fg)hi|(z)")) true;
  Parses 153 (Bytes (codes "cd\(\(e\)fg\)hi")) true;
  Parses 154 (Bytes (codes "cdefghi")) true;
  Parses 155 (Bytes (codes "q[^u]")) true;
  Parses 156 (Bytes [116; 111; 117; 114; 10; 10; 116; 111; 117; 114; 110; 97; 109; 101; 110; 116]) true;
  Parses 157 (Bytes [116; 111; 117; 114; 10; 116; 111; 10; 116; 111; 117; 114; 110; 97; 109; 101; 110; 116]) true;
  Parses 158 (Bytes (codes "tour|to|tournament")) true;
  Parses 159 (Bytes (codes "z")) true;
  Parses 160 (Bytes (codes "=!")) true;
  Parses 161 (Bytes (codes "[=!]")) true;
  Parses 162 (Bytes (codes "(=!)")) true;
  Parses 163 (Bytes (codes "(?!test)")) true;
  Parses 164 (Bytes (codes "(?=test)")) true;
  Parses 165 (Bytes (codes "^(?=.*(.)\g{1}+.*)[a-z]+")) true;
  Parses 166 (Bytes (codes "^(?=.*(a)\g{1}.*)$")) true;
  Parses 168 (Bytes (codes "\b")) true;
  Parses 169 (Bytes (codes "\A")) true;
  Parses 170 (Bytes (codes "[\A]")) false;
  Parses 171 (Bytes (codes "\i")) false;
  Parses 172 (Bytes (codes "(.*)\1")) true].
(** tests/mode.cpp *)
Definition t_mode : list test := [
  Syntax 29 (Bytes (codes "(?)")) false;
  Syntax 30 (Bytes (codes "(?i)")) true;
  Syntax 31 (Bytes (codes "(?ic)")) true;
  Syntax 32 (Bytes (codes "(?icsm)")) true;
  Syntax 35 (Bytes (codes "(?i)x")) true;
  Syntax 36 (Bytes (codes "(?ic)x")) true;
  Syntax 37 (Bytes (codes "(?icsm)x")) true;
  Syntax 40 (Bytes (codes "y(?i)")) true;
  Syntax 41 (Bytes (codes "y(?ic)")) true;
  Syntax 42 (Bytes (codes "y(?icsm)")) true;
  Syntax 44 (Bytes (codes "(?i)Tom|Sawyer|Huckleberry|Finn")) true].
(** tests/_fixed-string.cpp *)
Definition t_fixed_string : list test := [
  Size 7 (Utf32 (codes "^\s*(\d+)\s+:(\S):$(\S+?)$(\S+?)$(\S+)")) 38;
  Size 11 (Utf8 [196; 155; 197; 161; 196; 141]) 3;
  Size 12 (Utf8 [240; 159; 152; 141]) 1;
  First 13 (Utf8 [240; 159; 152; 141]) 128525;
  Size 15 (Bytes [196; 155; 197; 161; 196; 141]) 6;
  Size 16 (Bytes [240; 159; 152; 141]) 4;
  Size 21 (Utf8 [196; 155; 197; 161; 196; 141]) 3;
  Size 22 (Utf8 [240; 159; 152; 141]) 1;
  First 23 (Utf8 [240; 159; 152; 141]) 128525;
  Size 27 (Utf16 [283; 353; 269]) 3;
  Size 28 (Utf16 [55357; 56845]) 1;
  SameText 29 (Utf16 [55357; 56845]) (Utf32 [128525]);
  Size 32 (Utf32 [283; 353; 269]) 3;
  Size 33 (Utf32 [128525]) 1].
(** tests/string.cpp *)
Definition t_string_literals : list test := [
  Correct 5 (Bytes [0; 0]);
  Size 6 (Bytes [0; 0]) 2;
  Correct 10 (Bytes [0]);
  Size 11 (Bytes [0]) 1;
  Correct 15 (Bytes []);
  Size 16 (Bytes []) 0].
(** tests/is_prime.cpp *)
Definition t_is_prime : list test := [
  Run 11 MMatch false (Text (Bytes (codes ".?|(..+?)\g{1}+"))) (View []) (Matches true);
  Run 12 MMatch false (Text (Bytes (codes ".?|(..+?)\g{1}+"))) (View (codes "a")) (Matches true);
  Run 13 MMatch false (Text (Bytes (codes ".?|(..+?)\g{1}+"))) (View (codes "aa")) (Matches false);
  Run 14 MMatch false (Text (Bytes (codes ".?|(..+?)\g{1}+"))) (View (codes "aaa")) (Matches false);
  Run 15 MMatch false (Text (Bytes (codes ".?|(..+?)\g{1}+"))) (View (codes "aaaa")) (Matches true);
  Run 16 MMatch false (Text (Bytes (codes ".?|(..+?)\g{1}+"))) (View (codes "aaaaa")) (Matches false);
  Run 17 MMatch false (Text (Bytes (codes ".?|(..+?)\g{1}+"))) (View (codes "aaaaaa")) (Matches true);
  Run 18 MMatch false (Text (Bytes (codes ".?|(..+?)\g{1}+"))) (View (codes "aaaaaaa")) (Matches false);
  Run 19 MMatch false (Text (Bytes (codes ".?|(..+?)\g{1}+"))) (View (codes "aaaaaaaa")) (Matches true);
  Run 20 MMatch false (Text (Bytes (codes ".?|(..+?)\g{1}+"))) (View (codes "aaaaaaaaa")) (Matches true);
  Run 21 MMatch false (Text (Bytes (codes ".?|(..+?)\g{1}+"))) (View (codes "aaaaaaaaaa")) (Matches true);
  Run 22 MMatch false (Text (Bytes (codes ".?|(..+?)\g{1}+"))) (View (codes "aaaaaaaaaaa")) (Matches false)].
(** tests/msvc.cpp *)
Definition t_msvc : list test := [
  Run 13 MMatch false (Text (Bytes (codes "^[\x30-\x39]+?$"))) (View (codes "123456789")) (Matches true);
  Run 14 MMatch false (Text (Bytes [])) (View []) (Matches true);
  Syntax 25 (Bytes []) true;
  Syntax 38 (Bytes (codes "hello")) true;
  Run 40 MMatch false (Text (Bytes (codes "hello"))) (View (codes "hello")) (Matches true);
  Run 42 MMatch false (Text (Bytes (codes "hello"))) (View (codes "hello")) (Matches true)].
(** tests/__utf8.cpp *)
Definition t_utf8 : list test := [
  Decodes 36 (codes "test") (codes "test");
  Decodes 37 [196; 155; 197; 161; 196; 141; 197; 153] [283; 353; 269; 345];
  Decodes 38 [208; 147] [1043];
  Decodes 39 [208; 147; 97] [1043; 97];
  Decodes 40 [208; 147; 97; 240; 159; 152; 128] [1043; 97; 128512];
  Decodes 41 [208; 147; 97; 240; 159; 152; 128; 225; 166; 137] [1043; 97; 128512; 6537];
  Decodes 42 [208; 147; 97; 240; 159; 152; 128; 225; 166; 137; 240; 159; 156; 135; 97; 97] [1043; 97; 128512; 6537; 128775; 97; 97]].
(** tests/many-of-same-proto.cpp *)
Definition t_many_of_same_proto : list test := [
  Parses 19 (Bytes [40; 116; 111; 117; 114; 124; 116; 111; 124; 116; 111; 117; 114; 110; 97; 109; 101; 110; 116; 41; 43; 10; 116; 111; 117; 114; 110; 97]) true].
(** tests/_unicode.cpp *)
Definition t_unicode : list test := [
  Run 54 MMatch false (Text (Utf32 (codes "\u{1F92A}"))) (View [129322]) (Matches true);
  Run 55 MMatch false (Text (Utf32 (codes "\u20AC"))) (View [8364]) (Matches true);
  Syntax 61 (Utf32 (codes "\p{L}")) true;
  Run 62 MMatch false (Text (Utf32 (codes "[\p{L}]"))) (Pointer (codes "A")) (Matches true);
  Run 63 MMatch false (Text (Utf32 (codes "[\p{L}]+"))) (Pointer (codes "ABC")) (Matches true);
  Run 64 MMatch false (Text (Utf32 (codes "[\P{L}]"))) (Pointer (codes "1")) (Matches true);
  Run 65 MMatch false (Text (Utf32 (codes "[\P{L}]+"))) (Pointer (codes "123")) (Matches true);
  Syntax 66 (Utf32 (codes "\p{Letter}")) true;
  Run 67 MMatch false (Text (Utf32 (codes "\P{Letter}"))) (View (codes "1")) (Matches true);
  Run 68 MMatch false (Text (Utf32 (codes "\P{latin}"))) (View [1028]) (Matches true);
  Run 69 MMatch false (Text (Utf32 (codes "[^\p{latin}\p{script=Greek}]"))) (View [1513]) (Matches true);
  Run 70 MMatch false (Text (Utf32 (codes "\p{Letter}+"))) (U8 (codes "abcDEF")) (Matches true);
  Run 71 MMatch false (Text (Utf32 (codes "\p{Letter}+"))) (View (codes "abcDEF")) (Matches true);
  Run 72 MMatch false (Text (Utf32 (codes "\p{Ll}+"))) (View (codes "abcdef")) (Matches true);
  Run 73 MMatch false (Text (Utf32 (codes "\p{Lu}+"))) (View (codes "ABCD")) (Matches true);
  Run 74 MMatch false (Text (Utf32 (codes "\p{Lu}+"))) (View (codes "ABcD")) (Matches false);
  Run 75 MMatch false (Text (Utf32 (codes "\p{Nd}+"))) (View (codes "1234567890")) (Matches true);
  Run 76 MMatch false (Text (Utf32 (codes "\p{Nd}+"))) (View (codes "1234567890h")) (Matches false);
  Run 77 MMatch false (Text (Utf32 (codes "\p{script=Latin}+"))) (View (codes "abcd")) (Matches true);
  Run 78 MMatch false (Text (Utf32 (codes "\p{script=Greek}+"))) (View [946; 937]) (Matches true);
  Run 79 MMatch false (Text (Utf32 (codes "\p{script=Latin}+"))) (View [946; 937]) (Matches false);
  Run 80 MMatch false (Text (Utf32 (codes "\p{script=Greek}+"))) (View (codes "abcd")) (Matches false);
  Run 82 MMatch false (Text (Utf32 (codes "\p{emoji}+"))) (U8 [240; 159; 164; 170; 240; 159; 152; 141]) (Matches true);
  Run 83 MMatch false (Text (Bytes (codes "\p{emoji}+"))) (U8 [240; 159; 164; 170; 240; 159; 152; 141]) (Matches true);
  Run 85 MMatch false (Text (Utf32 (codes "\p{emoji}+"))) (View [129322; 128525; 10024; 127987]) (Matches true);
  Syntax 86 (Utf32 (codes "\p{sc=greek}+?\p{Emoji}\p{sc=greek}+?")) true;
  Run 87 MMatch false (Text (Utf32 (codes "\p{sc=greek}+?\p{Emoji}"))) (View [945; 937; 128525]) (Matches true);
  Run 88 MMatch false (Text (Utf32 (codes "\p{sc=greek}+?\p{Emoji}\p{sc=greek}+?"))) (View [945; 128525; 937]) (Matches true);
  Syntax 89 (Utf32 (codes "\p{age=10.0}")) true;
  Run 90 MMatch false (Text (Utf32 (codes "\p{age=10.0}"))) (View [129321]) (Matches true);
  Run 91 MMatch false (Text (Utf32 (codes "\p{block=misc_pictographs}"))) (View [127881]) (Matches true);
  Run 92 MMatch false (Text (Utf32 (codes "\p{scx=Hira}+"))) (View [12438]) (Matches true);
  Syntax 102 (Utf8 (codes "a+")) true;
  Syntax 103 (Utf8 [240; 159; 152; 141; 43]) true;
  Run 104 MMatch false (Text (Utf8 [240; 159; 152; 141])) (View [128525]) (Matches true);
  Run 105 MMatch false (Text (Utf8 [240; 159; 152; 141; 43])) (View [128525]) (Matches true);
  Run 106 MMatch false (Text (Utf8 [240; 159; 152; 141; 43])) (View [128525; 128525; 128525; 128525]) (Matches true);
  Run 107 MMatch false (Text (Utf8 [91; 240; 159; 152; 141; 97; 92; 120; 123; 49; 70; 57; 50; 65; 125; 93; 43])) (View [128525; 97; 128525; 97; 97; 128525; 128525; 97; 129322]) (Matches true);
  Run 108 MMatch false (Text (Utf8 [91; 240; 159; 152; 141; 97; 92; 120; 123; 49; 70; 57; 50; 65; 125; 93; 43])) (View [128525; 97; 128525; 97; 97; 128525; 128525; 97; 129322; 120]) (Matches false);
  Run 111 MMatch false (Text (Utf8 [91; 240; 159; 152; 141; 97; 45; 122; 92; 120; 123; 49; 70; 57; 50; 65; 125; 93; 43])) (View [97; 98; 99; 128525; 128525; 120; 121; 122]) (SizeIs 8);
  Syntax 113 (Utf32 (codes "a+")) true;
  Syntax 114 (Utf32 [128525; 43]) true;
  Run 115 MMatch false (Text (Utf32 [128525])) (View [128525]) (Matches true);
  Run 116 MMatch false (Text (Utf32 [128525; 43])) (View [128525]) (Matches true);
  Run 117 MMatch false (Text (Utf32 [128525; 43])) (View [128525; 128525; 128525; 128525]) (Matches true);
  Run 118 MMatch false (Text (Utf32 [91; 128525; 97; 92; 120; 123; 49; 70; 57; 50; 65; 125; 93; 43])) (View [128525; 97; 128525; 97; 97; 128525; 128525; 97; 129322]) (Matches true);
  Run 119 MMatch false (Text (Utf32 [91; 128525; 97; 92; 120; 123; 49; 70; 57; 50; 65; 125; 93; 43])) (View [128525; 97; 128525; 97; 97; 128525; 128525; 97; 129322; 120]) (Matches false);
  Run 122 MMatch false (Text (Utf32 [91; 128525; 97; 45; 122; 92; 120; 123; 49; 70; 57; 50; 65; 125; 93; 43])) (View [97; 98; 99; 128525; 128525; 120; 121; 122]) (SizeIs 8);
  Run 125 MMatch false (Text (Utf8 [240; 159; 152; 141; 43])) (U8 [240; 159; 152; 141; 240; 159; 152; 141; 240; 159; 152; 141]) (Matches true);
  Run 126 MMatch false (Text (Utf32 [91; 283; 353; 269; 345; 97; 98; 99; 93; 43])) (View [283; 283; 99; 283; 283; 97; 345]) (Matches true);
  Run 127 MMatch false (Text (Utf16 [283; 353; 269; 345])) (U8 [196; 155; 197; 161; 196; 141; 197; 153]) (Matches true);
  Run 128 MMatch false (Text (Utf32 [283; 353; 269; 345])) (U8 [196; 155; 197; 161; 196; 141; 197; 153]) (Matches true);
  Run 129 MMatch false (Text (Utf8 [196; 155; 197; 161; 196; 141; 197; 153])) (U8 [196; 155; 197; 161; 196; 141; 197; 153]) (Matches true);
  Syntax 132 (Bytes (codes "\p{Latin}")) true;
  Syntax 133 (Bytes (codes "\p{Latin42}")) false;
  Run 135 MMatch false (Text (Bytes (codes "\p{Latin}"))) (View (codes "a")) (Matches true);
  Run 136 MMatch false (Text (Bytes (codes "\p{Emoji}"))) (View (codes "a")) (Matches false)].
