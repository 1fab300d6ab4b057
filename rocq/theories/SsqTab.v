(** Tables of lunar/lunar_ssq.cpp, copied mechanically by tools/ssqtab.py. *)
From Coq Require Import ZArith List Ascii String.
From Verif Require Import F64 Str.
Import ListNotations.
Open Scope Z_scope.

(** lunar/lunar_ssq.cpp:27-41 *)
Definition suoKB : list f64 :=
  [ lit 1457698231017 1000000; lit 2953067166 100000000;
    lit 1546082512234 1000000; lit 2953085106 100000000;
    lit 1640640735300 1000000; lit 2953060000 100000000;
    lit 1642472151543 1000000; lit 2953085439 100000000;
    lit 1683430509300 1000000; lit 2953086148 100000000;
    lit 1752148041079 1000000; lit 2953085097 100000000;
    lit 1807665420323 1000000; lit 2953059851 100000000;
    lit 1883618114100 1000000; lit 2953060000 100000000;
    lit 1907360704700 1000000; lit 2953060000 100000000;
    lit 1936596224900 1000000; lit 2953060000 100000000;
    lit 1939135675300 1000000; lit 2953060000 100000000;
    lit 194716800 100 ].

(** lunar/lunar_ssq.cpp:43-81 *)
Definition qiKB : list f64 :=
  [ lit 1640650479938 1000000; lit 1521842500 100000000;
    lit 1642476703182 1000000; lit 1521874996 100000000;
    lit 1683430515601 1000000; lit 15218750011 1000000000;
    lit 1752157640664 1000000; lit 15218749978 1000000000;
    lit 1807675003759 1000000; lit 15218620279 1000000000;
    lit 1883627765182 1000000; lit 15218612292 1000000000;
    lit 1907369128100 1000000; lit 15218449176 1000000000;
    lit 1936603140413 1000000; lit 15218425000 1000000000;
    lit 1939145524180 1000000; lit 15218466998 1000000000;
    lit 1947180798300 1000000; lit 15218524844 1000000000;
    lit 1964362041824 1000000; lit 15218533526 1000000000;
    lit 1987372340971 1000000; lit 15218513908 1000000000;
    lit 1999653819126 1000000; lit 15218530782 1000000000;
    lit 2007445469786 1000000; lit 15218535181 1000000000;
    lit 2021324917146 1000000; lit 15218526248 1000000000;
    lit 2047257232342 1000000; lit 15218519654 1000000000;
    lit 2070282898213 1000000; lit 15218425000 1000000000;
    lit 2073204872850 1000000; lit 15218515221 1000000000;
    lit 2080144500926 1000000; lit 15218530782 1000000000;
    lit 2086703688963 1000000; lit 15218523776 1000000000;
    lit 2110033182763 1000000; lit 15218425000 1000000000;
    lit 2111190300888 1000000; lit 15218425000 1000000000;
    lit 2113731271005 1000000; lit 15218515671 1000000000;
    lit 2120670840263 1000000; lit 15218425000 1000000000;
    lit 2123973309063 1000000; lit 15218425000 1000000000;
    lit 2125068997336 1000000; lit 15218477932 1000000000;
    lit 2136026312633 1000000; lit 15218472436 1000000000;
    lit 2156099495538 1000000; lit 15218425000 1000000000;
    lit 2159021324663 1000000; lit 15218425000 1000000000;
    lit 2162308575254 1000000; lit 15218461742 1000000000;
    lit 2178485706538 1000000; lit 15218425000 1000000000;
    lit 2178759662849 1000000; lit 15218445786 1000000000;
    lit 2185334020800 1000000; lit 15218425000 1000000000;
    lit 2187525481425 1000000; lit 15218425000 1000000000;
    lit 2188621191481 1000000; lit 15218437494 1000000000;
    lit 232214776 100 ].

(** lunar/lunar_ssq.cpp:89-110 *)
Definition suoS : bytes := B (
  "EqoFscDcrFpmEsF2DfFideFelFpFfFfFiaipqti1ksttikptikqckstekqttgkqttgkqteksttikptikq2fjstgjqttjkqttgkqt" ++
  "ekstfkptikq2tijstgjiFkirFsAeACoFsiDaDiADc1AFbBfgdfikijFifegF1FhaikgFag1E2btaieeibggiffdeigFfqDfaiBkF" ++
  "1kEaikhkigeidhhdiegcFfakF1ggkidbiaedksaFffckekidhhdhdikcikiakicjF1deedFhFccgicdekgiFbiaikcfi1kbFibef" ++
  "gEgFdcFkFeFkdcfkF1kfkcickEiFkDacFiEfbiaejcFfffkhkdgkaiei1ehigikhdFikfckF1dhhdikcfgjikhfjicjicgiehdik" ++
  "cikggcifgiejF1jkieFhegikggcikFegiegkfjebhigikggcikdgkaFkijcfkcikfkcifikiggkaeeigefkcdfcfkhkdgkegieid" ++
  "hijcFfakhfgeidieidiegikhfkfckfcjbdehdikggikgkfkicjicjF1dbidikFiggcifgiejkiegkigcdiegfggcikdbgfgefjF1" ++
  "kfegikggcikdgFkeeijcfkcikfkekcikdgkabhkFikaffcfkhkdgkegbiaekfkiakicjhfgqdq2fkiakgkfkhfkfcjiekgFebicg" ++
  "gbedF1jikejbbbiakgbgkacgiejkijjgigfiakggfggcibFifjefjF1kfekdgjcibFeFkijcfkfhkfkeaieigekgbhkfikidfcje" ++
  "aibgekgdkiffiffkiakF1jhbakgdki1dj1ikfkicjicjieeFkgdkicggkighdF1jfgkgfgbdkicggfggkidFkiekgijkeigfiski" ++
  "ggfaidheigF1jekijcikickiggkidhhdbgcfkFikikhkigeidieFikggikhkffaffijhidhhakgdkhkijF1kiakF1kfheakgdkif" ++
  "iggkigicjiejkieedikgdfcggkigieeiejfgkgkigbgikicggkiaideeijkefjeijikhkiggkiaidheigcikaikffikijgkiahi1" ++
  "hhdikgjfifaakekighie1hiaikggikhkffakicjhiahaikggikhkijF1kfejfeFhidikggiffiggkigicjiekgieeigikggiffig" ++
  "gkidheigkgfjkeigiegikifiggkidhedeijcfkFikikhkiggkidhh1ehigcikaffkhkiggkidhh1hhigikekfiFkFikcidhh1hit" ++
  "cikggikhkfkicjicghiediaikggikhkijbjfejfeFhaikggifikiggkigiejkikgkgieeigikggiffiggkigieeigekijcijikgg" ++
  "ifikiggkideedeijkefkfckikhkiggkidhh1ehijcikaffkhkiggkidhh1hhigikhkikFikfckcidhh1hiaikgjikhfjicjicgie" ++
  "hdikcikggifikigiejfejkieFhegikggifikiggfghigkfjeijkhigikggifikiggkigieeijcijcikfksikifikiggkidehdeij" ++
  "cfdckikhkiggkhghh1ehijikifffffkhsFngErD1pAfBoDd1BlEtFqA2AqoEpDqElAEsEeB2BmADlDkqBtC1FnEpDqnEmFsFsAFn" ++
  "llBbFmDsDiCtDmAB2BmtCgpEplCpAEiBiEoFqFtEqsDcCnFtADnFlEgdkEgmEtEsCtDmADqFtAFrAtEcCqAE1BoFqC1F1DrFtBmF" ++
  "tAC2ACnFaoCgADcADcCcFfoFtDlAFgmFqBq2bpEoAEmkqnEeCtAE1bAEqgDfFfCrgEcBrACfAAABqAAB1AAClEnFeCtCgAADqDoB" ++
  "mtAAACbFiAAADsEtBqAB2FsDqpFqEmFsCeDtFlCeDtoEpClEqAAFrAFoCgFmFsFqEnAEcCqFeCtFtEnAEeFtAAEkFnErAABbFkAD" ++
  "nAAeCtFeAfBoAEpFtAABtFqAApDcCGJ")%string.

(** lunar/lunar_ssq.cpp:112-118 *)
Definition qiS : bytes := B (
  "FrcFs22AFsckF2tsDtFqEtF1posFdFgiFseFtmelpsEfhkF2anmelpFlF1ikrotcnEqEq2FfqmcDsrFor22FgFrcgDscFs22FgEe" ++
  "FtE2sfFs22sCoEsaF2tsD1FpeE2eFsssEciFsFnmelpFcFhkF2tcnEqEpFgkrotcnEqrEtFermcDsrE222FgBmcmr22DaEfnaF22" ++
  "2sD1FpeForeF2tssEfiFpEoeFssD1iFstEqFppDgFstcnEqEpFg11FscnEqrAoAF2ClAEsDmDtCtBaDlAFbAEpAAAAAD2FgBiBqo" ++
  "BbnBaBoAAAAAAAEgDqAdBqAFrBaBoACdAAf1AACgAAAeBbCamDgEifAE2AABa1C1BgFdiAAACoCeE1ADiEifDaAEqAAFe1AcFbcA" ++
  "AAAAF1iFaAAACpACmFmAAAAAAAACrDaAAADG0")%string.

(** lunar/lunar_ssq.cpp:132-161 (with the blocks of zeros of lines 119-124): the replacements in program order *)
Definition jieya_rules : list (ascii * bytes) :=
  [ ("J"%char, B "00");
    ("I"%char, B "000");
    ("H"%char, B "0000");
    ("G"%char, B "00000");
    ("t"%char, B "02");
    ("s"%char, B "002");
    ("r"%char, B "0002");
    ("q"%char, B "00002");
    ("p"%char, B "000002");
    ("o"%char, B "0000002");
    ("n"%char, B "00000002");
    ("m"%char, B "000000002");
    ("l"%char, B "0000000002");
    ("k"%char, B "01");
    ("j"%char, B "0101");
    ("i"%char, B "001");
    ("h"%char, B "001001");
    ("g"%char, B "0001");
    ("f"%char, B "00001");
    ("e"%char, B "000001");
    ("d"%char, B "0000001");
    ("c"%char, B "00000001");
    ("b"%char, B "000000001");
    ("a"%char, B "0000000001");
    ("F"%char, B "0000000000");
    ("E"%char, B "00000000000000000000");
    ("D"%char, B "000000000000000000000000000000");
    ("C"%char, B "0000000000000000000000000000000000000000");
    ("B"%char, B "00000000000000000000000000000000000000000000000000");
    ("A"%char, B "000000000000000000000000000000000000000000000000000000000000") ].
