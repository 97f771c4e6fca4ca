(** * WaterData: the table of utility/water_data.py

    Rows indexed by temperature (lines 25-2286), transcribed from the source text,
    decimal literals as exact rationals. *)
From Coq Require Import String List ZArith QArith.
Import ListNotations.
Local Open Scope string_scope.
Local Open Scope list_scope.
Local Open Scope Q_scope.

Inductive cell := CN (x : Q) | CT (s : string).

Definition k_cp := "Cp (J/g*K)".
Definition k_cv := "Cv (J/g*K)".
Definition k_rho := "Density (kg/m3)".
Definition k_h := "Enthalpy (kJ/kg)".
Definition k_s := "Entropy (J/g*K)".
Definition k_u := "Internal Energy (kJ/kg)".
Definition k_jt := "Joule-Thomson (K/MPa)".
Definition k_phase := "Phase".
Definition k_p := "Pressure (MPa)".
Definition k_c := "Sound Spd. (m/s)".
Definition k_k := "Therm. Cond. (W/m*K)".
Definition k_mu := "Viscosity (uPa*s)".
Definition k_v := "Volume (m3/kg)".
(** Lines 19-21. *)
Definition WATER_PROPERTY_KEYS : list string := [k_p; k_cp; k_cv; k_rho; k_h; k_s; k_u; k_phase; k_k; k_mu; k_v].
Definition WATER_PROPERTIES : list (Q * list (string * cell)) := [
  ((275 # 1), [(k_cp, CN (8427 # 2000)); (k_cv, CN (2633 # 625)); (k_rho, CN (49997 # 50)); (k_h, CN (78613 # 10000)); (k_s, CN (28313 # 1000000)); (k_u, CN (194 # 25)); (k_jt, CN (- (5991 # 25000))); (k_phase, CT "liquid"); (k_p, CN (2533 # 25000)); (k_c, CN (2823 # 2)); (k_k, CN (56029 # 100000)); (k_mu, CN (16819 # 10)); (k_v, CN (10001 # 10000000))]);
  ((285 # 1), [(k_cp, CN (10481 # 2500)); (k_cv, CN (5231 # 1250)); (k_rho, CN (24988 # 25)); (k_h, CN (49877 # 1000)); (k_s, CN (17839 # 100000)); (k_u, CN (6222 # 125)); (k_jt, CN (- (11551 # 50000))); (k_phase, CT "liquid"); (k_p, CN (2533 # 25000)); (k_c, CN (7272 # 5)); (k_k, CN (58259 # 100000)); (k_mu, CN (6196 # 5)); (k_v, CN (2001 # 2000000))]);
  ((295 # 1), [(k_cp, CN (41829 # 10000)); (k_cv, CN (20749 # 5000)); (k_rho, CN (99781 # 100)); (k_h, CN (91747 # 1000)); (k_s, CN (16139 # 50000)); (k_u, CN (18329 # 200)); (k_jt, CN (- (11181 # 50000))); (k_phase, CT "liquid"); (k_p, CN (2533 # 25000)); (k_c, CN (14879 # 10)); (k_k, CN (15031 # 25000)); (k_mu, CN (95781 # 100)); (k_v, CN (5011 # 5000000))]);
  ((305 # 1), [(k_cp, CN (8359 # 2000)); (k_cv, CN (20547 # 5000)); (k_rho, CN (24877 # 25)); (k_h, CN (2671 # 20)); (k_s, CN (9243 # 20000)); (k_u, CN (2669 # 20)); (k_jt, CN (- (10851 # 50000))); (k_phase, CT "liquid"); (k_p, CN (2533 # 25000)); (k_c, CN (15133 # 10)); (k_k, CN (15429 # 25000)); (k_mu, CN (76679 # 100)); (k_v, CN (10049 # 10000000))]);
  ((315 # 1), [(k_cp, CN (10449 # 2500)); (k_cv, CN (40649 # 10000)); (k_rho, CN (1983 # 2)); (k_h, CN (3507 # 20)); (k_s, CN (29849 # 50000)); (k_u, CN (701 # 4)); (k_jt, CN (- (10547 # 50000))); (k_phase, CT "liquid"); (k_p, CN (2533 # 25000)); (k_c, CN (15319 # 10)); (k_k, CN (63087 # 100000)); (k_mu, CN (31533 # 50)); (k_v, CN (5043 # 5000000))]);
  ((325 # 1), [(k_cp, CN (41819 # 10000)); (k_cv, CN (40171 # 10000)); (k_rho, CN (98719 # 100)); (k_h, CN (4343 # 20)); (k_s, CN (18191 # 25000)); (k_u, CN (4341 # 20)); (k_jt, CN (- (513 # 2500))); (k_phase, CT "liquid"); (k_p, CN (2533 # 25000)); (k_c, CN (3089 # 2)); (k_k, CN (64267 # 100000)); (k_mu, CN (52997 # 100)); (k_v, CN (1013 # 1000000))]);
  ((335 # 1), [(k_cp, CN (20929 # 5000)); (k_cv, CN (39671 # 10000)); (k_rho, CN (98223 # 100)); (k_h, CN (25899 # 100)); (k_s, CN (85443 # 100000)); (k_u, CN (25889 # 100)); (k_jt, CN (- (3993 # 20000))); (k_phase, CT "liquid"); (k_p, CN (2533 # 25000)); (k_c, CN (1552 # 1)); (k_k, CN (32637 # 50000)); (k_mu, CN (4533 # 10)); (k_v, CN (10181 # 10000000))]);
  ((345 # 1), [(k_cp, CN (5239 # 1250)); (k_cv, CN (7831 # 2000)); (k_rho, CN (9767 # 10)); (k_h, CN (7522 # 25)); (k_s, CN (48881 # 50000)); (k_u, CN (30077 # 100)); (k_jt, CN (- (2427 # 12500))); (k_phase, CT "liquid"); (k_p, CN (2533 # 25000)); (k_c, CN (1555 # 1)); (k_k, CN (66121 # 100000)); (k_mu, CN (39353 # 100)); (k_v, CN (10239 # 10000000))]);
  ((355 # 1), [(k_cp, CN (20991 # 5000)); (k_cv, CN (38631 # 10000)); (k_rho, CN (97063 # 100)); (k_h, CN (17141 # 50)); (k_s, CN (439 # 400)); (k_u, CN (8568 # 25)); (k_jt, CN (- (18863 # 100000))); (k_phase, CT "liquid"); (k_p, CN (2533 # 25000)); (k_c, CN (1554 # 1)); (k_k, CN (66817 # 100000)); (k_mu, CN (34603 # 100)); (k_v, CN (10303 # 10000000))]);
  ((365 # 1), [(k_cp, CN (4207 # 1000)); (k_cv, CN (38107 # 10000)); (k_rho, CN (48203 # 50)); (k_h, CN (9621 # 25)); (k_s, CN (6071 # 5000)); (k_u, CN (19237 # 50)); (k_jt, CN (- (18297 # 100000))); (k_phase, CT "liquid"); (k_p, CN (2533 # 25000)); (k_c, CN (15493 # 10)); (k_k, CN (67371 # 100000)); (k_mu, CN (6153 # 20)); (k_v, CN (10373 # 10000000))]);
  ((9328 # 25), [(k_cp, CN (20799 # 10000)); (k_cv, CN (7779 # 5000)); (k_rho, CN (29883 # 50000)); (k_h, CN (5351 # 2)); (k_s, CN (9193 # 1250)); (k_u, CN (2506 # 1)); (k_jt, CN (66729 # 1000)); (k_phase, CT "vapor"); (k_p, CN (10133 # 100000)); (k_c, CN (23609 # 50)); (k_k, CN (3071 # 125000)); (k_mu, CN (12231 # 1000)); (k_v, CN (4183 # 2500))]);
  ((375 # 1), [(k_cp, CN (5179 # 2500)); (k_cv, CN (15499 # 10000)); (k_rho, CN (29721 # 50000)); (k_h, CN (13397 # 5)); (k_s, CN (4603 # 625)); (k_u, CN (2509 # 1)); (k_jt, CN (12977 # 200)); (k_phase, CT "vapor"); (k_p, CN (2533 # 25000)); (k_c, CN (11838 # 25)); (k_k, CN (24723 # 1000000)); (k_mu, CN (1538 # 125)); (k_v, CN (16823 # 10000))]);
  ((385 # 1), [(k_cp, CN (5097 # 2500)); (k_cv, CN (15277 # 10000)); (k_rho, CN (57787 # 100000)); (k_h, CN (2700 # 1)); (k_s, CN (74189 # 10000)); (k_u, CN (12623 # 5)); (k_jt, CN (28317 # 500)); (k_phase, CT "vapor"); (k_p, CN (2533 # 25000)); (k_c, CN (48041 # 100)); (k_k, CN (12779 # 500000)); (k_mu, CN (12691 # 1000)); (k_v, CN (3461 # 2000))]);
  ((395 # 1), [(k_cp, CN (10087 # 5000)); (k_cv, CN (15141 # 10000)); (k_rho, CN (14059 # 25000)); (k_h, CN (13601 # 5)); (k_s, CN (74709 # 10000)); (k_u, CN (25401 # 10)); (k_jt, CN (10019 # 200)); (k_phase, CT "vapor"); (k_p, CN (2533 # 25000)); (k_c, CN (48703 # 100)); (k_k, CN (26403 # 1000000)); (k_mu, CN (13081 # 1000)); (k_v, CN (8891 # 5000))]);
  ((405 # 1), [(k_cp, CN (2503 # 1250)); (k_cv, CN (3763 # 2500)); (k_rho, CN (2191 # 4000)); (k_h, CN (27403 # 10)); (k_s, CN (75211 # 10000)); (k_u, CN (25553 # 10)); (k_jt, CN (5584 # 125)); (k_phase, CT "vapor"); (k_p, CN (2533 # 25000)); (k_c, CN (9869 # 20)); (k_k, CN (1363 # 50000)); (k_mu, CN (13473 # 1000)); (k_v, CN (18257 # 10000))]);
  ((415 # 1), [(k_cp, CN (9959 # 5000)); (k_cv, CN (7497 # 5000)); (k_rho, CN (10679 # 20000)); (k_h, CN (27603 # 10)); (k_s, CN (37849 # 5000)); (k_u, CN (5141 # 2)); (k_jt, CN (40093 # 1000)); (k_phase, CT "vapor"); (k_p, CN (2533 # 25000)); (k_c, CN (4997 # 10)); (k_k, CN (2813 # 100000)); (k_mu, CN (3467 # 250)); (k_v, CN (2341 # 1250))]);
  ((425 # 1), [(k_cp, CN (3969 # 2000)); (k_cv, CN (14961 # 10000)); (k_rho, CN (52089 # 100000)); (k_h, CN (13901 # 5)); (k_s, CN (19043 # 2500)); (k_u, CN (25857 # 10)); (k_jt, CN (3619 # 100)); (k_phase, CT "vapor"); (k_p, CN (2533 # 25000)); (k_c, CN (25291 # 50)); (k_k, CN (7253 # 250000)); (k_mu, CN (2853 # 200)); (k_v, CN (9599 # 5000))]);
  ((435 # 1), [(k_cp, CN (4949 # 2500)); (k_cv, CN (2989 # 2000)); (k_rho, CN (1017 # 2000)); (k_h, CN (2800 # 1)); (k_s, CN (76633 # 10000)); (k_u, CN (26007 # 10)); (k_jt, CN (32837 # 1000)); (k_phase, CT "vapor"); (k_p, CN (2533 # 25000)); (k_c, CN (2559 # 5)); (k_k, CN (29907 # 1000000)); (k_mu, CN (1833 # 125)); (k_v, CN (9833 # 5000))]);
  ((445 # 1), [(k_cp, CN (19767 # 10000)); (k_cv, CN (14943 # 10000)); (k_rho, CN (6209 # 12500)); (k_h, CN (14099 # 5)); (k_s, CN (38541 # 5000)); (k_u, CN (13079 # 5)); (k_jt, CN (29937 # 1000)); (k_phase, CT "vapor"); (k_p, CN (2533 # 25000)); (k_c, CN (12942 # 25)); (k_k, CN (6163 # 200000)); (k_mu, CN (7533 # 500)); (k_v, CN (5033 # 2500))]);
  ((455 # 1), [(k_cp, CN (9877 # 5000)); (k_cv, CN (14953 # 10000)); (k_rho, CN (48551 # 100000)); (k_h, CN (5679 # 2)); (k_s, CN (77521 # 10000)); (k_u, CN (13154 # 5)); (k_jt, CN (27413 # 1000)); (k_phase, CT "vapor"); (k_p, CN (2533 # 25000)); (k_c, CN (13086 # 25)); (k_k, CN (3967 # 125000)); (k_mu, CN (3867 # 250)); (k_v, CN (20597 # 10000))]);
  ((465 # 1), [(k_cp, CN (2469 # 1250)); (k_cv, CN (14971 # 10000)); (k_rho, CN (47481 # 100000)); (k_h, CN (28593 # 10)); (k_s, CN (77951 # 10000)); (k_u, CN (26459 # 10)); (k_jt, CN (25203 # 1000)); (k_phase, CT "vapor"); (k_p, CN (2533 # 25000)); (k_c, CN (13228 # 25)); (k_k, CN (32669 # 1000000)); (k_mu, CN (15873 # 1000)); (k_v, CN (21061 # 10000))]);
  ((475 # 1), [(k_cp, CN (19761 # 10000)); (k_cv, CN (3749 # 2500)); (k_rho, CN (46459 # 100000)); (k_h, CN (2879 # 1)); (k_s, CN (78371 # 10000)); (k_u, CN (26609 # 10)); (k_jt, CN (11629 # 500)); (k_phase, CT "vapor"); (k_p, CN (2533 # 25000)); (k_c, CN (5347 # 10)); (k_k, CN (6723 # 200000)); (k_mu, CN (16279 # 1000)); (k_v, CN (5381 # 2500))]);
  ((485 # 1), [(k_cp, CN (9889 # 5000)); (k_cv, CN (3757 # 2500)); (k_rho, CN (22741 # 50000)); (k_h, CN (14494 # 5)); (k_s, CN (78783 # 10000)); (k_u, CN (2676 # 1)); (k_jt, CN (4307 # 200)); (k_phase, CT "vapor"); (k_p, CN (2533 # 25000)); (k_c, CN (2701 # 5)); (k_k, CN (17287 # 500000)); (k_mu, CN (8343 # 500)); (k_v, CN (21987 # 10000))]);
  ((495 # 1), [(k_cp, CN (9901 # 5000)); (k_cv, CN (1883 # 1250)); (k_rho, CN (22273 # 50000)); (k_h, CN (14593 # 5)); (k_s, CN (79187 # 10000)); (k_u, CN (26911 # 10)); (k_jt, CN (20003 # 1000)); (k_phase, CT "vapor"); (k_p, CN (2533 # 25000)); (k_c, CN (27281 # 50)); (k_k, CN (7109 # 200000)); (k_mu, CN (8547 # 500)); (k_v, CN (22449 # 10000))]);
  ((505 # 1), [(k_cp, CN (19831 # 10000)); (k_cv, CN (944 # 625)); (k_rho, CN (43649 # 100000)); (k_h, CN (14692 # 5)); (k_s, CN (79583 # 10000)); (k_u, CN (27063 # 10)); (k_jt, CN (2329 # 125)); (k_phase, CT "vapor"); (k_p, CN (2533 # 25000)); (k_c, CN (13774 # 25)); (k_k, CN (2283 # 62500)); (k_mu, CN (2188 # 125)); (k_v, CN (2291 # 1000))]);
  ((515 # 1), [(k_cp, CN (3973 # 2000)); (k_cv, CN (3787 # 2500)); (k_rho, CN (42789 # 100000)); (k_h, CN (29583 # 10)); (k_s, CN (19993 # 2500)); (k_u, CN (5443 # 2)); (k_jt, CN (8701 # 500)); (k_phase, CT "vapor"); (k_p, CN (2533 # 25000)); (k_c, CN (55623 # 100)); (k_k, CN (37523 # 1000000)); (k_mu, CN (8957 # 500)); (k_v, CN (23371 # 10000))]);
  ((525 # 1), [(k_cp, CN (19903 # 10000)); (k_cv, CN (7597 # 5000)); (k_rho, CN (20981 # 50000)); (k_h, CN (14891 # 5)); (k_s, CN (16071 # 2000)); (k_u, CN (27367 # 10)); (k_jt, CN (4073 # 250)); (k_phase, CT "vapor"); (k_p, CN (2533 # 25000)); (k_c, CN (14036 # 25)); (k_k, CN (3853 # 100000)); (k_mu, CN (733 # 40)); (k_v, CN (23831 # 10000))]);
  ((535 # 1), [(k_cp, CN (3989 # 2000)); (k_cv, CN (15243 # 10000)); (k_rho, CN (2573 # 6250)); (k_h, CN (29981 # 10)); (k_s, CN (80731 # 10000)); (k_u, CN (27519 # 10)); (k_jt, CN (15287 # 1000)); (k_phase, CT "vapor"); (k_p, CN (2533 # 25000)); (k_c, CN (28329 # 50)); (k_k, CN (9887 # 250000)); (k_mu, CN (18737 # 1000)); (k_v, CN (24291 # 10000))]);
  ((545 # 1), [(k_cp, CN (19989 # 10000)); (k_cv, CN (7647 # 5000)); (k_rho, CN (40403 # 100000)); (k_h, CN (3018 # 1)); (k_s, CN (811 # 100)); (k_u, CN (27673 # 10)); (k_jt, CN (7187 # 500)); (k_phase, CT "vapor"); (k_p, CN (2533 # 25000)); (k_c, CN (28583 # 50)); (k_k, CN (40577 # 1000000)); (k_mu, CN (19149 # 1000)); (k_v, CN (99 # 40))]);
  ((555 # 1), [(k_cp, CN (5009 # 2500)); (k_cv, CN (15347 # 10000)); (k_rho, CN (39667 # 100000)); (k_h, CN (30381 # 10)); (k_s, CN (10183 # 1250)); (k_u, CN (13913 # 5)); (k_jt, CN (6771 # 500)); (k_phase, CT "vapor"); (k_p, CN (2533 # 25000)); (k_c, CN (14417 # 25)); (k_k, CN (41617 # 1000000)); (k_mu, CN (9781 # 500)); (k_v, CN (2521 # 1000))]);
  ((565 # 1), [(k_cp, CN (4017 # 2000)); (k_cv, CN (15401 # 10000)); (k_rho, CN (19479 # 50000)); (k_h, CN (30581 # 10)); (k_s, CN (40911 # 5000)); (k_u, CN (2798 # 1)); (k_jt, CN (639 # 50)); (k_phase, CT "vapor"); (k_p, CN (2533 # 25000)); (k_c, CN (11633 # 20)); (k_k, CN (10667 # 250000)); (k_mu, CN (799 # 40)); (k_v, CN (25669 # 10000))]);
  ((575 # 1), [(k_cp, CN (4027 # 2000)); (k_cv, CN (966 # 625)); (k_rho, CN (19137 # 50000)); (k_h, CN (15391 # 5)); (k_s, CN (3287 # 400)); (k_u, CN (5627 # 2)); (k_jt, CN (6041 # 500)); (k_phase, CT "vapor"); (k_p, CN (2533 # 25000)); (k_c, CN (11731 # 20)); (k_k, CN (43729 # 1000000)); (k_mu, CN (20389 # 1000)); (k_v, CN (26127 # 10000))]);
  ((585 # 1), [(k_cp, CN (5047 # 2500)); (k_cv, CN (15513 # 10000)); (k_rho, CN (18807 # 50000)); (k_h, CN (15492 # 5)); (k_s, CN (82523 # 10000)); (k_u, CN (2829 # 1)); (k_jt, CN (11439 # 1000)); (k_phase, CT "vapor"); (k_p, CN (2533 # 25000)); (k_c, CN (59141 # 100)); (k_k, CN (28 # 625)); (k_mu, CN (20803 # 1000)); (k_v, CN (13293 # 5000))]);
  ((595 # 1), [(k_cp, CN (10121 # 5000)); (k_cv, CN (15571 # 10000)); (k_rho, CN (2311 # 6250)); (k_h, CN (15593 # 5)); (k_s, CN (41433 # 5000)); (k_u, CN (14223 # 5)); (k_jt, CN (10847 # 1000)); (k_phase, CT "vapor"); (k_p, CN (2533 # 25000)); (k_c, CN (59621 # 100)); (k_k, CN (22941 # 500000)); (k_mu, CN (21217 # 1000)); (k_v, CN (6761 # 2500))]);
  ((605 # 1), [(k_cp, CN (20297 # 10000)); (k_cv, CN (1563 # 1000)); (k_rho, CN (36361 # 100000)); (k_h, CN (31389 # 10)); (k_s, CN (83203 # 10000)); (k_u, CN (14301 # 5)); (k_jt, CN (10299 # 1000)); (k_phase, CT "vapor"); (k_p, CN (2533 # 25000)); (k_c, CN (60097 # 100)); (k_k, CN (46973 # 1000000)); (k_mu, CN (2704 # 125)); (k_v, CN (13751 # 5000))]);
  ((615 # 1), [(k_cp, CN (20353 # 10000)); (k_cv, CN (15689 # 10000)); (k_rho, CN (7153 # 20000)); (k_h, CN (15796 # 5)); (k_s, CN (83537 # 10000)); (k_u, CN (28759 # 10)); (k_jt, CN (97907 # 10000)); (k_phase, CT "vapor"); (k_p, CN (2533 # 25000)); (k_c, CN (15142 # 25)); (k_k, CN (48073 # 1000000)); (k_mu, CN (11023 # 500)); (k_v, CN (699 # 250))]);
  ((625 # 1), [(k_cp, CN (20411 # 10000)); (k_cv, CN (63 # 40)); (k_rho, CN (35189 # 100000)); (k_h, CN (15898 # 5)); (k_s, CN (16773 # 2000)); (k_u, CN (14458 # 5)); (k_jt, CN (9319 # 1000)); (k_phase, CT "vapor"); (k_p, CN (2533 # 25000)); (k_c, CN (61033 # 100)); (k_k, CN (49183 # 1000000)); (k_mu, CN (1123 # 50)); (k_v, CN (14209 # 5000))]);
  ((635 # 1), [(k_cp, CN (20469 # 10000)); (k_cv, CN (15811 # 10000)); (k_rho, CN (34631 # 100000)); (k_h, CN (3200 # 1)); (k_s, CN (8419 # 1000)); (k_u, CN (14537 # 5)); (k_jt, CN (222 # 25)); (k_phase, CT "vapor"); (k_p, CN (2533 # 25000)); (k_c, CN (12299 # 20)); (k_k, CN (25151 # 500000)); (k_mu, CN (183 # 8)); (k_v, CN (7219 # 2500))]);
  ((645 # 1), [(k_cp, CN (1283 # 625)); (k_cv, CN (15873 # 10000)); (k_rho, CN (34091 # 100000)); (k_h, CN (6441 # 2)); (k_s, CN (8451 # 1000)); (k_u, CN (29233 # 10)); (k_jt, CN (21177 # 2500)); (k_phase, CT "vapor"); (k_p, CN (2533 # 25000)); (k_c, CN (15488 # 25)); (k_k, CN (5143 # 100000)); (k_mu, CN (23289 # 1000)); (k_v, CN (29333 # 10000))]);
  ((655 # 1), [(k_cp, CN (5147 # 2500)); (k_cv, CN (3187 # 2000)); (k_rho, CN (33567 # 100000)); (k_h, CN (32411 # 10)); (k_s, CN (42413 # 5000)); (k_u, CN (14696 # 5)); (k_jt, CN (40443 # 5000)); (k_phase, CT "vapor"); (k_p, CN (2533 # 25000)); (k_c, CN (12481 # 20)); (k_k, CN (26283 # 500000)); (k_mu, CN (23703 # 1000)); (k_v, CN (29791 # 10000))]);
  ((665 # 1), [(k_cp, CN (20649 # 10000)); (k_cv, CN (7999 # 5000)); (k_rho, CN (1653 # 5000)); (k_h, CN (32617 # 10)); (k_s, CN (85139 # 10000)); (k_u, CN (14776 # 5)); (k_jt, CN (77309 # 10000)); (k_phase, CT "vapor"); (k_p, CN (2533 # 25000)); (k_c, CN (62853 # 100)); (k_k, CN (53711 # 1000000)); (k_mu, CN (6029 # 250)); (k_v, CN (3781 # 1250))]);
  ((675 # 1), [(k_cp, CN (20711 # 10000)); (k_cv, CN (8031 # 5000)); (k_rho, CN (4071 # 12500)); (k_h, CN (16412 # 5)); (k_s, CN (85447 # 10000)); (k_u, CN (29713 # 10)); (k_jt, CN (36979 # 5000)); (k_phase, CT "vapor"); (k_p, CN (2533 # 25000)); (k_c, CN (31649 # 50)); (k_k, CN (10973 # 200000)); (k_mu, CN (2453 # 100)); (k_v, CN (6141 # 2000))]);
  ((685 # 1), [(k_cp, CN (20773 # 10000)); (k_cv, CN (8063 # 5000)); (k_rho, CN (3209 # 10000)); (k_h, CN (33031 # 10)); (k_s, CN (10719 # 1250)); (k_u, CN (14937 # 5)); (k_jt, CN (17703 # 2500)); (k_phase, CT "vapor"); (k_p, CN (2533 # 25000)); (k_c, CN (31869 # 50)); (k_k, CN (28013 # 500000)); (k_mu, CN (24943 # 1000)); (k_v, CN (15581 # 5000))]);
  ((695 # 1), [(k_cp, CN (5209 # 2500)); (k_cv, CN (1619 # 1000)); (k_rho, CN (15813 # 50000)); (k_h, CN (33239 # 10)); (k_s, CN (43027 # 5000)); (k_u, CN (6007 # 2)); (k_jt, CN (4241 # 625)); (k_phase, CT "vapor"); (k_p, CN (2533 # 25000)); (k_c, CN (2567 # 4)); (k_k, CN (11439 # 200000)); (k_mu, CN (6339 # 250)); (k_v, CN (31619 # 10000))]);
  ((705 # 1), [(k_cp, CN (20899 # 10000)); (k_cv, CN (3251 # 2000)); (k_rho, CN (3897 # 12500)); (k_h, CN (16724 # 5)); (k_s, CN (5397 # 625)); (k_u, CN (15099 # 5)); (k_jt, CN (32537 # 5000)); (k_phase, CT "vapor"); (k_p, CN (2533 # 25000)); (k_c, CN (16152 # 25)); (k_k, CN (58373 # 1000000)); (k_mu, CN (3221 # 125)); (k_v, CN (8019 # 2500))]);
  ((715 # 1), [(k_cp, CN (20963 # 10000)); (k_cv, CN (16321 # 10000)); (k_rho, CN (15369 # 50000)); (k_h, CN (33657 # 10)); (k_s, CN (86647 # 10000)); (k_u, CN (30361 # 10)); (k_jt, CN (62451 # 10000)); (k_phase, CT "vapor"); (k_p, CN (2533 # 25000)); (k_c, CN (65037 # 100)); (k_k, CN (59557 # 1000000)); (k_mu, CN (1309 # 50)); (k_v, CN (32533 # 10000))]);
  ((725 # 1), [(k_cp, CN (5257 # 2500)); (k_cv, CN (8193 # 5000)); (k_rho, CN (3789 # 12500)); (k_h, CN (33867 # 10)); (k_s, CN (43469 # 5000)); (k_u, CN (15262 # 5)); (k_jt, CN (59977 # 10000)); (k_phase, CT "vapor"); (k_p, CN (2533 # 25000)); (k_c, CN (32731 # 50)); (k_k, CN (60749 # 1000000)); (k_mu, CN (26591 # 1000)); (k_v, CN (3299 # 1000))]);
  ((735 # 1), [(k_cp, CN (21093 # 10000)); (k_cv, CN (16453 # 10000)); (k_rho, CN (14949 # 50000)); (k_h, CN (17039 # 5)); (k_s, CN (87227 # 10000)); (k_u, CN (30689 # 10)); (k_jt, CN (1441 # 250)); (k_phase, CT "vapor"); (k_p, CN (2533 # 25000)); (k_c, CN (16471 # 25)); (k_k, CN (15487 # 250000)); (k_mu, CN (13501 # 500)); (k_v, CN (33447 # 10000))]);
  ((745 # 1), [(k_cp, CN (10579 # 5000)); (k_cv, CN (16519 # 10000)); (k_rho, CN (3687 # 12500)); (k_h, CN (34289 # 10)); (k_s, CN (10939 # 1250)); (k_u, CN (15427 # 5)); (k_jt, CN (55429 # 10000)); (k_phase, CT "vapor"); (k_p, CN (2533 # 25000)); (k_c, CN (66303 # 100)); (k_k, CN (12631 # 200000)); (k_mu, CN (6853 # 250)); (k_v, CN (33903 # 10000))]);
  ((755 # 1), [(k_cp, CN (2653 # 1250)); (k_cv, CN (8293 # 5000)); (k_rho, CN (1819 # 6250)); (k_h, CN (34501 # 10)); (k_s, CN (17559 # 2000)); (k_u, CN (31019 # 10)); (k_jt, CN (6667 # 1250)); (k_phase, CT "vapor"); (k_p, CN (2533 # 25000)); (k_c, CN (33359 # 50)); (k_k, CN (4023 # 62500)); (k_mu, CN (13911 # 500)); (k_v, CN (859 # 250))]);
  ((765 # 1), [(k_cp, CN (21291 # 10000)); (k_cv, CN (8327 # 5000)); (k_rho, CN (14361 # 50000)); (k_h, CN (34713 # 10)); (k_s, CN (3523 # 400)); (k_u, CN (15593 # 5)); (k_jt, CN (6419 # 1250)); (k_phase, CT "vapor"); (k_p, CN (2533 # 25000)); (k_c, CN (6713 # 10)); (k_k, CN (16397 # 250000)); (k_mu, CN (28231 # 1000)); (k_v, CN (34817 # 10000))]);
  ((775 # 1), [(k_cp, CN (21357 # 10000)); (k_cv, CN (16721 # 10000)); (k_rho, CN (567 # 2000)); (k_h, CN (34927 # 10)); (k_s, CN (5522 # 625)); (k_u, CN (31353 # 10)); (k_jt, CN (4947 # 1000)); (k_phase, CT "vapor"); (k_p, CN (2533 # 25000)); (k_c, CN (67539 # 100)); (k_k, CN (33407 # 500000)); (k_mu, CN (28639 # 1000)); (k_v, CN (35273 # 10000))]);
  ((785 # 1), [(k_cp, CN (1339 # 625)); (k_cv, CN (16789 # 10000)); (k_rho, CN (6997 # 25000)); (k_h, CN (35141 # 10)); (k_s, CN (44313 # 5000)); (k_u, CN (3152 # 1)); (k_jt, CN (47683 # 10000)); (k_phase, CT "vapor"); (k_p, CN (2533 # 25000)); (k_c, CN (16986 # 25)); (k_k, CN (68047 # 1000000)); (k_mu, CN (29047 # 1000)); (k_v, CN (3573 # 1000))]);
  ((795 # 1), [(k_cp, CN (5373 # 2500)); (k_cv, CN (8429 # 5000)); (k_rho, CN (5527 # 20000)); (k_h, CN (7071 # 2)); (k_s, CN (88897 # 10000)); (k_u, CN (31689 # 10)); (k_jt, CN (9197 # 2000)); (k_phase, CT "vapor"); (k_p, CN (2533 # 25000)); (k_c, CN (68347 # 100)); (k_k, CN (69287 # 1000000)); (k_mu, CN (14727 # 500)); (k_v, CN (18093 # 5000))]);
  ((805 # 1), [(k_cp, CN (539 # 250)); (k_cv, CN (8463 # 5000)); (k_rho, CN (27291 # 100000)); (k_h, CN (3557 # 1)); (k_s, CN (89167 # 10000)); (k_u, CN (15929 # 5)); (k_jt, CN (44369 # 10000)); (k_phase, CT "vapor"); (k_p, CN (2533 # 25000)); (k_c, CN (34373 # 50)); (k_k, CN (17633 # 250000)); (k_mu, CN (1493 # 50)); (k_v, CN (18321 # 5000))]);
  ((815 # 1), [(k_cp, CN (5407 # 2500)); (k_cv, CN (3399 # 2000)); (k_rho, CN (5391 # 20000)); (k_h, CN (17893 # 5)); (k_s, CN (89433 # 10000)); (k_u, CN (32027 # 10)); (k_jt, CN (42831 # 10000)); (k_phase, CT "vapor"); (k_p, CN (2533 # 25000)); (k_c, CN (69143 # 100)); (k_k, CN (8973 # 125000)); (k_mu, CN (15133 # 500)); (k_v, CN (37099 # 10000))]);
  ((825 # 1), [(k_cp, CN (1356 # 625)); (k_cv, CN (2133 # 1250)); (k_rho, CN (6657 # 25000)); (k_h, CN (36003 # 10)); (k_s, CN (89697 # 10000)); (k_u, CN (16099 # 5)); (k_jt, CN (8273 # 2000)); (k_phase, CT "vapor"); (k_p, CN (2533 # 25000)); (k_c, CN (17384 # 25)); (k_k, CN (73041 # 1000000)); (k_mu, CN (3067 # 100)); (k_v, CN (7511 # 2000))]);
  ((835 # 1), [(k_cp, CN (4353 # 2000)); (k_cv, CN (8567 # 5000)); (k_rho, CN (6577 # 25000)); (k_h, CN (3622 # 1)); (k_s, CN (89959 # 10000)); (k_u, CN (32369 # 10)); (k_jt, CN (39967 # 10000)); (k_phase, CT "vapor"); (k_p, CN (2533 # 25000)); (k_c, CN (69927 # 100)); (k_k, CN (1161 # 15625)); (k_mu, CN (15537 # 500)); (k_v, CN (38011 # 10000))]);
  ((845 # 1), [(k_cp, CN (10917 # 5000)); (k_cv, CN (17203 # 10000)); (k_rho, CN (6499 # 25000)); (k_h, CN (18219 # 5)); (k_s, CN (90219 # 10000)); (k_u, CN (32541 # 10)); (k_jt, CN (38633 # 10000)); (k_phase, CT "vapor"); (k_p, CN (2533 # 25000)); (k_c, CN (14063 # 20)); (k_k, CN (75573 # 1000000)); (k_mu, CN (15739 # 500)); (k_v, CN (9617 # 2500))]);
  ((855 # 1), [(k_cp, CN (21903 # 10000)); (k_cv, CN (17273 # 10000)); (k_rho, CN (25691 # 100000)); (k_h, CN (36657 # 10)); (k_s, CN (22619 # 2500)); (k_u, CN (32713 # 10)); (k_jt, CN (37359 # 10000)); (k_phase, CT "vapor"); (k_p, CN (2533 # 25000)); (k_c, CN (707 # 1)); (k_k, CN (4803 # 62500)); (k_mu, CN (797 # 25)); (k_v, CN (9731 # 2500))]);
  ((865 # 1), [(k_cp, CN (5493 # 2500)); (k_cv, CN (17343 # 10000)); (k_rho, CN (12697 # 50000)); (k_h, CN (18438 # 5)); (k_s, CN (90731 # 10000)); (k_u, CN (16443 # 5)); (k_jt, CN (18071 # 5000)); (k_phase, CT "vapor"); (k_p, CN (2533 # 25000)); (k_c, CN (71083 # 100)); (k_k, CN (78127 # 1000000)); (k_mu, CN (16141 # 500)); (k_v, CN (1969 # 500))]);
  ((875 # 1), [(k_cp, CN (11021 # 5000)); (k_cv, CN (17413 # 10000)); (k_rho, CN (25103 # 100000)); (k_h, CN (18548 # 5)); (k_s, CN (11373 # 1250)); (k_u, CN (3306 # 1)); (k_jt, CN (34977 # 10000)); (k_phase, CT "vapor"); (k_p, CN (2533 # 25000)); (k_c, CN (71463 # 100)); (k_k, CN (79413 # 1000000)); (k_mu, CN (16341 # 500)); (k_v, CN (9959 # 2500))]);
  ((885 # 1), [(k_cp, CN (1382 # 625)); (k_cv, CN (17483 # 10000)); (k_rho, CN (24819 # 100000)); (k_h, CN (37317 # 10)); (k_s, CN (18247 # 2000)); (k_u, CN (6647 # 2)); (k_jt, CN (33863 # 10000)); (k_phase, CT "vapor"); (k_p, CN (2533 # 25000)); (k_c, CN (71841 # 100)); (k_k, CN (80703 # 1000000)); (k_mu, CN (16541 # 500)); (k_v, CN (10073 # 2500))]);
  ((895 # 1), [(k_cp, CN (11091 # 5000)); (k_cv, CN (8777 # 5000)); (k_rho, CN (24541 # 100000)); (k_h, CN (37539 # 10)); (k_s, CN (22871 # 2500)); (k_u, CN (3341 # 1)); (k_jt, CN (32797 # 10000)); (k_phase, CT "vapor"); (k_p, CN (2533 # 25000)); (k_c, CN (18054 # 25)); (k_k, CN (40999 # 500000)); (k_mu, CN (33481 # 1000)); (k_v, CN (40749 # 10000))]);
  ((905 # 1), [(k_cp, CN (5563 # 2500)); (k_cv, CN (2203 # 1250)); (k_rho, CN (24269 # 100000)); (k_h, CN (37761 # 10)); (k_s, CN (91731 # 10000)); (k_u, CN (16793 # 5)); (k_jt, CN (15887 # 5000)); (k_phase, CT "vapor"); (k_p, CN (2533 # 25000)); (k_c, CN (72589 # 100)); (k_k, CN (41649 # 500000)); (k_mu, CN (33879 # 1000)); (k_v, CN (8241 # 2000))]);
  ((915 # 1), [(k_cp, CN (11161 # 5000)); (k_cv, CN (3539 # 2000)); (k_rho, CN (24003 # 100000)); (k_h, CN (18992 # 5)); (k_s, CN (3679 # 400)); (k_u, CN (16881 # 5)); (k_jt, CN (6159 # 2000)); (k_phase, CT "vapor"); (k_p, CN (2533 # 25000)); (k_c, CN (72959 # 100)); (k_k, CN (84603 # 1000000)); (k_mu, CN (34277 # 1000)); (k_v, CN (41661 # 10000))]);
  ((925 # 1), [(k_cp, CN (2799 # 1250)); (k_cv, CN (8883 # 5000)); (k_rho, CN (742 # 3125)); (k_h, CN (38207 # 10)); (k_s, CN (46109 # 5000)); (k_u, CN (3394 # 1)); (k_jt, CN (5971 # 2000)); (k_phase, CT "vapor"); (k_p, CN (2533 # 25000)); (k_c, CN (73327 # 100)); (k_k, CN (85913 # 1000000)); (k_mu, CN (34673 # 1000)); (k_v, CN (42117 # 10000))]);
  ((935 # 1), [(k_cp, CN (22463 # 10000)); (k_cv, CN (17837 # 10000)); (k_rho, CN (23489 # 100000)); (k_h, CN (19216 # 5)); (k_s, CN (4623 # 500)); (k_u, CN (17059 # 5)); (k_jt, CN (3619 # 1250)); (k_phase, CT "vapor"); (k_p, CN (2533 # 25000)); (k_c, CN (18423 # 25)); (k_k, CN (21807 # 250000)); (k_mu, CN (8767 # 250)); (k_v, CN (42573 # 10000))]);
  ((945 # 1), [(k_cp, CN (22533 # 10000)); (k_cv, CN (17907 # 10000)); (k_rho, CN (581 # 2500)); (k_h, CN (38657 # 10)); (k_s, CN (92699 # 10000)); (k_u, CN (34297 # 10)); (k_jt, CN (14043 # 5000)); (k_phase, CT "vapor"); (k_p, CN (2533 # 25000)); (k_c, CN (18514 # 25)); (k_k, CN (88547 # 1000000)); (k_mu, CN (35463 # 1000)); (k_v, CN (43029 # 10000))]);
  ((955 # 1), [(k_cp, CN (5651 # 2500)); (k_cv, CN (8989 # 5000)); (k_rho, CN (22997 # 100000)); (k_h, CN (19441 # 5)); (k_s, CN (92937 # 10000)); (k_u, CN (17238 # 5)); (k_jt, CN (13627 # 5000)); (k_phase, CT "vapor"); (k_p, CN (2533 # 25000)); (k_c, CN (74417 # 100)); (k_k, CN (8987 # 100000)); (k_mu, CN (4482 # 125)); (k_v, CN (8697 # 2000))]);
  ((965 # 1), [(k_cp, CN (11337 # 5000)); (k_cv, CN (18049 # 10000)); (k_rho, CN (11379 # 50000)); (k_h, CN (39109 # 10)); (k_s, CN (23293 # 2500)); (k_u, CN (17328 # 5)); (k_jt, CN (13227 # 5000)); (k_phase, CT "vapor"); (k_p, CN (2533 # 25000)); (k_c, CN (18694 # 25)); (k_k, CN (45599 # 500000)); (k_mu, CN (36249 # 1000)); (k_v, CN (43941 # 10000))]);
  ((975 # 1), [(k_cp, CN (4549 # 2000)); (k_cv, CN (453 # 250)); (k_rho, CN (5631 # 25000)); (k_h, CN (19668 # 5)); (k_s, CN (46703 # 5000)); (k_u, CN (34837 # 10)); (k_jt, CN (6421 # 2500)); (k_phase, CT "vapor"); (k_p, CN (2533 # 25000)); (k_c, CN (75133 # 100)); (k_k, CN (9253 # 100000)); (k_mu, CN (916 # 25)); (k_v, CN (44397 # 10000))]);
  ((985 # 1), [(k_cp, CN (4563 # 2000)); (k_cv, CN (18191 # 10000)); (k_rho, CN (4459 # 20000)); (k_h, CN (39563 # 10)); (k_s, CN (93639 # 10000)); (k_u, CN (35019 # 10)); (k_jt, CN (1559 # 625)); (k_phase, CT "vapor"); (k_p, CN (2533 # 25000)); (k_c, CN (18872 # 25)); (k_k, CN (46933 # 500000)); (k_mu, CN (37031 # 1000)); (k_v, CN (44853 # 10000))]);
  ((995 # 1), [(k_cp, CN (11443 # 5000)); (k_cv, CN (9131 # 5000)); (k_rho, CN (22071 # 100000)); (k_h, CN (19896 # 5)); (k_s, CN (9387 # 1000)); (k_u, CN (35201 # 10)); (k_jt, CN (24231 # 10000)); (k_phase, CT "vapor"); (k_p, CN (2533 # 25000)); (k_c, CN (75841 # 100)); (k_k, CN (47603 # 500000)); (k_mu, CN (37421 # 1000)); (k_v, CN (45309 # 10000))]);
  ((1005 # 1), [(k_cp, CN (5739 # 2500)); (k_cv, CN (18333 # 10000)); (k_rho, CN (21851 # 100000)); (k_h, CN (40021 # 10)); (k_s, CN (94099 # 10000)); (k_u, CN (17692 # 5)); (k_jt, CN (4709 # 2000)); (k_phase, CT "vapor"); (k_p, CN (2533 # 25000)); (k_c, CN (19048 # 25)); (k_k, CN (96551 # 1000000)); (k_mu, CN (37809 # 1000)); (k_v, CN (11441 # 2500))]);
  ((1015 # 1), [(k_cp, CN (23027 # 10000)); (k_cv, CN (18403 # 10000)); (k_rho, CN (4327 # 20000)); (k_h, CN (40251 # 10)); (k_s, CN (94327 # 10000)); (k_u, CN (17784 # 5)); (k_jt, CN (22883 # 10000)); (k_phase, CT "vapor"); (k_p, CN (2533 # 25000)); (k_c, CN (76541 # 100)); (k_k, CN (97899 # 1000000)); (k_mu, CN (38197 # 1000)); (k_v, CN (2311 # 500))]);
  ((1025 # 1), [(k_cp, CN (23097 # 10000)); (k_cv, CN (9237 # 5000)); (k_rho, CN (1339 # 6250)); (k_h, CN (20241 # 5)); (k_s, CN (94553 # 10000)); (k_u, CN (17876 # 5)); (k_jt, CN (11123 # 5000)); (k_phase, CT "vapor"); (k_p, CN (2533 # 25000)); (k_c, CN (19222 # 25)); (k_k, CN (397 # 4000)); (k_mu, CN (4823 # 125)); (k_v, CN (11669 # 2500))]);
  ((1035 # 1), [(k_cp, CN (23167 # 10000)); (k_cv, CN (1159 # 625)); (k_rho, CN (21217 # 100000)); (k_h, CN (40713 # 10)); (k_s, CN (94777 # 10000)); (k_u, CN (35937 # 10)); (k_jt, CN (21631 # 10000)); (k_phase, CT "vapor"); (k_p, CN (2533 # 25000)); (k_c, CN (77233 # 100)); (k_k, CN (10061 # 100000)); (k_mu, CN (3897 # 100)); (k_v, CN (11783 # 2500))]);
  ((1045 # 1), [(k_cp, CN (11619 # 5000)); (k_cv, CN (3723 # 2000)); (k_rho, CN (10507 # 50000)); (k_h, CN (8189 # 2)); (k_s, CN (19 # 2)); (k_u, CN (36123 # 10)); (k_jt, CN (10519 # 5000)); (k_phase, CT "vapor"); (k_p, CN (2533 # 25000)); (k_c, CN (19394 # 25)); (k_k, CN (10197 # 100000)); (k_mu, CN (7871 # 200)); (k_v, CN (11897 # 2500))]);
  ((1055 # 1), [(k_cp, CN (5827 # 2500)); (k_cv, CN (3737 # 2000)); (k_rho, CN (10407 # 50000)); (k_h, CN (20589 # 5)); (k_s, CN (47611 # 5000)); (k_u, CN (3631 # 1)); (k_jt, CN (10233 # 5000)); (k_phase, CT "vapor"); (k_p, CN (2533 # 25000)); (k_c, CN (77917 # 100)); (k_k, CN (10333 # 100000)); (k_mu, CN (19869 # 500)); (k_v, CN (12011 # 2500))]);
  ((1065 # 1), [(k_cp, CN (11689 # 5000)); (k_cv, CN (3751 # 2000)); (k_rho, CN (20619 # 100000)); (k_h, CN (41411 # 10)); (k_s, CN (47721 # 5000)); (k_u, CN (36497 # 10)); (k_jt, CN (19913 # 10000)); (k_phase, CT "vapor"); (k_p, CN (2533 # 25000)); (k_c, CN (78257 # 100)); (k_k, CN (10469 # 100000)); (k_mu, CN (40121 # 1000)); (k_v, CN (97 # 20))]);
  ((1075 # 1), [(k_cp, CN (23447 # 10000)); (k_cv, CN (753 # 400)); (k_rho, CN (20427 # 100000)); (k_h, CN (8329 # 2)); (k_s, CN (95661 # 10000)); (k_u, CN (7337 # 2)); (k_jt, CN (19379 # 10000)); (k_phase, CT "vapor"); (k_p, CN (2533 # 25000)); (k_c, CN (15719 # 20)); (k_k, CN (5303 # 50000)); (k_mu, CN (40503 # 1000)); (k_v, CN (12239 # 2500))]);
  ((1085 # 1), [(k_cp, CN (23517 # 10000)); (k_cv, CN (3779 # 2000)); (k_rho, CN (10119 # 50000)); (k_h, CN (4188 # 1)); (k_s, CN (47939 # 5000)); (k_u, CN (18437 # 5)); (k_jt, CN (1179 # 625)); (k_phase, CT "vapor"); (k_p, CN (2533 # 25000)); (k_c, CN (78931 # 100)); (k_k, CN (1343 # 12500)); (k_mu, CN (10221 # 250)); (k_v, CN (49411 # 10000))]);
  ((1095 # 1), [(k_cp, CN (23587 # 10000)); (k_cv, CN (3793 # 2000)); (k_rho, CN (20053 # 100000)); (k_h, CN (21058 # 5)); (k_s, CN (19219 # 2000)); (k_u, CN (37063 # 10)); (k_jt, CN (3673 # 2000)); (k_phase, CT "vapor"); (k_p, CN (2533 # 25000)); (k_c, CN (39633 # 50)); (k_k, CN (10881 # 100000)); (k_mu, CN (5158 # 125)); (k_v, CN (49867 # 10000))]);
  ((1105 # 1), [(k_cp, CN (2957 # 1250)); (k_cv, CN (9517 # 5000)); (k_rho, CN (621 # 3125)); (k_h, CN (21176 # 5)); (k_s, CN (96309 # 10000)); (k_u, CN (37253 # 10)); (k_jt, CN (17883 # 10000)); (k_phase, CT "vapor"); (k_p, CN (2533 # 25000)); (k_c, CN (79599 # 100)); (k_k, CN (11019 # 100000)); (k_mu, CN (41643 # 1000)); (k_v, CN (50323 # 10000))]);
  ((1115 # 1), [(k_cp, CN (949 # 400)); (k_cv, CN (1194 # 625)); (k_rho, CN (19693 # 100000)); (k_h, CN (42589 # 10)); (k_s, CN (96523 # 10000)); (k_u, CN (18722 # 5)); (k_jt, CN (17417 # 10000)); (k_phase, CT "vapor"); (k_p, CN (2533 # 25000)); (k_c, CN (7993 # 10)); (k_k, CN (11157 # 100000)); (k_mu, CN (42021 # 1000)); (k_v, CN (50779 # 10000))]);
  ((1125 # 1), [(k_cp, CN (11897 # 5000)); (k_cv, CN (19173 # 10000)); (k_rho, CN (9759 # 50000)); (k_h, CN (21413 # 5)); (k_s, CN (19347 # 2000)); (k_u, CN (7527 # 2)); (k_jt, CN (8483 # 5000)); (k_phase, CT "vapor"); (k_p, CN (2533 # 25000)); (k_c, CN (4013 # 5)); (k_k, CN (353 # 3125)); (k_mu, CN (42397 # 1000)); (k_v, CN (10247 # 2000))]);
  ((1135 # 1), [(k_cp, CN (11931 # 5000)); (k_cv, CN (9621 # 5000)); (k_rho, CN (9673 # 50000)); (k_h, CN (8613 # 2)); (k_s, CN (48473 # 5000)); (k_u, CN (37827 # 10)); (k_jt, CN (1653 # 1000)); (k_phase, CT "vapor"); (k_p, CN (2533 # 25000)); (k_c, CN (20147 # 25)); (k_k, CN (2287 # 20000)); (k_mu, CN (42773 # 1000)); (k_v, CN (5169 # 1000))]);
  ((1145 # 1), [(k_cp, CN (23931 # 10000)); (k_cv, CN (1931 # 1000)); (k_rho, CN (19177 # 100000)); (k_h, CN (21652 # 5)); (k_s, CN (19431 # 2000)); (k_u, CN (3802 # 1)); (k_jt, CN (16107 # 10000)); (k_phase, CT "vapor"); (k_p, CN (2533 # 25000)); (k_c, CN (16183 # 20)); (k_k, CN (5787 # 50000)); (k_mu, CN (10787 # 250)); (k_v, CN (26073 # 5000))]);
  ((1155 # 1), [(k_cp, CN (23999 # 10000)); (k_cv, CN (9689 # 5000)); (k_rho, CN (19011 # 100000)); (k_h, CN (43543 # 10)); (k_s, CN (24341 # 2500)); (k_u, CN (38213 # 10)); (k_jt, CN (7849 # 5000)); (k_phase, CT "vapor"); (k_p, CN (2533 # 25000)); (k_c, CN (4062 # 5)); (k_k, CN (11713 # 100000)); (k_mu, CN (21761 # 500)); (k_v, CN (26301 # 5000))]);
  ((1165 # 1), [(k_cp, CN (24067 # 10000)); (k_cv, CN (9723 # 5000)); (k_rho, CN (18847 # 100000)); (k_h, CN (21892 # 5)); (k_s, CN (97571 # 10000)); (k_u, CN (19204 # 5)); (k_jt, CN (15301 # 10000)); (k_phase, CT "vapor"); (k_p, CN (2533 # 25000)); (k_c, CN (20391 # 25)); (k_k, CN (11853 # 100000)); (k_mu, CN (8779 # 200)); (k_v, CN (26529 # 5000))]);
  ((1175 # 1), [(k_cp, CN (4827 # 2000)); (k_cv, CN (9757 # 5000)); (k_rho, CN (18687 # 100000)); (k_h, CN (8805 # 2)); (k_s, CN (97777 # 10000)); (k_u, CN (19301 # 5)); (k_jt, CN (14917 # 10000)); (k_phase, CT "vapor"); (k_p, CN (2533 # 25000)); (k_c, CN (40943 # 50)); (k_k, CN (11993 # 100000)); (k_mu, CN (44267 # 1000)); (k_v, CN (53513 # 10000))]);
  ((1185 # 1), [(k_cp, CN (12101 # 5000)); (k_cv, CN (9791 # 5000)); (k_rho, CN (18529 # 100000)); (k_h, CN (22133 # 5)); (k_s, CN (48991 # 5000)); (k_u, CN (19399 # 5)); (k_jt, CN (909 # 625)); (k_phase, CT "vapor"); (k_p, CN (2533 # 25000)); (k_c, CN (82207 # 100)); (k_k, CN (12133 # 100000)); (k_mu, CN (22319 # 500)); (k_v, CN (53969 # 10000))]);
  ((1195 # 1), [(k_cp, CN (24269 # 10000)); (k_cv, CN (19649 # 10000)); (k_rho, CN (9187 # 50000)); (k_h, CN (44509 # 10)); (k_s, CN (19637 # 2000)); (k_u, CN (19497 # 5)); (k_jt, CN (14183 # 10000)); (k_phase, CT "vapor"); (k_p, CN (2533 # 25000)); (k_c, CN (41263 # 50)); (k_k, CN (6137 # 50000)); (k_mu, CN (5626 # 125)); (k_v, CN (2177 # 400))]);
  ((1205 # 1), [(k_cp, CN (1521 # 625)); (k_cv, CN (4929 # 2500)); (k_rho, CN (18221 # 100000)); (k_h, CN (22376 # 5)); (k_s, CN (24597 # 2500)); (k_u, CN (39191 # 10)); (k_jt, CN (1729 # 1250)); (k_phase, CT "vapor"); (k_p, CN (2533 # 25000)); (k_c, CN (20711 # 25)); (k_k, CN (6207 # 50000)); (k_mu, CN (5672 # 125)); (k_v, CN (686 # 125))]);
  ((1215 # 1), [(k_cp, CN (12201 # 5000)); (k_cv, CN (19783 # 10000)); (k_rho, CN (18071 # 100000)); (k_h, CN (8999 # 2)); (k_s, CN (98589 # 10000)); (k_u, CN (19694 # 5)); (k_jt, CN (3373 # 2500)); (k_phase, CT "vapor"); (k_p, CN (2533 # 25000)); (k_c, CN (83161 # 100)); (k_k, CN (2511 # 20000)); (k_mu, CN (5718 # 125)); (k_v, CN (6917 # 1250))]);
  ((1225 # 1), [(k_cp, CN (24469 # 10000)); (k_cv, CN (19849 # 10000)); (k_rho, CN (4481 # 25000)); (k_h, CN (4524 # 1)); (k_s, CN (9879 # 1000)); (k_u, CN (39587 # 10)); (k_jt, CN (6581 # 5000)); (k_phase, CT "vapor"); (k_p, CN (2533 # 25000)); (k_c, CN (20869 # 25)); (k_k, CN (12697 # 100000)); (k_mu, CN (46111 # 1000)); (k_v, CN (3487 # 625))]);
  ((1235 # 1), [(k_cp, CN (12267 # 5000)); (k_cv, CN (3983 # 2000)); (k_rho, CN (17779 # 100000)); (k_h, CN (9097 # 2)); (k_s, CN (98989 # 10000)); (k_u, CN (19893 # 5)); (k_jt, CN (6421 # 5000)); (k_phase, CT "vapor"); (k_p, CN (2533 # 25000)); (k_c, CN (8379 # 10)); (k_k, CN (6419 # 50000)); (k_mu, CN (46477 # 1000)); (k_v, CN (7031 # 1250))]);
  ((1245 # 1), [(k_cp, CN (123 # 50)); (k_cv, CN (999 # 500)); (k_rho, CN (4409 # 25000)); (k_h, CN (4573 # 1)); (k_s, CN (99187 # 10000)); (k_u, CN (7997 # 2)); (k_jt, CN (12531 # 10000)); (k_phase, CT "vapor"); (k_p, CN (2533 # 25000)); (k_c, CN (84103 # 100)); (k_k, CN (649 # 5000)); (k_mu, CN (23421 # 500)); (k_v, CN (56703 # 10000))]);
  ((1255 # 1), [(k_cp, CN (4933 # 2000)); (k_cv, CN (10023 # 5000)); (k_rho, CN (3499 # 20000)); (k_h, CN (45977 # 10)); (k_s, CN (12423 # 1250)); (k_u, CN (8037 # 2)); (k_jt, CN (12229 # 10000)); (k_phase, CT "vapor"); (k_p, CN (2533 # 25000)); (k_c, CN (42207 # 50)); (k_k, CN (6561 # 50000)); (k_mu, CN (23603 # 500)); (k_v, CN (57159 # 10000))]);
  ((1265 # 1), [(k_cp, CN (2473 # 1000)); (k_cv, CN (20111 # 10000)); (k_rho, CN (17357 # 100000)); (k_h, CN (23112 # 5)); (k_s, CN (4979 # 500)); (k_u, CN (20193 # 5)); (k_jt, CN (746 # 625)); (k_phase, CT "vapor"); (k_p, CN (2533 # 25000)); (k_c, CN (21181 # 25)); (k_k, CN (829 # 6250)); (k_mu, CN (47569 # 1000)); (k_v, CN (11523 # 2000))]);
  ((1275 # 1), [(k_cp, CN (12397 # 5000)); (k_cv, CN (807 # 400)); (k_rho, CN (861 # 5000)); (k_h, CN (46471 # 10)); (k_s, CN (3991 # 400)); (k_u, CN (40587 # 10)); (k_jt, CN (233 # 200)); (k_phase, CT "vapor"); (k_p, CN (2533 # 25000)); (k_c, CN (85033 # 100)); (k_k, CN (6703 # 50000)); (k_mu, CN (47931 # 1000)); (k_v, CN (5807 # 1000))]);
  ((1285 # 1), [(k_cp, CN (12429 # 5000)); (k_cv, CN (20239 # 10000)); (k_rho, CN (8543 # 50000)); (k_h, CN (4672 # 1)); (k_s, CN (99969 # 10000)); (k_u, CN (40789 # 10)); (k_jt, CN (11373 # 10000)); (k_phase, CT "vapor"); (k_p, CN (2533 # 25000)); (k_c, CN (85341 # 100)); (k_k, CN (13549 # 100000)); (k_mu, CN (12073 # 250)); (k_v, CN (29263 # 5000))]);
  ((1295 # 1), [(k_cp, CN (12461 # 5000)); (k_cv, CN (20303 # 10000)); (k_rho, CN (8477 # 50000)); (k_h, CN (46969 # 10)); (k_s, CN (1252 # 125)); (k_u, CN (20496 # 5)); (k_jt, CN (694 # 625)); (k_phase, CT "vapor"); (k_p, CN (2533 # 25000)); (k_c, CN (21412 # 25)); (k_k, CN (13691 # 100000)); (k_mu, CN (12163 # 250)); (k_v, CN (29491 # 5000))]);
  ((1305 # 1), [(k_cp, CN (12493 # 5000)); (k_cv, CN (20367 # 10000)); (k_rho, CN (2103 # 12500)); (k_h, CN (23609 # 5)); (k_s, CN (2007 # 200)); (k_u, CN (20598 # 5)); (k_jt, CN (10841 # 10000)); (k_phase, CT "vapor"); (k_p, CN (2533 # 25000)); (k_c, CN (85953 # 100)); (k_k, CN (6917 # 50000)); (k_mu, CN (49011 # 1000)); (k_v, CN (59437 # 10000))]);
  ((1315 # 1), [(k_cp, CN (25049 # 10000)); (k_cv, CN (2043 # 1000)); (k_rho, CN (2087 # 12500)); (k_h, CN (23734 # 5)); (k_s, CN (5027 # 500)); (k_u, CN (4140 # 1)); (k_jt, CN (5293 # 5000)); (k_phase, CT "vapor"); (k_p, CN (2533 # 25000)); (k_c, CN (86257 # 100)); (k_k, CN (13977 # 100000)); (k_mu, CN (49369 # 1000)); (k_v, CN (59893 # 10000))]);
  ((1325 # 1), [(k_cp, CN (25111 # 10000)); (k_cv, CN (20493 # 10000)); (k_rho, CN (1657 # 10000)); (k_h, CN (47719 # 10)); (k_s, CN (10073 # 1000)); (k_u, CN (20802 # 5)); (k_jt, CN (5169 # 5000)); (k_phase, CT "vapor"); (k_p, CN (2533 # 25000)); (k_c, CN (4328 # 5)); (k_k, CN (14121 # 100000)); (k_mu, CN (24863 # 500)); (k_v, CN (60349 # 10000))]);
  ((1335 # 1), [(k_cp, CN (12587 # 5000)); (k_cv, CN (4111 # 2000)); (k_rho, CN (8223 # 50000)); (k_h, CN (4797 # 1)); (k_s, CN (2523 # 250)); (k_u, CN (41809 # 10)); (k_jt, CN (10097 # 10000)); (k_phase, CT "vapor"); (k_p, CN (2533 # 25000)); (k_c, CN (43431 # 50)); (k_k, CN (1783 # 12500)); (k_mu, CN (25041 # 500)); (k_v, CN (15201 # 2500))]);
  ((1345 # 1), [(k_cp, CN (5047 # 2000)); (k_cv, CN (20617 # 10000)); (k_rho, CN (4081 # 25000)); (k_h, CN (48223 # 10)); (k_s, CN (10111 # 1000)); (k_u, CN (8403 # 2)); (k_jt, CN (4931 # 5000)); (k_phase, CT "vapor"); (k_p, CN (2533 # 25000)); (k_c, CN (87163 # 100)); (k_k, CN (1801 # 12500)); (k_mu, CN (50437 # 1000)); (k_v, CN (3063 # 500))]);
  ((1355 # 1), [(k_cp, CN (25297 # 10000)); (k_cv, CN (10339 # 5000)); (k_rho, CN (16203 # 100000)); (k_h, CN (9695 # 2)); (k_s, CN (1013 # 100)); (k_u, CN (21111 # 5)); (k_jt, CN (24083 # 25000)); (k_phase, CT "vapor"); (k_p, CN (2533 # 25000)); (k_c, CN (87463 # 100)); (k_k, CT "undefined"); (k_mu, CT "undefined"); (k_v, CN (15429 # 2500))]);
  ((1365 # 1), [(k_cp, CN (12679 # 5000)); (k_cv, CN (1037 # 500)); (k_rho, CN (3217 # 20000)); (k_h, CN (24364 # 5)); (k_s, CN (10149 # 1000)); (k_u, CN (42429 # 10)); (k_jt, CN (11763 # 12500)); (k_phase, CT "vapor"); (k_p, CN (2533 # 25000)); (k_c, CN (87761 # 100)); (k_k, CT "undefined"); (k_mu, CT "undefined"); (k_v, CN (62171 # 10000))]);
  ((1375 # 1), [(k_cp, CN (25419 # 10000)); (k_cv, CN (52 # 25)); (k_rho, CN (499 # 3125)); (k_h, CN (24491 # 5)); (k_s, CN (10167 # 1000)); (k_u, CN (42637 # 10)); (k_jt, CN (91933 # 100000)); (k_phase, CT "vapor"); (k_p, CN (2533 # 25000)); (k_c, CN (88059 # 100)); (k_k, CT "undefined"); (k_mu, CT "undefined"); (k_v, CN (62627 # 10000))]);
  ((1385 # 1), [(k_cp, CN (25479 # 10000)); (k_cv, CN (20861 # 10000)); (k_rho, CN (3963 # 25000)); (k_h, CN (49237 # 10)); (k_s, CN (5093 # 500)); (k_u, CN (8569 # 2)); (k_jt, CN (89819 # 100000)); (k_phase, CT "vapor"); (k_p, CN (2533 # 25000)); (k_c, CN (17671 # 20)); (k_k, CT "undefined"); (k_mu, CT "undefined"); (k_v, CN (63083 # 10000))]);
  ((1395 # 1), [(k_cp, CN (25539 # 10000)); (k_cv, CN (20921 # 10000)); (k_rho, CN (15739 # 100000)); (k_h, CN (24746 # 5)); (k_s, CN (2551 # 250)); (k_u, CN (21527 # 5)); (k_jt, CN (87759 # 100000)); (k_phase, CT "vapor"); (k_p, CN (2533 # 25000)); (k_c, CN (88651 # 100)); (k_k, CT "undefined"); (k_mu, CT "undefined"); (k_v, CN (31769 # 5000))]);
  ((1405 # 1), [(k_cp, CN (12799 # 5000)); (k_cv, CN (1049 # 500)); (k_rho, CN (7813 # 50000)); (k_h, CN (24874 # 5)); (k_s, CN (5111 # 500)); (k_u, CN (43263 # 10)); (k_jt, CN (85751 # 100000)); (k_phase, CT "vapor"); (k_p, CN (2533 # 25000)); (k_c, CN (17789 # 20)); (k_k, CT "undefined"); (k_mu, CT "undefined"); (k_v, CN (31997 # 5000))]);
  ((1415 # 1), [(k_cp, CN (25657 # 10000)); (k_cv, CN (21039 # 10000)); (k_rho, CN (3879 # 25000)); (k_h, CN (25002 # 5)); (k_s, CN (256 # 25)); (k_u, CN (21737 # 5)); (k_jt, CN (41897 # 50000)); (k_phase, CT "vapor"); (k_p, CN (2533 # 25000)); (k_c, CN (89239 # 100)); (k_k, CT "undefined"); (k_mu, CT "undefined"); (k_v, CN (1289 # 200))]);
  ((1425 # 1), [(k_cp, CN (6429 # 2500)); (k_cv, CN (10549 # 5000)); (k_rho, CN (15407 # 100000)); (k_h, CN (50261 # 10)); (k_s, CN (5129 # 500)); (k_u, CN (21842 # 5)); (k_jt, CN (16377 # 20000)); (k_phase, CT "vapor"); (k_p, CN (2533 # 25000)); (k_c, CN (89531 # 100)); (k_k, CT "undefined"); (k_mu, CT "undefined"); (k_v, CN (12981 # 2000))]);
  ((1435 # 1), [(k_cp, CN (12887 # 5000)); (k_cv, CN (5289 # 2500)); (k_rho, CN (153 # 1000)); (k_h, CN (25259 # 5)); (k_s, CN (2569 # 250)); (k_u, CN (21948 # 5)); (k_jt, CN (10003 # 12500)); (k_phase, CT "vapor"); (k_p, CN (2533 # 25000)); (k_c, CN (89823 # 100)); (k_k, CT "undefined"); (k_mu, CT "undefined"); (k_v, CN (65361 # 10000))]);
  ((1445 # 1), [(k_cp, CN (3229 # 1250)); (k_cv, CN (10607 # 5000)); (k_rho, CN (7597 # 50000)); (k_h, CN (25388 # 5)); (k_s, CN (5147 # 500)); (k_u, CN (44107 # 10)); (k_jt, CN (78209 # 100000)); (k_phase, CT "vapor"); (k_p, CN (2533 # 25000)); (k_c, CN (90113 # 100)); (k_k, CT "undefined"); (k_mu, CT "undefined"); (k_v, CN (8227 # 1250))]);
  ((1455 # 1), [(k_cp, CN (25889 # 10000)); (k_cv, CN (2659 # 1250)); (k_rho, CN (15089 # 100000)); (k_h, CN (10207 # 2)); (k_s, CN (1289 # 125)); (k_u, CN (4432 # 1)); (k_jt, CN (76437 # 100000)); (k_phase, CT "vapor"); (k_p, CN (2533 # 25000)); (k_c, CN (90403 # 100)); (k_k, CT "undefined"); (k_mu, CT "undefined"); (k_v, CN (4142 # 625))]);
  ((1465 # 1), [(k_cp, CN (12973 # 5000)); (k_cv, CN (21329 # 10000)); (k_rho, CN (7493 # 50000)); (k_h, CN (25647 # 5)); (k_s, CN (1033 # 100)); (k_u, CN (44533 # 10)); (k_jt, CN (74709 # 100000)); (k_phase, CT "vapor"); (k_p, CN (2533 # 25000)); (k_c, CN (90691 # 100)); (k_k, CT "undefined"); (k_mu, CT "undefined"); (k_v, CN (8341 # 1250))]);
  ((1475 # 1), [(k_cp, CN (26003 # 10000)); (k_cv, CN (4277 # 2000)); (k_rho, CN (2977 # 20000)); (k_h, CN (25777 # 5)); (k_s, CN (2587 # 250)); (k_u, CN (22373 # 5)); (k_jt, CN (73023 # 100000)); (k_phase, CT "vapor"); (k_p, CN (2533 # 25000)); (k_c, CN (90979 # 100)); (k_k, CT "undefined"); (k_mu, CT "undefined"); (k_v, CN (67183 # 10000))]);
  ((1485 # 1), [(k_cp, CN (26059 # 10000)); (k_cv, CN (10721 # 5000)); (k_rho, CN (462 # 3125)); (k_h, CN (25907 # 5)); (k_s, CN (2073 # 200)); (k_u, CN (44961 # 10)); (k_jt, CN (4461 # 6250)); (k_phase, CT "vapor"); (k_p, CN (2533 # 25000)); (k_c, CN (45633 # 50)); (k_k, CT "undefined"); (k_mu, CT "undefined"); (k_v, CN (67639 # 10000))]);
  ((1495 # 1), [(k_cp, CN (5223 # 2000)); (k_cv, CN (21497 # 10000)); (k_rho, CN (2937 # 20000)); (k_h, CN (10415 # 2)); (k_s, CN (10383 # 1000)); (k_u, CN (9035 # 2)); (k_jt, CN (69769 # 100000)); (k_phase, CT "vapor"); (k_p, CN (2533 # 25000)); (k_c, CN (91551 # 100)); (k_k, CT "undefined"); (k_mu, CT "undefined"); (k_v, CN (34047 # 5000))]);
  ((1505 # 1), [(k_cp, CN (2617 # 1000)); (k_cv, CN (21553 # 10000)); (k_rho, CN (3647 # 25000)); (k_h, CN (26168 # 5)); (k_s, CN (52 # 5)); (k_u, CN (45391 # 10)); (k_jt, CN (68199 # 100000)); (k_phase, CT "vapor"); (k_p, CN (2533 # 25000)); (k_c, CN (22959 # 25)); (k_k, CT "undefined"); (k_mu, CT "undefined"); (k_v, CN (1371 # 200))]);
  ((1515 # 1), [(k_cp, CN (1049 # 400)); (k_cv, CN (2701 # 1250)); (k_rho, CN (3623 # 25000)); (k_h, CN (26299 # 5)); (k_s, CN (10417 # 1000)); (k_u, CN (22803 # 5)); (k_jt, CN (33333 # 50000)); (k_phase, CT "vapor"); (k_p, CN (2533 # 25000)); (k_c, CN (4606 # 5)); (k_k, CT "undefined"); (k_mu, CT "undefined"); (k_v, CN (34503 # 5000))]);
  ((1525 # 1), [(k_cp, CN (657 # 250)); (k_cv, CN (10831 # 5000)); (k_rho, CN (14397 # 100000)); (k_h, CN (52861 # 10)); (k_s, CN (2087 # 200)); (k_u, CN (45823 # 10)); (k_jt, CN (65169 # 100000)); (k_phase, CT "vapor"); (k_p, CN (2533 # 25000)); (k_c, CN (23101 # 25)); (k_k, CT "undefined"); (k_mu, CT "undefined"); (k_v, CN (69461 # 10000))]);
  ((1535 # 1), [(k_cp, CN (13167 # 5000)); (k_cv, CN (5429 # 2500)); (k_rho, CN (14303 # 100000)); (k_h, CN (26562 # 5)); (k_s, CN (2613 # 250)); (k_u, CN (4604 # 1)); (k_jt, CN (31853 # 50000)); (k_phase, CT "vapor"); (k_p, CN (2533 # 25000)); (k_c, CN (46343 # 50)); (k_k, CT "undefined"); (k_mu, CT "undefined"); (k_v, CN (69917 # 10000))]);
  ((1545 # 1), [(k_cp, CN (26387 # 10000)); (k_cv, CN (2177 # 1000)); (k_rho, CN (1421 # 10000)); (k_h, CN (26694 # 5)); (k_s, CN (10469 # 1000)); (k_u, CN (46257 # 10)); (k_jt, CN (15569 # 25000)); (k_phase, CT "vapor"); (k_p, CN (2533 # 25000)); (k_c, CN (92967 # 100)); (k_k, CT "undefined"); (k_mu, CT "undefined"); (k_v, CN (17593 # 2500))]);
  ((1555 # 1), [(k_cp, CN (26441 # 10000)); (k_cv, CN (21823 # 10000)); (k_rho, CN (14119 # 100000)); (k_h, CN (26826 # 5)); (k_s, CN (5243 # 500)); (k_u, CN (9295 # 2)); (k_jt, CN (60879 # 100000)); (k_phase, CT "vapor"); (k_p, CN (2533 # 25000)); (k_c, CN (23312 # 25)); (k_k, CT "undefined"); (k_mu, CT "undefined"); (k_v, CN (17707 # 2500))]);
  ((1565 # 1), [(k_cp, CN (26493 # 10000)); (k_cv, CN (5469 # 2500)); (k_rho, CN (3507 # 25000)); (k_h, CN (26958 # 5)); (k_s, CN (10503 # 1000)); (k_u, CN (23347 # 5)); (k_jt, CN (59513 # 100000)); (k_phase, CT "vapor"); (k_p, CN (2533 # 25000)); (k_c, CN (93527 # 100)); (k_k, CT "undefined"); (k_mu, CT "undefined"); (k_v, CN (17821 # 2500))]);
  ((1575 # 1), [(k_cp, CN (13273 # 5000)); (k_cv, CN (2741 # 1250)); (k_rho, CN (13939 # 100000)); (k_h, CN (27091 # 5)); (k_s, CN (263 # 25)); (k_u, CN (46913 # 10)); (k_jt, CN (29089 # 50000)); (k_phase, CT "vapor"); (k_p, CN (2533 # 25000)); (k_c, CN (46903 # 50)); (k_k, CT "undefined"); (k_mu, CT "undefined"); (k_v, CN (71739 # 10000))]);
  ((1585 # 1), [(k_cp, CN (13299 # 5000)); (k_cv, CN (1099 # 500)); (k_rho, CN (13851 # 100000)); (k_h, CN (54447 # 10)); (k_s, CN (10537 # 1000)); (k_u, CN (23566 # 5)); (k_jt, CN (7109 # 12500)); (k_phase, CT "vapor"); (k_p, CN (2533 # 25000)); (k_c, CN (23521 # 25)); (k_k, CT "undefined"); (k_mu, CT "undefined"); (k_v, CN (14439 # 2000))]);
  ((1595 # 1), [(k_cp, CN (26649 # 10000)); (k_cv, CN (1377 # 625)); (k_rho, CN (2753 # 20000)); (k_h, CN (27357 # 5)); (k_s, CN (10553 # 1000)); (k_u, CN (23676 # 5)); (k_jt, CN (13899 # 25000)); (k_phase, CT "vapor"); (k_p, CN (2533 # 25000)); (k_c, CN (94361 # 100)); (k_k, CT "undefined"); (k_mu, CT "undefined"); (k_v, CN (1453 # 200))]);
  ((1605 # 1), [(k_cp, CN (267 # 100)); (k_cv, CN (22083 # 10000)); (k_rho, CN (13679 # 100000)); (k_h, CN (5498 # 1)); (k_s, CN (1057 # 100)); (k_u, CN (47573 # 10)); (k_jt, CN (54347 # 100000)); (k_phase, CT "vapor"); (k_p, CN (2533 # 25000)); (k_c, CN (47319 # 50)); (k_k, CT "undefined"); (k_mu, CT "undefined"); (k_v, CN (36553 # 5000))]);
  ((1615 # 1), [(k_cp, CN (26751 # 10000)); (k_cv, CN (11067 # 5000)); (k_rho, CN (6797 # 50000)); (k_h, CN (27624 # 5)); (k_s, CN (10587 # 1000)); (k_u, CN (23897 # 5)); (k_jt, CN (17 # 32)); (k_phase, CT "vapor"); (k_p, CN (2533 # 25000)); (k_c, CN (94913 # 100)); (k_k, CT "undefined"); (k_mu, CT "undefined"); (k_v, CN (73561 # 10000))]);
  ((1625 # 1), [(k_cp, CN (26801 # 10000)); (k_cv, CN (2773 # 1250)); (k_rho, CN (1351 # 10000)); (k_h, CN (11103 # 2)); (k_s, CN (10603 # 1000)); (k_u, CN (24008 # 5)); (k_jt, CN (5193 # 10000)); (k_phase, CT "vapor"); (k_p, CN (2533 # 25000)); (k_c, CN (23797 # 25)); (k_k, CT "undefined"); (k_mu, CT "undefined"); (k_v, CN (74017 # 10000))]);
  ((1635 # 1), [(k_cp, CN (26851 # 10000)); (k_cv, CN (11117 # 5000)); (k_rho, CN (3357 # 25000)); (k_h, CN (27892 # 5)); (k_s, CN (531 # 50)); (k_u, CN (24119 # 5)); (k_jt, CN (1269 # 2500)); (k_phase, CT "vapor"); (k_p, CN (2533 # 25000)); (k_c, CN (47731 # 50)); (k_k, CT "undefined"); (k_mu, CT "undefined"); (k_v, CN (74473 # 10000))]);
  ((1645 # 1), [(k_cp, CN (26901 # 10000)); (k_cv, CN (5571 # 2500)); (k_rho, CN (6673 # 50000)); (k_h, CN (28026 # 5)); (k_s, CN (2659 # 250)); (k_u, CN (4846 # 1)); (k_jt, CN (3101 # 6250)); (k_phase, CT "vapor"); (k_p, CN (2533 # 25000)); (k_c, CN (19147 # 20)); (k_k, CT "undefined"); (k_mu, CT "undefined"); (k_v, CN (4683 # 625))]);
  ((1655 # 1), [(k_cp, CN (539 # 200)); (k_cv, CN (22333 # 10000)); (k_rho, CN (2653 # 20000)); (k_h, CN (28161 # 5)); (k_s, CN (2663 # 250)); (k_u, CN (48683 # 10)); (k_jt, CN (9699 # 20000)); (k_phase, CT "vapor"); (k_p, CN (2533 # 25000)); (k_c, CN (24002 # 25)); (k_k, CT "undefined"); (k_mu, CT "undefined"); (k_v, CN (9423 # 1250))]);
  ((1665 # 1), [(k_cp, CN (13499 # 5000)); (k_cv, CN (11191 # 5000)); (k_rho, CN (6593 # 50000)); (k_h, CN (56591 # 10)); (k_s, CN (10669 # 1000)); (k_u, CN (48907 # 10)); (k_jt, CN (47399 # 100000)); (k_phase, CT "vapor"); (k_p, CN (2533 # 25000)); (k_c, CN (4814 # 5)); (k_k, CT "undefined"); (k_mu, CT "undefined"); (k_v, CN (75839 # 10000))]);
  ((1675 # 1), [(k_cp, CN (27047 # 10000)); (k_cv, CN (2243 # 1000)); (k_rho, CN (13107 # 100000)); (k_h, CN (28431 # 5)); (k_s, CN (2137 # 200)); (k_u, CN (49131 # 10)); (k_jt, CN (1853 # 4000)); (k_phase, CT "vapor"); (k_p, CN (2533 # 25000)); (k_c, CN (96551 # 100)); (k_k, CT "undefined"); (k_mu, CT "undefined"); (k_v, CN (15259 # 2000))]);
  ((1685 # 1), [(k_cp, CN (5419 # 2000)); (k_cv, CN (11239 # 5000)); (k_rho, CN (13029 # 100000)); (k_h, CN (28566 # 5)); (k_s, CN (10701 # 1000)); (k_u, CN (9871 # 2)); (k_jt, CN (45273 # 100000)); (k_phase, CT "vapor"); (k_p, CN (2533 # 25000)); (k_c, CN (96821 # 100)); (k_k, CT "undefined"); (k_mu, CT "undefined"); (k_v, CN (307 # 40))]);
  ((1695 # 1), [(k_cp, CN (13571 # 5000)); (k_cv, CN (901 # 400)); (k_rho, CN (1619 # 12500)); (k_h, CN (57403 # 10)); (k_s, CN (10717 # 1000)); (k_u, CN (49581 # 10)); (k_jt, CN (44243 # 100000)); (k_phase, CT "vapor"); (k_p, CN (2533 # 25000)); (k_c, CN (9709 # 10)); (k_k, CT "undefined"); (k_mu, CT "undefined"); (k_v, CN (38603 # 5000))]);
  ((1705 # 1), [(k_cp, CN (27189 # 10000)); (k_cv, CN (5643 # 2500)); (k_rho, CN (3219 # 25000)); (k_h, CN (11535 # 2)); (k_s, CN (10733 # 1000)); (k_u, CN (24903 # 5)); (k_jt, CN (21617 # 50000)); (k_phase, CT "vapor"); (k_p, CN (2533 # 25000)); (k_c, CN (97359 # 100)); (k_k, CT "undefined"); (k_mu, CT "undefined"); (k_v, CN (38831 # 5000))]);
  ((1715 # 1), [(k_cp, CN (6809 # 2500)); (k_cv, CN (22619 # 10000)); (k_rho, CN (12801 # 100000)); (k_h, CN (57947 # 10)); (k_s, CN (10749 # 1000)); (k_u, CN (25016 # 5)); (k_jt, CN (21123 # 50000)); (k_phase, CT "vapor"); (k_p, CN (2533 # 25000)); (k_c, CN (97627 # 100)); (k_k, CT "undefined"); (k_mu, CT "undefined"); (k_v, CN (78117 # 10000))]);
  ((1725 # 1), [(k_cp, CN (13641 # 5000)); (k_cv, CN (4533 # 2000)); (k_rho, CN (12727 # 100000)); (k_h, CN (5822 # 1)); (k_s, CN (2153 # 200)); (k_u, CN (25129 # 5)); (k_jt, CN (20639 # 50000)); (k_phase, CT "vapor"); (k_p, CN (2533 # 25000)); (k_c, CN (48947 # 50)); (k_k, CT "undefined"); (k_mu, CT "undefined"); (k_v, CN (78573 # 10000))]);
  ((1735 # 1), [(k_cp, CN (1708 # 625)); (k_cv, CN (22711 # 10000)); (k_rho, CN (6327 # 50000)); (k_h, CN (58493 # 10)); (k_s, CN (10781 # 1000)); (k_u, CN (10097 # 2)); (k_jt, CN (40329 # 100000)); (k_phase, CT "vapor"); (k_p, CN (2533 # 25000)); (k_c, CN (98161 # 100)); (k_k, CT "undefined"); (k_mu, CT "undefined"); (k_v, CN (19757 # 2500))]);
  ((1745 # 1), [(k_cp, CN (13687 # 5000)); (k_cv, CN (22757 # 10000)); (k_rho, CN (12581 # 100000)); (k_h, CN (29383 # 5)); (k_s, CN (2699 # 250)); (k_u, CN (50713 # 10)); (k_jt, CN (39399 # 100000)); (k_phase, CT "vapor"); (k_p, CN (2533 # 25000)); (k_c, CN (98427 # 100)); (k_k, CT "undefined"); (k_mu, CT "undefined"); (k_v, CN (19871 # 2500))]);
  ((1755 # 1), [(k_cp, CN (27419 # 10000)); (k_cv, CN (11401 # 5000)); (k_rho, CN (12509 # 100000)); (k_h, CN (5904 # 1)); (k_s, CN (2703 # 250)); (k_u, CN (5094 # 1)); (k_jt, CN (4811 # 12500)); (k_phase, CT "vapor"); (k_p, CN (2533 # 25000)); (k_c, CN (24673 # 25)); (k_k, CT "undefined"); (k_mu, CT "undefined"); (k_v, CN (79939 # 10000))]);
  ((1765 # 1), [(k_cp, CN (27463 # 10000)); (k_cv, CN (22847 # 10000)); (k_rho, CN (12439 # 100000)); (k_h, CN (11863 # 2)); (k_s, CN (2707 # 250)); (k_u, CN (51169 # 10)); (k_jt, CN (18797 # 50000)); (k_phase, CT "vapor"); (k_p, CN (2533 # 25000)); (k_c, CN (24739 # 25)); (k_k, CT "undefined"); (k_mu, CT "undefined"); (k_v, CN (16079 # 2000))]);
  ((1775 # 1), [(k_cp, CN (6877 # 2500)); (k_cv, CN (22891 # 10000)); (k_rho, CN (12369 # 100000)); (k_h, CN (5959 # 1)); (k_s, CN (10843 # 1000)); (k_u, CN (51397 # 10)); (k_jt, CN (18359 # 50000)); (k_phase, CT "vapor"); (k_p, CN (2533 # 25000)); (k_c, CN (4961 # 5)); (k_k, CT "undefined"); (k_mu, CT "undefined"); (k_v, CN (80851 # 10000))]);
  ((1785 # 1), [(k_cp, CN (1722 # 625)); (k_cv, CN (4587 # 2000)); (k_rho, CN (12299 # 100000)); (k_h, CN (11973 # 2)); (k_s, CN (10859 # 1000)); (k_u, CN (51627 # 10)); (k_jt, CN (35859 # 100000)); (k_phase, CT "vapor"); (k_p, CN (2533 # 25000)); (k_c, CN (99483 # 100)); (k_k, CT "undefined"); (k_mu, CT "undefined"); (k_v, CN (40653 # 5000))]);
  ((1795 # 1), [(k_cp, CN (5519 # 2000)); (k_cv, CN (22979 # 10000)); (k_rho, CN (12231 # 100000)); (k_h, CN (60141 # 10)); (k_s, CN (5437 # 500)); (k_u, CN (25928 # 5)); (k_jt, CN (35017 # 100000)); (k_phase, CT "vapor"); (k_p, CN (2533 # 25000)); (k_c, CN (49873 # 50)); (k_k, CT "undefined"); (k_mu, CT "undefined"); (k_v, CN (40881 # 5000))]);
  ((1805 # 1), [(k_cp, CN (27639 # 10000)); (k_cv, CN (11511 # 5000)); (k_rho, CN (12163 # 100000)); (k_h, CN (60417 # 10)); (k_s, CN (10889 # 1000)); (k_u, CN (26043 # 5)); (k_jt, CN (34191 # 100000)); (k_phase, CT "vapor"); (k_p, CN (2533 # 25000)); (k_c, CN (10001 # 10)); (k_k, CT "undefined"); (k_mu, CT "undefined"); (k_v, CN (82217 # 10000))]);
  ((1815 # 1), [(k_cp, CN (27681 # 10000)); (k_cv, CN (4613 # 2000)); (k_rho, CN (378 # 3125)); (k_h, CN (60693 # 10)); (k_s, CN (2181 # 200)); (k_u, CN (52317 # 10)); (k_jt, CN (33381 # 100000)); (k_phase, CT "vapor"); (k_p, CN (2533 # 25000)); (k_c, CN (10027 # 10)); (k_k, CT "undefined"); (k_mu, CT "undefined"); (k_v, CN (82673 # 10000))]);
  ((1825 # 1), [(k_cp, CN (6931 # 2500)); (k_cv, CN (23107 # 10000)); (k_rho, CN (1203 # 10000)); (k_h, CN (6097 # 1)); (k_s, CN (273 # 25)); (k_u, CN (52547 # 10)); (k_jt, CN (16293 # 50000)); (k_phase, CT "vapor"); (k_p, CN (2533 # 25000)); (k_c, CN (10053 # 10)); (k_k, CT "undefined"); (k_mu, CT "undefined"); (k_v, CN (10391 # 1250))]);
  ((1835 # 1), [(k_cp, CN (13883 # 5000)); (k_cv, CN (463 # 200)); (k_rho, CN (2991 # 25000)); (k_h, CN (30624 # 5)); (k_s, CN (2187 # 200)); (k_u, CN (52779 # 10)); (k_jt, CN (15903 # 50000)); (k_phase, CT "vapor"); (k_p, CN (2533 # 25000)); (k_c, CN (10079 # 10)); (k_k, CT "undefined"); (k_mu, CT "undefined"); (k_v, CN (5224 # 625))]);
  ((1845 # 1), [(k_cp, CN (1738 # 625)); (k_cv, CN (23191 # 10000)); (k_rho, CN (11899 # 100000)); (k_h, CN (30763 # 5)); (k_s, CN (219 # 20)); (k_u, CN (5301 # 1)); (k_jt, CN (31041 # 100000)); (k_phase, CT "vapor"); (k_p, CN (2533 # 25000)); (k_c, CN (2021 # 2)); (k_k, CT "undefined"); (k_mu, CT "undefined"); (k_v, CN (84039 # 10000))]);
  ((1855 # 1), [(k_cp, CN (27849 # 10000)); (k_cv, CN (23233 # 10000)); (k_rho, CN (2367 # 20000)); (k_h, CN (30902 # 5)); (k_s, CN (2193 # 200)); (k_u, CN (53243 # 10)); (k_jt, CN (3029 # 10000)); (k_phase, CT "vapor"); (k_p, CN (2533 # 25000)); (k_c, CN (10131 # 10)); (k_k, CT "undefined"); (k_mu, CT "undefined"); (k_v, CN (16899 # 2000))]);
  ((1865 # 1), [(k_cp, CN (2789 # 1000)); (k_cv, CN (11637 # 5000)); (k_rho, CN (2943 # 25000)); (k_h, CN (62083 # 10)); (k_s, CN (549 # 50)); (k_u, CN (10695 # 2)); (k_jt, CN (29553 # 100000)); (k_phase, CT "vapor"); (k_p, CN (2533 # 25000)); (k_c, CN (5078 # 5)); (k_k, CT "undefined"); (k_mu, CT "undefined"); (k_v, CN (1699 # 200))]);
  ((1875 # 1), [(k_cp, CN (27931 # 10000)); (k_cv, CN (4663 # 2000)); (k_rho, CN (11709 # 100000)); (k_h, CN (31181 # 5)); (k_s, CN (2199 # 200)); (k_u, CN (26854 # 5)); (k_jt, CN (2883 # 10000)); (k_phase, CT "vapor"); (k_p, CN (2533 # 25000)); (k_c, CN (5091 # 5)); (k_k, CT "undefined"); (k_mu, CT "undefined"); (k_v, CN (42703 # 5000))]);
  ((1885 # 1), [(k_cp, CN (27971 # 10000)); (k_cv, CN (4671 # 2000)); (k_rho, CN (11647 # 100000)); (k_h, CN (62641 # 10)); (k_s, CN (1101 # 100)); (k_u, CN (53941 # 10)); (k_jt, CN (703 # 2500)); (k_phase, CT "vapor"); (k_p, CN (2533 # 25000)); (k_c, CN (5104 # 5)); (k_k, CT "undefined"); (k_mu, CT "undefined"); (k_v, CN (42931 # 5000))]);
  ((1895 # 1), [(k_cp, CN (28011 # 10000)); (k_cv, CN (4679 # 2000)); (k_rho, CN (2317 # 20000)); (k_h, CN (62921 # 10)); (k_s, CN (441 # 40)); (k_u, CN (10835 # 2)); (k_jt, CN (13711 # 50000)); (k_phase, CT "vapor"); (k_p, CN (2533 # 25000)); (k_c, CN (10233 # 10)); (k_k, CT "undefined"); (k_mu, CT "undefined"); (k_v, CN (86317 # 10000))]);
  ((1905 # 1), [(k_cp, CN (28051 # 10000)); (k_cv, CN (4687 # 2000)); (k_rho, CN (2881 # 25000)); (k_h, CN (31601 # 5)); (k_s, CN (11039 # 1000)); (k_u, CN (54409 # 10)); (k_jt, CN (13369 # 50000)); (k_phase, CT "vapor"); (k_p, CN (2533 # 25000)); (k_c, CN (10259 # 10)); (k_k, CT "undefined"); (k_mu, CT "undefined"); (k_v, CN (86773 # 10000))]);
  ((1915 # 1), [(k_cp, CN (2809 # 1000)); (k_cv, CN (11737 # 5000)); (k_rho, CN (1433 # 12500)); (k_h, CN (31741 # 5)); (k_s, CN (5527 # 500)); (k_u, CN (27322 # 5)); (k_jt, CN (13033 # 50000)); (k_phase, CT "vapor"); (k_p, CN (2533 # 25000)); (k_c, CN (5142 # 5)); (k_k, CT "undefined"); (k_mu, CT "undefined"); (k_v, CN (21807 # 2500))]);
  ((1925 # 1), [(k_cp, CN (28129 # 10000)); (k_cv, CN (23513 # 10000)); (k_rho, CN (2281 # 20000)); (k_h, CN (63763 # 10)); (k_s, CN (11069 # 1000)); (k_u, CN (54879 # 10)); (k_jt, CN (12703 # 50000)); (k_phase, CT "vapor"); (k_p, CN (2533 # 25000)); (k_c, CN (1031 # 1)); (k_k, CT "undefined"); (k_mu, CT "undefined"); (k_v, CN (21921 # 2500))]);
  ((1935 # 1), [(k_cp, CN (3521 # 1250)); (k_cv, CN (1472 # 625)); (k_rho, CN (5673 # 50000)); (k_h, CN (12809 # 2)); (k_s, CN (11083 # 1000)); (k_u, CN (27557 # 5)); (k_jt, CN (24757 # 100000)); (k_phase, CT "vapor"); (k_p, CN (2533 # 25000)); (k_c, CN (2067 # 2)); (k_k, CT "undefined"); (k_mu, CT "undefined"); (k_v, CN (88139 # 10000))]);
  ((1945 # 1), [(k_cp, CN (14103 # 5000)); (k_cv, CN (2359 # 1000)); (k_rho, CN (11287 # 100000)); (k_h, CN (64327 # 10)); (k_s, CN (5549 # 500)); (k_u, CN (5535 # 1)); (k_jt, CN (24121 # 100000)); (k_phase, CT "vapor"); (k_p, CN (2533 # 25000)); (k_c, CN (1036 # 1)); (k_k, CT "undefined"); (k_mu, CT "undefined"); (k_v, CN (17719 # 2000))]);
  ((1955 # 1), [(k_cp, CN (7061 # 2500)); (k_cv, CN (5907 # 2500)); (k_rho, CN (1123 # 10000)); (k_h, CN (64609 # 10)); (k_s, CN (1389 # 125)); (k_u, CN (27793 # 5)); (k_jt, CN (4699 # 20000)); (k_phase, CT "vapor"); (k_p, CN (2533 # 25000)); (k_c, CN (5193 # 5)); (k_k, CT "undefined"); (k_mu, CT "undefined"); (k_v, CN (1781 # 200))]);
  ((1965 # 1), [(k_cp, CN (14141 # 5000)); (k_cv, CN (4733 # 2000)); (k_rho, CN (2793 # 25000)); (k_h, CN (32446 # 5)); (k_s, CN (11127 # 1000)); (k_u, CN (27911 # 5)); (k_jt, CN (143 # 625)); (k_phase, CT "vapor"); (k_p, CN (2533 # 25000)); (k_c, CN (10411 # 10)); (k_k, CT "undefined"); (k_mu, CT "undefined"); (k_v, CN (44753 # 5000))]);
  ((1975 # 1), [(k_cp, CN (28319 # 10000)); (k_cv, CN (23703 # 10000)); (k_rho, CN (2779 # 25000)); (k_h, CN (13035 # 2)); (k_s, CN (11141 # 1000)); (k_u, CN (56059 # 10)); (k_jt, CN (22277 # 100000)); (k_phase, CT "vapor"); (k_p, CN (2533 # 25000)); (k_c, CN (5218 # 5)); (k_k, CT "undefined"); (k_mu, CT "undefined"); (k_v, CN (89961 # 10000))]);
  ((1985 # 1), [(k_cp, CN (7089 # 2500)); (k_cv, CN (1187 # 500)); (k_rho, CN (553 # 5000)); (k_h, CN (32729 # 5)); (k_s, CN (2231 # 200)); (k_u, CN (28148 # 5)); (k_jt, CN (21683 # 100000)); (k_phase, CT "vapor"); (k_p, CN (2533 # 25000)); (k_c, CN (10461 # 10)); (k_k, CT "undefined"); (k_mu, CT "undefined"); (k_v, CN (90417 # 10000))]);
  ((1995 # 1), [(k_cp, CN (28393 # 10000)); (k_cv, CN (1486 # 625)); (k_rho, CN (2751 # 25000)); (k_h, CN (32871 # 5)); (k_s, CN (1117 # 100)); (k_u, CN (28267 # 5)); (k_jt, CN (211 # 1000)); (k_phase, CT "vapor"); (k_p, CN (2533 # 25000)); (k_c, CN (5243 # 5)); (k_k, CT "undefined"); (k_mu, CT "undefined"); (k_v, CN (11359 # 1250))])].
