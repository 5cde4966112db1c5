(** GENERATED from Perl 5.38's Unicode 15.0.0 data (Unicode::Normalize): full
    compatibility decompositions (Hangul syllables excluded) and canonical
    combining classes.  Stands for the tables of the unicode-normalization crate
    (src/tables.rs).  Do not edit. *)
From Verif Require Import Base Str Unicode.

(** Search tree keyed by code point. *)
Inductive tree (A : Type) : Type :=
| L
| T (l : tree A) (k : N) (v : A) (r : tree A).
Arguments L {A}.
Arguments T {A} l k v r.

Fixpoint tlookup {A : Type} (t : tree A) (x : N) : option A :=
  match t with
  | L => None
  | T l k v r => match N.compare x k with Lt => tlookup l x | Eq => Some v | Gt => tlookup r x end
  end.

Definition dec_table : tree (list N) :=
(T
(T
(T
(T
(T
(T
(T
(T
(T
(T
(T
(T
(T L 160 [32] L) 168 [32;776] L) 170 [97]
(T
(T L 175 [32;772] L) 178 [50] L)) 179 [51]
(T
(T
(T L 180 [32;769] L) 181 [956] L) 184 [32;807]
(T
(T L 185 [49] L) 186 [111] L))) 188 [49;8260;52]
(T
(T
(T
(T L 189 [49;8260;50] L) 190 [51;8260;52] L) 192 [65;768]
(T
(T L 193 [65;769] L) 194 [65;770] L)) 195 [65;771]
(T
(T
(T L 196 [65;776] L) 197 [65;778] L) 199 [67;807]
(T L 200 [69;768] L)))) 201 [69;769]
(T
(T
(T
(T
(T L 202 [69;770] L) 203 [69;776] L) 204 [73;768]
(T
(T L 205 [73;769] L) 206 [73;770] L)) 207 [73;776]
(T
(T
(T L 209 [78;771] L) 210 [79;768] L) 211 [79;769]
(T
(T L 212 [79;770] L) 213 [79;771] L))) 214 [79;776]
(T
(T
(T
(T L 217 [85;768] L) 218 [85;769] L) 219 [85;770]
(T
(T L 220 [85;776] L) 221 [89;769] L)) 224 [97;768]
(T
(T
(T L 225 [97;769] L) 226 [97;770] L) 227 [97;771]
(T L 228 [97;776] L))))) 229 [97;778]
(T
(T
(T
(T
(T
(T L 231 [99;807] L) 232 [101;768] L) 233 [101;769]
(T
(T L 234 [101;770] L) 235 [101;776] L)) 236 [105;768]
(T
(T
(T L 237 [105;769] L) 238 [105;770] L) 239 [105;776]
(T
(T L 241 [110;771] L) 242 [111;768] L))) 243 [111;769]
(T
(T
(T
(T L 244 [111;770] L) 245 [111;771] L) 246 [111;776]
(T
(T L 249 [117;768] L) 250 [117;769] L)) 251 [117;770]
(T
(T
(T L 252 [117;776] L) 253 [121;769] L) 255 [121;776]
(T L 256 [65;772] L)))) 257 [97;772]
(T
(T
(T
(T
(T L 258 [65;774] L) 259 [97;774] L) 260 [65;808]
(T
(T L 261 [97;808] L) 262 [67;769] L)) 263 [99;769]
(T
(T
(T L 264 [67;770] L) 265 [99;770] L) 266 [67;775]
(T
(T L 267 [99;775] L) 268 [67;780] L))) 269 [99;780]
(T
(T
(T
(T L 270 [68;780] L) 271 [100;780] L) 274 [69;772]
(T
(T L 275 [101;772] L) 276 [69;774] L)) 277 [101;774]
(T
(T
(T L 278 [69;775] L) 279 [101;775] L) 280 [69;808]
(T L 281 [101;808] L)))))) 282 [69;780]
(T
(T
(T
(T
(T
(T
(T L 283 [101;780] L) 284 [71;770] L) 285 [103;770]
(T
(T L 286 [71;774] L) 287 [103;774] L)) 288 [71;775]
(T
(T
(T L 289 [103;775] L) 290 [71;807] L) 291 [103;807]
(T
(T L 292 [72;770] L) 293 [104;770] L))) 296 [73;771]
(T
(T
(T
(T L 297 [105;771] L) 298 [73;772] L) 299 [105;772]
(T
(T L 300 [73;774] L) 301 [105;774] L)) 302 [73;808]
(T
(T
(T L 303 [105;808] L) 304 [73;775] L) 306 [73;74]
(T L 307 [105;106] L)))) 308 [74;770]
(T
(T
(T
(T
(T L 309 [106;770] L) 310 [75;807] L) 311 [107;807]
(T
(T L 313 [76;769] L) 314 [108;769] L)) 315 [76;807]
(T
(T
(T L 316 [108;807] L) 317 [76;780] L) 318 [108;780]
(T
(T L 319 [76;183] L) 320 [108;183] L))) 323 [78;769]
(T
(T
(T
(T L 324 [110;769] L) 325 [78;807] L) 326 [110;807]
(T
(T L 327 [78;780] L) 328 [110;780] L)) 329 [700;110]
(T
(T
(T L 332 [79;772] L) 333 [111;772] L) 334 [79;774]
(T L 335 [111;774] L))))) 336 [79;779]
(T
(T
(T
(T
(T
(T L 337 [111;779] L) 340 [82;769] L) 341 [114;769]
(T
(T L 342 [82;807] L) 343 [114;807] L)) 344 [82;780]
(T
(T
(T L 345 [114;780] L) 346 [83;769] L) 347 [115;769]
(T
(T L 348 [83;770] L) 349 [115;770] L))) 350 [83;807]
(T
(T
(T
(T L 351 [115;807] L) 352 [83;780] L) 353 [115;780]
(T
(T L 354 [84;807] L) 355 [116;807] L)) 356 [84;780]
(T
(T
(T L 357 [116;780] L) 360 [85;771] L) 361 [117;771]
(T L 362 [85;772] L)))) 363 [117;772]
(T
(T
(T
(T
(T L 364 [85;774] L) 365 [117;774] L) 366 [85;778]
(T
(T L 367 [117;778] L) 368 [85;779] L)) 369 [117;779]
(T
(T
(T L 370 [85;808] L) 371 [117;808] L) 372 [87;770]
(T
(T L 373 [119;770] L) 374 [89;770] L))) 375 [121;770]
(T
(T
(T
(T L 376 [89;776] L) 377 [90;769] L) 378 [122;769]
(T
(T L 379 [90;775] L) 380 [122;775] L)) 381 [90;780]
(T
(T
(T L 382 [122;780] L) 383 [115] L) 416 [79;795]
(T L 417 [111;795] L))))))) 431 [85;795]
(T
(T
(T
(T
(T
(T
(T
(T L 432 [117;795] L) 452 [68;90;780] L) 453 [68;122;780]
(T
(T L 454 [100;122;780] L) 455 [76;74] L)) 456 [76;106]
(T
(T
(T L 457 [108;106] L) 458 [78;74] L) 459 [78;106]
(T
(T L 460 [110;106] L) 461 [65;780] L))) 462 [97;780]
(T
(T
(T
(T L 463 [73;780] L) 464 [105;780] L) 465 [79;780]
(T
(T L 466 [111;780] L) 467 [85;780] L)) 468 [117;780]
(T
(T
(T L 469 [85;776;772] L) 470 [117;776;772] L) 471 [85;776;769]
(T L 472 [117;776;769] L)))) 473 [85;776;780]
(T
(T
(T
(T
(T L 474 [117;776;780] L) 475 [85;776;768] L) 476 [117;776;768]
(T
(T L 478 [65;776;772] L) 479 [97;776;772] L)) 480 [65;775;772]
(T
(T
(T L 481 [97;775;772] L) 482 [198;772] L) 483 [230;772]
(T
(T L 486 [71;780] L) 487 [103;780] L))) 488 [75;780]
(T
(T
(T
(T L 489 [107;780] L) 490 [79;808] L) 491 [111;808]
(T
(T L 492 [79;808;772] L) 493 [111;808;772] L)) 494 [439;780]
(T
(T
(T L 495 [658;780] L) 496 [106;780] L) 497 [68;90]
(T L 498 [68;122] L))))) 499 [100;122]
(T
(T
(T
(T
(T
(T L 500 [71;769] L) 501 [103;769] L) 504 [78;768]
(T
(T L 505 [110;768] L) 506 [65;778;769] L)) 507 [97;778;769]
(T
(T
(T L 508 [198;769] L) 509 [230;769] L) 510 [216;769]
(T
(T L 511 [248;769] L) 512 [65;783] L))) 513 [97;783]
(T
(T
(T
(T L 514 [65;785] L) 515 [97;785] L) 516 [69;783]
(T
(T L 517 [101;783] L) 518 [69;785] L)) 519 [101;785]
(T
(T
(T L 520 [73;783] L) 521 [105;783] L) 522 [73;785]
(T L 523 [105;785] L)))) 524 [79;783]
(T
(T
(T
(T
(T L 525 [111;783] L) 526 [79;785] L) 527 [111;785]
(T
(T L 528 [82;783] L) 529 [114;783] L)) 530 [82;785]
(T
(T
(T L 531 [114;785] L) 532 [85;783] L) 533 [117;783]
(T
(T L 534 [85;785] L) 535 [117;785] L))) 536 [83;806]
(T
(T
(T
(T L 537 [115;806] L) 538 [84;806] L) 539 [116;806]
(T
(T L 542 [72;780] L) 543 [104;780] L)) 550 [65;775]
(T
(T
(T L 551 [97;775] L) 552 [69;807] L) 553 [101;807]
(T L 554 [79;776;772] L)))))) 555 [111;776;772]
(T
(T
(T
(T
(T
(T
(T L 556 [79;771;772] L) 557 [111;771;772] L) 558 [79;775]
(T
(T L 559 [111;775] L) 560 [79;775;772] L)) 561 [111;775;772]
(T
(T
(T L 562 [89;772] L) 563 [121;772] L) 688 [104]
(T
(T L 689 [614] L) 690 [106] L))) 691 [114]
(T
(T
(T
(T L 692 [633] L) 693 [635] L) 694 [641]
(T
(T L 695 [119] L) 696 [121] L)) 728 [32;774]
(T
(T
(T L 729 [32;775] L) 730 [32;778] L) 731 [32;808]
(T L 732 [32;771] L)))) 733 [32;779]
(T
(T
(T
(T
(T L 736 [611] L) 737 [108] L) 738 [115]
(T
(T L 739 [120] L) 740 [661] L)) 832 [768]
(T
(T
(T L 833 [769] L) 835 [787] L) 836 [776;769]
(T
(T L 884 [697] L) 890 [32;837] L))) 894 [59]
(T
(T
(T
(T L 900 [32;769] L) 901 [32;776;769] L) 902 [913;769]
(T
(T L 903 [183] L) 904 [917;769] L)) 905 [919;769]
(T
(T
(T L 906 [921;769] L) 908 [927;769] L) 910 [933;769]
(T L 911 [937;769] L))))) 912 [953;776;769]
(T
(T
(T
(T
(T
(T L 938 [921;776] L) 939 [933;776] L) 940 [945;769]
(T
(T L 941 [949;769] L) 942 [951;769] L)) 943 [953;769]
(T
(T
(T L 944 [965;776;769] L) 970 [953;776] L) 971 [965;776]
(T
(T L 972 [959;769] L) 973 [965;769] L))) 974 [969;769]
(T
(T
(T
(T L 976 [946] L) 977 [952] L) 978 [933]
(T
(T L 979 [933;769] L) 980 [933;776] L)) 981 [966]
(T
(T
(T L 982 [960] L) 1008 [954] L) 1009 [961]
(T L 1010 [962] L)))) 1012 [920]
(T
(T
(T
(T
(T L 1013 [949] L) 1017 [931] L) 1024 [1045;768]
(T
(T L 1025 [1045;776] L) 1027 [1043;769] L)) 1031 [1030;776]
(T
(T
(T L 1036 [1050;769] L) 1037 [1048;768] L) 1038 [1059;774]
(T L 1049 [1048;774] L))) 1081 [1080;774]
(T
(T
(T
(T L 1104 [1077;768] L) 1105 [1077;776] L) 1107 [1075;769]
(T
(T L 1111 [1110;776] L) 1116 [1082;769] L)) 1117 [1080;768]
(T
(T
(T L 1118 [1091;774] L) 1142 [1140;783] L) 1143 [1141;783]
(T L 1217 [1046;774] L)))))))) 1218 [1078;774]
(T
(T
(T
(T
(T
(T
(T
(T
(T L 1232 [1040;774] L) 1233 [1072;774] L) 1234 [1040;776]
(T
(T L 1235 [1072;776] L) 1238 [1045;774] L)) 1239 [1077;774]
(T
(T
(T L 1242 [1240;776] L) 1243 [1241;776] L) 1244 [1046;776]
(T
(T L 1245 [1078;776] L) 1246 [1047;776] L))) 1247 [1079;776]
(T
(T
(T
(T L 1250 [1048;772] L) 1251 [1080;772] L) 1252 [1048;776]
(T
(T L 1253 [1080;776] L) 1254 [1054;776] L)) 1255 [1086;776]
(T
(T
(T L 1258 [1256;776] L) 1259 [1257;776] L) 1260 [1069;776]
(T L 1261 [1101;776] L)))) 1262 [1059;772]
(T
(T
(T
(T
(T L 1263 [1091;772] L) 1264 [1059;776] L) 1265 [1091;776]
(T
(T L 1266 [1059;779] L) 1267 [1091;779] L)) 1268 [1063;776]
(T
(T
(T L 1269 [1095;776] L) 1272 [1067;776] L) 1273 [1099;776]
(T
(T L 1415 [1381;1410] L) 1570 [1575;1619] L))) 1571 [1575;1620]
(T
(T
(T
(T L 1572 [1608;1620] L) 1573 [1575;1621] L) 1574 [1610;1620]
(T
(T L 1653 [1575;1652] L) 1654 [1608;1652] L)) 1655 [1735;1652]
(T
(T
(T L 1656 [1610;1652] L) 1728 [1749;1620] L) 1730 [1729;1620]
(T L 1747 [1746;1620] L))))) 2345 [2344;2364]
(T
(T
(T
(T
(T
(T L 2353 [2352;2364] L) 2356 [2355;2364] L) 2392 [2325;2364]
(T
(T L 2393 [2326;2364] L) 2394 [2327;2364] L)) 2395 [2332;2364]
(T
(T
(T L 2396 [2337;2364] L) 2397 [2338;2364] L) 2398 [2347;2364]
(T
(T L 2399 [2351;2364] L) 2507 [2503;2494] L))) 2508 [2503;2519]
(T
(T
(T
(T L 2524 [2465;2492] L) 2525 [2466;2492] L) 2527 [2479;2492]
(T
(T L 2611 [2610;2620] L) 2614 [2616;2620] L)) 2649 [2582;2620]
(T
(T
(T L 2650 [2583;2620] L) 2651 [2588;2620] L) 2654 [2603;2620]
(T L 2888 [2887;2902] L)))) 2891 [2887;2878]
(T
(T
(T
(T
(T L 2892 [2887;2903] L) 2908 [2849;2876] L) 2909 [2850;2876]
(T
(T L 2964 [2962;3031] L) 3018 [3014;3006] L)) 3019 [3015;3006]
(T
(T
(T L 3020 [3014;3031] L) 3144 [3142;3158] L) 3264 [3263;3285]
(T
(T L 3271 [3270;3285] L) 3272 [3270;3286] L))) 3274 [3270;3266]
(T
(T
(T
(T L 3275 [3270;3266;3285] L) 3402 [3398;3390] L) 3403 [3399;3390]
(T
(T L 3404 [3398;3415] L) 3546 [3545;3530] L)) 3548 [3545;3535]
(T
(T
(T L 3549 [3545;3535;3530] L) 3550 [3545;3551] L) 3635 [3661;3634]
(T L 3763 [3789;3762] L)))))) 3804 [3755;3737]
(T
(T
(T
(T
(T
(T
(T L 3805 [3755;3745] L) 3852 [3851] L) 3907 [3906;4023]
(T
(T L 3917 [3916;4023] L) 3922 [3921;4023] L)) 3927 [3926;4023]
(T
(T
(T L 3932 [3931;4023] L) 3945 [3904;4021] L) 3955 [3953;3954]
(T
(T L 3957 [3953;3956] L) 3958 [4018;3968] L))) 3959 [4018;3953;3968]
(T
(T
(T
(T L 3960 [4019;3968] L) 3961 [4019;3953;3968] L) 3969 [3953;3968]
(T
(T L 3987 [3986;4023] L) 3997 [3996;4023] L)) 4002 [4001;4023]
(T
(T
(T L 4007 [4006;4023] L) 4012 [4011;4023] L) 4025 [3984;4021]
(T L 4134 [4133;4142] L)))) 4348 [4316]
(T
(T
(T
(T
(T L 6918 [6917;6965] L) 6920 [6919;6965] L) 6922 [6921;6965]
(T
(T L 6924 [6923;6965] L) 6926 [6925;6965] L)) 6930 [6929;6965]
(T
(T
(T L 6971 [6970;6965] L) 6973 [6972;6965] L) 6976 [6974;6965]
(T
(T L 6977 [6975;6965] L) 6979 [6978;6965] L))) 7468 [65]
(T
(T
(T
(T L 7469 [198] L) 7470 [66] L) 7472 [68]
(T
(T L 7473 [69] L) 7474 [398] L)) 7475 [71]
(T
(T
(T L 7476 [72] L) 7477 [73] L) 7478 [74]
(T L 7479 [75] L))))) 7480 [76]
(T
(T
(T
(T
(T
(T L 7481 [77] L) 7482 [78] L) 7484 [79]
(T
(T L 7485 [546] L) 7486 [80] L)) 7487 [82]
(T
(T
(T L 7488 [84] L) 7489 [85] L) 7490 [87]
(T
(T L 7491 [97] L) 7492 [592] L))) 7493 [593]
(T
(T
(T
(T L 7494 [7426] L) 7495 [98] L) 7496 [100]
(T
(T L 7497 [101] L) 7498 [601] L)) 7499 [603]
(T
(T
(T L 7500 [604] L) 7501 [103] L) 7503 [107]
(T L 7504 [109] L)))) 7505 [331]
(T
(T
(T
(T
(T L 7506 [111] L) 7507 [596] L) 7508 [7446]
(T
(T L 7509 [7447] L) 7510 [112] L)) 7511 [116]
(T
(T
(T L 7512 [117] L) 7513 [7453] L) 7514 [623]
(T L 7515 [118] L))) 7516 [7461]
(T
(T
(T
(T L 7517 [946] L) 7518 [947] L) 7519 [948]
(T
(T L 7520 [966] L) 7521 [967] L)) 7522 [105]
(T
(T
(T L 7523 [114] L) 7524 [117] L) 7525 [118]
(T L 7526 [946] L))))))) 7527 [947]
(T
(T
(T
(T
(T
(T
(T
(T L 7528 [961] L) 7529 [966] L) 7530 [967]
(T
(T L 7544 [1085] L) 7579 [594] L)) 7580 [99]
(T
(T
(T L 7581 [597] L) 7582 [240] L) 7583 [604]
(T
(T L 7584 [102] L) 7585 [607] L))) 7586 [609]
(T
(T
(T
(T L 7587 [613] L) 7588 [616] L) 7589 [617]
(T
(T L 7590 [618] L) 7591 [7547] L)) 7592 [669]
(T
(T
(T L 7593 [621] L) 7594 [7557] L) 7595 [671]
(T L 7596 [625] L)))) 7597 [624]
(T
(T
(T
(T
(T L 7598 [626] L) 7599 [627] L) 7600 [628]
(T
(T L 7601 [629] L) 7602 [632] L)) 7603 [642]
(T
(T
(T L 7604 [643] L) 7605 [427] L) 7606 [649]
(T
(T L 7607 [650] L) 7608 [7452] L))) 7609 [651]
(T
(T
(T
(T L 7610 [652] L) 7611 [122] L) 7612 [656]
(T
(T L 7613 [657] L) 7614 [658] L)) 7615 [952]
(T
(T
(T L 7680 [65;805] L) 7681 [97;805] L) 7682 [66;775]
(T L 7683 [98;775] L))))) 7684 [66;803]
(T
(T
(T
(T
(T
(T L 7685 [98;803] L) 7686 [66;817] L) 7687 [98;817]
(T
(T L 7688 [67;807;769] L) 7689 [99;807;769] L)) 7690 [68;775]
(T
(T
(T L 7691 [100;775] L) 7692 [68;803] L) 7693 [100;803]
(T
(T L 7694 [68;817] L) 7695 [100;817] L))) 7696 [68;807]
(T
(T
(T
(T L 7697 [100;807] L) 7698 [68;813] L) 7699 [100;813]
(T
(T L 7700 [69;772;768] L) 7701 [101;772;768] L)) 7702 [69;772;769]
(T
(T
(T L 7703 [101;772;769] L) 7704 [69;813] L) 7705 [101;813]
(T L 7706 [69;816] L)))) 7707 [101;816]
(T
(T
(T
(T
(T L 7708 [69;807;774] L) 7709 [101;807;774] L) 7710 [70;775]
(T
(T L 7711 [102;775] L) 7712 [71;772] L)) 7713 [103;772]
(T
(T
(T L 7714 [72;775] L) 7715 [104;775] L) 7716 [72;803]
(T
(T L 7717 [104;803] L) 7718 [72;776] L))) 7719 [104;776]
(T
(T
(T
(T L 7720 [72;807] L) 7721 [104;807] L) 7722 [72;814]
(T
(T L 7723 [104;814] L) 7724 [73;816] L)) 7725 [105;816]
(T
(T
(T L 7726 [73;776;769] L) 7727 [105;776;769] L) 7728 [75;769]
(T L 7729 [107;769] L)))))) 7730 [75;803]
(T
(T
(T
(T
(T
(T
(T L 7731 [107;803] L) 7732 [75;817] L) 7733 [107;817]
(T
(T L 7734 [76;803] L) 7735 [108;803] L)) 7736 [76;803;772]
(T
(T
(T L 7737 [108;803;772] L) 7738 [76;817] L) 7739 [108;817]
(T
(T L 7740 [76;813] L) 7741 [108;813] L))) 7742 [77;769]
(T
(T
(T
(T L 7743 [109;769] L) 7744 [77;775] L) 7745 [109;775]
(T
(T L 7746 [77;803] L) 7747 [109;803] L)) 7748 [78;775]
(T
(T
(T L 7749 [110;775] L) 7750 [78;803] L) 7751 [110;803]
(T L 7752 [78;817] L)))) 7753 [110;817]
(T
(T
(T
(T
(T L 7754 [78;813] L) 7755 [110;813] L) 7756 [79;771;769]
(T
(T L 7757 [111;771;769] L) 7758 [79;771;776] L)) 7759 [111;771;776]
(T
(T
(T L 7760 [79;772;768] L) 7761 [111;772;768] L) 7762 [79;772;769]
(T
(T L 7763 [111;772;769] L) 7764 [80;769] L))) 7765 [112;769]
(T
(T
(T
(T L 7766 [80;775] L) 7767 [112;775] L) 7768 [82;775]
(T
(T L 7769 [114;775] L) 7770 [82;803] L)) 7771 [114;803]
(T
(T
(T L 7772 [82;803;772] L) 7773 [114;803;772] L) 7774 [82;817]
(T L 7775 [114;817] L))))) 7776 [83;775]
(T
(T
(T
(T
(T
(T L 7777 [115;775] L) 7778 [83;803] L) 7779 [115;803]
(T
(T L 7780 [83;769;775] L) 7781 [115;769;775] L)) 7782 [83;780;775]
(T
(T
(T L 7783 [115;780;775] L) 7784 [83;803;775] L) 7785 [115;803;775]
(T
(T L 7786 [84;775] L) 7787 [116;775] L))) 7788 [84;803]
(T
(T
(T
(T L 7789 [116;803] L) 7790 [84;817] L) 7791 [116;817]
(T
(T L 7792 [84;813] L) 7793 [116;813] L)) 7794 [85;804]
(T
(T
(T L 7795 [117;804] L) 7796 [85;816] L) 7797 [117;816]
(T L 7798 [85;813] L)))) 7799 [117;813]
(T
(T
(T
(T
(T L 7800 [85;771;769] L) 7801 [117;771;769] L) 7802 [85;772;776]
(T
(T L 7803 [117;772;776] L) 7804 [86;771] L)) 7805 [118;771]
(T
(T
(T L 7806 [86;803] L) 7807 [118;803] L) 7808 [87;768]
(T L 7809 [119;768] L))) 7810 [87;769]
(T
(T
(T
(T L 7811 [119;769] L) 7812 [87;776] L) 7813 [119;776]
(T
(T L 7814 [87;775] L) 7815 [119;775] L)) 7816 [87;803]
(T
(T
(T L 7817 [119;803] L) 7818 [88;775] L) 7819 [120;775]
(T L 7820 [88;776] L))))))))) 7821 [120;776]
(T
(T
(T
(T
(T
(T
(T
(T
(T
(T L 7822 [89;775] L) 7823 [121;775] L) 7824 [90;770]
(T
(T L 7825 [122;770] L) 7826 [90;803] L)) 7827 [122;803]
(T
(T
(T L 7828 [90;817] L) 7829 [122;817] L) 7830 [104;817]
(T
(T L 7831 [116;776] L) 7832 [119;778] L))) 7833 [121;778]
(T
(T
(T
(T L 7834 [97;702] L) 7835 [115;775] L) 7840 [65;803]
(T
(T L 7841 [97;803] L) 7842 [65;777] L)) 7843 [97;777]
(T
(T
(T L 7844 [65;770;769] L) 7845 [97;770;769] L) 7846 [65;770;768]
(T L 7847 [97;770;768] L)))) 7848 [65;770;777]
(T
(T
(T
(T
(T L 7849 [97;770;777] L) 7850 [65;770;771] L) 7851 [97;770;771]
(T
(T L 7852 [65;803;770] L) 7853 [97;803;770] L)) 7854 [65;774;769]
(T
(T
(T L 7855 [97;774;769] L) 7856 [65;774;768] L) 7857 [97;774;768]
(T
(T L 7858 [65;774;777] L) 7859 [97;774;777] L))) 7860 [65;774;771]
(T
(T
(T
(T L 7861 [97;774;771] L) 7862 [65;803;774] L) 7863 [97;803;774]
(T
(T L 7864 [69;803] L) 7865 [101;803] L)) 7866 [69;777]
(T
(T
(T L 7867 [101;777] L) 7868 [69;771] L) 7869 [101;771]
(T L 7870 [69;770;769] L))))) 7871 [101;770;769]
(T
(T
(T
(T
(T
(T L 7872 [69;770;768] L) 7873 [101;770;768] L) 7874 [69;770;777]
(T
(T L 7875 [101;770;777] L) 7876 [69;770;771] L)) 7877 [101;770;771]
(T
(T
(T L 7878 [69;803;770] L) 7879 [101;803;770] L) 7880 [73;777]
(T
(T L 7881 [105;777] L) 7882 [73;803] L))) 7883 [105;803]
(T
(T
(T
(T L 7884 [79;803] L) 7885 [111;803] L) 7886 [79;777]
(T
(T L 7887 [111;777] L) 7888 [79;770;769] L)) 7889 [111;770;769]
(T
(T
(T L 7890 [79;770;768] L) 7891 [111;770;768] L) 7892 [79;770;777]
(T L 7893 [111;770;777] L)))) 7894 [79;770;771]
(T
(T
(T
(T
(T L 7895 [111;770;771] L) 7896 [79;803;770] L) 7897 [111;803;770]
(T
(T L 7898 [79;795;769] L) 7899 [111;795;769] L)) 7900 [79;795;768]
(T
(T
(T L 7901 [111;795;768] L) 7902 [79;795;777] L) 7903 [111;795;777]
(T
(T L 7904 [79;795;771] L) 7905 [111;795;771] L))) 7906 [79;795;803]
(T
(T
(T
(T L 7907 [111;795;803] L) 7908 [85;803] L) 7909 [117;803]
(T
(T L 7910 [85;777] L) 7911 [117;777] L)) 7912 [85;795;769]
(T
(T
(T L 7913 [117;795;769] L) 7914 [85;795;768] L) 7915 [117;795;768]
(T L 7916 [85;795;777] L)))))) 7917 [117;795;777]
(T
(T
(T
(T
(T
(T
(T L 7918 [85;795;771] L) 7919 [117;795;771] L) 7920 [85;795;803]
(T
(T L 7921 [117;795;803] L) 7922 [89;768] L)) 7923 [121;768]
(T
(T
(T L 7924 [89;803] L) 7925 [121;803] L) 7926 [89;777]
(T
(T L 7927 [121;777] L) 7928 [89;771] L))) 7929 [121;771]
(T
(T
(T
(T L 7936 [945;787] L) 7937 [945;788] L) 7938 [945;787;768]
(T
(T L 7939 [945;788;768] L) 7940 [945;787;769] L)) 7941 [945;788;769]
(T
(T
(T L 7942 [945;787;834] L) 7943 [945;788;834] L) 7944 [913;787]
(T L 7945 [913;788] L)))) 7946 [913;787;768]
(T
(T
(T
(T
(T L 7947 [913;788;768] L) 7948 [913;787;769] L) 7949 [913;788;769]
(T
(T L 7950 [913;787;834] L) 7951 [913;788;834] L)) 7952 [949;787]
(T
(T
(T L 7953 [949;788] L) 7954 [949;787;768] L) 7955 [949;788;768]
(T
(T L 7956 [949;787;769] L) 7957 [949;788;769] L))) 7960 [917;787]
(T
(T
(T
(T L 7961 [917;788] L) 7962 [917;787;768] L) 7963 [917;788;768]
(T
(T L 7964 [917;787;769] L) 7965 [917;788;769] L)) 7968 [951;787]
(T
(T
(T L 7969 [951;788] L) 7970 [951;787;768] L) 7971 [951;788;768]
(T L 7972 [951;787;769] L))))) 7973 [951;788;769]
(T
(T
(T
(T
(T
(T L 7974 [951;787;834] L) 7975 [951;788;834] L) 7976 [919;787]
(T
(T L 7977 [919;788] L) 7978 [919;787;768] L)) 7979 [919;788;768]
(T
(T
(T L 7980 [919;787;769] L) 7981 [919;788;769] L) 7982 [919;787;834]
(T
(T L 7983 [919;788;834] L) 7984 [953;787] L))) 7985 [953;788]
(T
(T
(T
(T L 7986 [953;787;768] L) 7987 [953;788;768] L) 7988 [953;787;769]
(T
(T L 7989 [953;788;769] L) 7990 [953;787;834] L)) 7991 [953;788;834]
(T
(T
(T L 7992 [921;787] L) 7993 [921;788] L) 7994 [921;787;768]
(T L 7995 [921;788;768] L)))) 7996 [921;787;769]
(T
(T
(T
(T
(T L 7997 [921;788;769] L) 7998 [921;787;834] L) 7999 [921;788;834]
(T
(T L 8000 [959;787] L) 8001 [959;788] L)) 8002 [959;787;768]
(T
(T
(T L 8003 [959;788;768] L) 8004 [959;787;769] L) 8005 [959;788;769]
(T L 8008 [927;787] L))) 8009 [927;788]
(T
(T
(T
(T L 8010 [927;787;768] L) 8011 [927;788;768] L) 8012 [927;787;769]
(T
(T L 8013 [927;788;769] L) 8016 [965;787] L)) 8017 [965;788]
(T
(T
(T L 8018 [965;787;768] L) 8019 [965;788;768] L) 8020 [965;787;769]
(T L 8021 [965;788;769] L))))))) 8022 [965;787;834]
(T
(T
(T
(T
(T
(T
(T
(T L 8023 [965;788;834] L) 8025 [933;788] L) 8027 [933;788;768]
(T
(T L 8029 [933;788;769] L) 8031 [933;788;834] L)) 8032 [969;787]
(T
(T
(T L 8033 [969;788] L) 8034 [969;787;768] L) 8035 [969;788;768]
(T
(T L 8036 [969;787;769] L) 8037 [969;788;769] L))) 8038 [969;787;834]
(T
(T
(T
(T L 8039 [969;788;834] L) 8040 [937;787] L) 8041 [937;788]
(T
(T L 8042 [937;787;768] L) 8043 [937;788;768] L)) 8044 [937;787;769]
(T
(T
(T L 8045 [937;788;769] L) 8046 [937;787;834] L) 8047 [937;788;834]
(T L 8048 [945;768] L)))) 8049 [945;769]
(T
(T
(T
(T
(T L 8050 [949;768] L) 8051 [949;769] L) 8052 [951;768]
(T
(T L 8053 [951;769] L) 8054 [953;768] L)) 8055 [953;769]
(T
(T
(T L 8056 [959;768] L) 8057 [959;769] L) 8058 [965;768]
(T
(T L 8059 [965;769] L) 8060 [969;768] L))) 8061 [969;769]
(T
(T
(T
(T L 8064 [945;787;837] L) 8065 [945;788;837] L) 8066 [945;787;768;837]
(T
(T L 8067 [945;788;768;837] L) 8068 [945;787;769;837] L)) 8069 [945;788;769;837]
(T
(T
(T L 8070 [945;787;834;837] L) 8071 [945;788;834;837] L) 8072 [913;787;837]
(T L 8073 [913;788;837] L))))) 8074 [913;787;768;837]
(T
(T
(T
(T
(T
(T L 8075 [913;788;768;837] L) 8076 [913;787;769;837] L) 8077 [913;788;769;837]
(T
(T L 8078 [913;787;834;837] L) 8079 [913;788;834;837] L)) 8080 [951;787;837]
(T
(T
(T L 8081 [951;788;837] L) 8082 [951;787;768;837] L) 8083 [951;788;768;837]
(T
(T L 8084 [951;787;769;837] L) 8085 [951;788;769;837] L))) 8086 [951;787;834;837]
(T
(T
(T
(T L 8087 [951;788;834;837] L) 8088 [919;787;837] L) 8089 [919;788;837]
(T
(T L 8090 [919;787;768;837] L) 8091 [919;788;768;837] L)) 8092 [919;787;769;837]
(T
(T
(T L 8093 [919;788;769;837] L) 8094 [919;787;834;837] L) 8095 [919;788;834;837]
(T L 8096 [969;787;837] L)))) 8097 [969;788;837]
(T
(T
(T
(T
(T L 8098 [969;787;768;837] L) 8099 [969;788;768;837] L) 8100 [969;787;769;837]
(T
(T L 8101 [969;788;769;837] L) 8102 [969;787;834;837] L)) 8103 [969;788;834;837]
(T
(T
(T L 8104 [937;787;837] L) 8105 [937;788;837] L) 8106 [937;787;768;837]
(T
(T L 8107 [937;788;768;837] L) 8108 [937;787;769;837] L))) 8109 [937;788;769;837]
(T
(T
(T
(T L 8110 [937;787;834;837] L) 8111 [937;788;834;837] L) 8112 [945;774]
(T
(T L 8113 [945;772] L) 8114 [945;768;837] L)) 8115 [945;837]
(T
(T
(T L 8116 [945;769;837] L) 8118 [945;834] L) 8119 [945;834;837]
(T L 8120 [913;774] L)))))) 8121 [913;772]
(T
(T
(T
(T
(T
(T
(T L 8122 [913;768] L) 8123 [913;769] L) 8124 [913;837]
(T
(T L 8125 [32;787] L) 8126 [953] L)) 8127 [32;787]
(T
(T
(T L 8128 [32;834] L) 8129 [32;776;834] L) 8130 [951;768;837]
(T
(T L 8131 [951;837] L) 8132 [951;769;837] L))) 8134 [951;834]
(T
(T
(T
(T L 8135 [951;834;837] L) 8136 [917;768] L) 8137 [917;769]
(T
(T L 8138 [919;768] L) 8139 [919;769] L)) 8140 [919;837]
(T
(T
(T L 8141 [32;787;768] L) 8142 [32;787;769] L) 8143 [32;787;834]
(T L 8144 [953;774] L)))) 8145 [953;772]
(T
(T
(T
(T
(T L 8146 [953;776;768] L) 8147 [953;776;769] L) 8150 [953;834]
(T
(T L 8151 [953;776;834] L) 8152 [921;774] L)) 8153 [921;772]
(T
(T
(T L 8154 [921;768] L) 8155 [921;769] L) 8157 [32;788;768]
(T
(T L 8158 [32;788;769] L) 8159 [32;788;834] L))) 8160 [965;774]
(T
(T
(T
(T L 8161 [965;772] L) 8162 [965;776;768] L) 8163 [965;776;769]
(T
(T L 8164 [961;787] L) 8165 [961;788] L)) 8166 [965;834]
(T
(T
(T L 8167 [965;776;834] L) 8168 [933;774] L) 8169 [933;772]
(T L 8170 [933;768] L))))) 8171 [933;769]
(T
(T
(T
(T
(T
(T L 8172 [929;788] L) 8173 [32;776;768] L) 8174 [32;776;769]
(T
(T L 8175 [96] L) 8178 [969;768;837] L)) 8179 [969;837]
(T
(T
(T L 8180 [969;769;837] L) 8182 [969;834] L) 8183 [969;834;837]
(T
(T L 8184 [927;768] L) 8185 [927;769] L))) 8186 [937;768]
(T
(T
(T
(T L 8187 [937;769] L) 8188 [937;837] L) 8189 [32;769]
(T
(T L 8190 [32;788] L) 8192 [32] L)) 8193 [32]
(T
(T
(T L 8194 [32] L) 8195 [32] L) 8196 [32]
(T L 8197 [32] L)))) 8198 [32]
(T
(T
(T
(T
(T L 8199 [32] L) 8200 [32] L) 8201 [32]
(T
(T L 8202 [32] L) 8209 [8208] L)) 8215 [32;819]
(T
(T
(T L 8228 [46] L) 8229 [46;46] L) 8230 [46;46;46]
(T L 8239 [32] L))) 8243 [8242;8242]
(T
(T
(T
(T L 8244 [8242;8242;8242] L) 8246 [8245;8245] L) 8247 [8245;8245;8245]
(T
(T L 8252 [33;33] L) 8254 [32;773] L)) 8263 [63;63]
(T
(T
(T L 8264 [63;33] L) 8265 [33;63] L) 8279 [8242;8242;8242;8242]
(T L 8287 [32] L)))))))) 8304 [48]
(T
(T
(T
(T
(T
(T
(T
(T
(T L 8305 [105] L) 8308 [52] L) 8309 [53]
(T
(T L 8310 [54] L) 8311 [55] L)) 8312 [56]
(T
(T
(T L 8313 [57] L) 8314 [43] L) 8315 [8722]
(T
(T L 8316 [61] L) 8317 [40] L))) 8318 [41]
(T
(T
(T
(T L 8319 [110] L) 8320 [48] L) 8321 [49]
(T
(T L 8322 [50] L) 8323 [51] L)) 8324 [52]
(T
(T
(T L 8325 [53] L) 8326 [54] L) 8327 [55]
(T L 8328 [56] L)))) 8329 [57]
(T
(T
(T
(T
(T L 8330 [43] L) 8331 [8722] L) 8332 [61]
(T
(T L 8333 [40] L) 8334 [41] L)) 8336 [97]
(T
(T
(T L 8337 [101] L) 8338 [111] L) 8339 [120]
(T
(T L 8340 [601] L) 8341 [104] L))) 8342 [107]
(T
(T
(T
(T L 8343 [108] L) 8344 [109] L) 8345 [110]
(T
(T L 8346 [112] L) 8347 [115] L)) 8348 [116]
(T
(T
(T L 8360 [82;115] L) 8448 [97;47;99] L) 8449 [97;47;115]
(T L 8450 [67] L))))) 8451 [176;67]
(T
(T
(T
(T
(T
(T L 8453 [99;47;111] L) 8454 [99;47;117] L) 8455 [400]
(T
(T L 8457 [176;70] L) 8458 [103] L)) 8459 [72]
(T
(T
(T L 8460 [72] L) 8461 [72] L) 8462 [104]
(T
(T L 8463 [295] L) 8464 [73] L))) 8465 [73]
(T
(T
(T
(T L 8466 [76] L) 8467 [108] L) 8469 [78]
(T
(T L 8470 [78;111] L) 8473 [80] L)) 8474 [81]
(T
(T
(T L 8475 [82] L) 8476 [82] L) 8477 [82]
(T L 8480 [83;77] L)))) 8481 [84;69;76]
(T
(T
(T
(T
(T L 8482 [84;77] L) 8484 [90] L) 8486 [937]
(T
(T L 8488 [90] L) 8490 [75] L)) 8491 [65;778]
(T
(T
(T L 8492 [66] L) 8493 [67] L) 8495 [101]
(T
(T L 8496 [69] L) 8497 [70] L))) 8499 [77]
(T
(T
(T
(T L 8500 [111] L) 8501 [1488] L) 8502 [1489]
(T
(T L 8503 [1490] L) 8504 [1491] L)) 8505 [105]
(T
(T
(T L 8507 [70;65;88] L) 8508 [960] L) 8509 [947]
(T L 8510 [915] L)))))) 8511 [928]
(T
(T
(T
(T
(T
(T
(T L 8512 [8721] L) 8517 [68] L) 8518 [100]
(T
(T L 8519 [101] L) 8520 [105] L)) 8521 [106]
(T
(T
(T L 8528 [49;8260;55] L) 8529 [49;8260;57] L) 8530 [49;8260;49;48]
(T
(T L 8531 [49;8260;51] L) 8532 [50;8260;51] L))) 8533 [49;8260;53]
(T
(T
(T
(T L 8534 [50;8260;53] L) 8535 [51;8260;53] L) 8536 [52;8260;53]
(T
(T L 8537 [49;8260;54] L) 8538 [53;8260;54] L)) 8539 [49;8260;56]
(T
(T
(T L 8540 [51;8260;56] L) 8541 [53;8260;56] L) 8542 [55;8260;56]
(T L 8543 [49;8260] L)))) 8544 [73]
(T
(T
(T
(T
(T L 8545 [73;73] L) 8546 [73;73;73] L) 8547 [73;86]
(T
(T L 8548 [86] L) 8549 [86;73] L)) 8550 [86;73;73]
(T
(T
(T L 8551 [86;73;73;73] L) 8552 [73;88] L) 8553 [88]
(T
(T L 8554 [88;73] L) 8555 [88;73;73] L))) 8556 [76]
(T
(T
(T
(T L 8557 [67] L) 8558 [68] L) 8559 [77]
(T
(T L 8560 [105] L) 8561 [105;105] L)) 8562 [105;105;105]
(T
(T
(T L 8563 [105;118] L) 8564 [118] L) 8565 [118;105]
(T L 8566 [118;105;105] L))))) 8567 [118;105;105;105]
(T
(T
(T
(T
(T
(T L 8568 [105;120] L) 8569 [120] L) 8570 [120;105]
(T
(T L 8571 [120;105;105] L) 8572 [108] L)) 8573 [99]
(T
(T
(T L 8574 [100] L) 8575 [109] L) 8585 [48;8260;51]
(T
(T L 8602 [8592;824] L) 8603 [8594;824] L))) 8622 [8596;824]
(T
(T
(T
(T L 8653 [8656;824] L) 8654 [8660;824] L) 8655 [8658;824]
(T
(T L 8708 [8707;824] L) 8713 [8712;824] L)) 8716 [8715;824]
(T
(T
(T L 8740 [8739;824] L) 8742 [8741;824] L) 8748 [8747;8747]
(T L 8749 [8747;8747;8747] L)))) 8751 [8750;8750]
(T
(T
(T
(T
(T L 8752 [8750;8750;8750] L) 8769 [8764;824] L) 8772 [8771;824]
(T
(T L 8775 [8773;824] L) 8777 [8776;824] L)) 8800 [61;824]
(T
(T
(T L 8802 [8801;824] L) 8813 [8781;824] L) 8814 [60;824]
(T L 8815 [62;824] L))) 8816 [8804;824]
(T
(T
(T
(T L 8817 [8805;824] L) 8820 [8818;824] L) 8821 [8819;824]
(T
(T L 8824 [8822;824] L) 8825 [8823;824] L)) 8832 [8826;824]
(T
(T
(T L 8833 [8827;824] L) 8836 [8834;824] L) 8837 [8835;824]
(T L 8840 [8838;824] L))))))) 8841 [8839;824]
(T
(T
(T
(T
(T
(T
(T
(T L 8876 [8866;824] L) 8877 [8872;824] L) 8878 [8873;824]
(T
(T L 8879 [8875;824] L) 8928 [8828;824] L)) 8929 [8829;824]
(T
(T
(T L 8930 [8849;824] L) 8931 [8850;824] L) 8938 [8882;824]
(T
(T L 8939 [8883;824] L) 8940 [8884;824] L))) 8941 [8885;824]
(T
(T
(T
(T L 9001 [12296] L) 9002 [12297] L) 9312 [49]
(T
(T L 9313 [50] L) 9314 [51] L)) 9315 [52]
(T
(T
(T L 9316 [53] L) 9317 [54] L) 9318 [55]
(T L 9319 [56] L)))) 9320 [57]
(T
(T
(T
(T
(T L 9321 [49;48] L) 9322 [49;49] L) 9323 [49;50]
(T
(T L 9324 [49;51] L) 9325 [49;52] L)) 9326 [49;53]
(T
(T
(T L 9327 [49;54] L) 9328 [49;55] L) 9329 [49;56]
(T
(T L 9330 [49;57] L) 9331 [50;48] L))) 9332 [40;49;41]
(T
(T
(T
(T L 9333 [40;50;41] L) 9334 [40;51;41] L) 9335 [40;52;41]
(T
(T L 9336 [40;53;41] L) 9337 [40;54;41] L)) 9338 [40;55;41]
(T
(T
(T L 9339 [40;56;41] L) 9340 [40;57;41] L) 9341 [40;49;48;41]
(T L 9342 [40;49;49;41] L))))) 9343 [40;49;50;41]
(T
(T
(T
(T
(T
(T L 9344 [40;49;51;41] L) 9345 [40;49;52;41] L) 9346 [40;49;53;41]
(T
(T L 9347 [40;49;54;41] L) 9348 [40;49;55;41] L)) 9349 [40;49;56;41]
(T
(T
(T L 9350 [40;49;57;41] L) 9351 [40;50;48;41] L) 9352 [49;46]
(T
(T L 9353 [50;46] L) 9354 [51;46] L))) 9355 [52;46]
(T
(T
(T
(T L 9356 [53;46] L) 9357 [54;46] L) 9358 [55;46]
(T
(T L 9359 [56;46] L) 9360 [57;46] L)) 9361 [49;48;46]
(T
(T
(T L 9362 [49;49;46] L) 9363 [49;50;46] L) 9364 [49;51;46]
(T L 9365 [49;52;46] L)))) 9366 [49;53;46]
(T
(T
(T
(T
(T L 9367 [49;54;46] L) 9368 [49;55;46] L) 9369 [49;56;46]
(T
(T L 9370 [49;57;46] L) 9371 [50;48;46] L)) 9372 [40;97;41]
(T
(T
(T L 9373 [40;98;41] L) 9374 [40;99;41] L) 9375 [40;100;41]
(T
(T L 9376 [40;101;41] L) 9377 [40;102;41] L))) 9378 [40;103;41]
(T
(T
(T
(T L 9379 [40;104;41] L) 9380 [40;105;41] L) 9381 [40;106;41]
(T
(T L 9382 [40;107;41] L) 9383 [40;108;41] L)) 9384 [40;109;41]
(T
(T
(T L 9385 [40;110;41] L) 9386 [40;111;41] L) 9387 [40;112;41]
(T L 9388 [40;113;41] L)))))) 9389 [40;114;41]
(T
(T
(T
(T
(T
(T
(T L 9390 [40;115;41] L) 9391 [40;116;41] L) 9392 [40;117;41]
(T
(T L 9393 [40;118;41] L) 9394 [40;119;41] L)) 9395 [40;120;41]
(T
(T
(T L 9396 [40;121;41] L) 9397 [40;122;41] L) 9398 [65]
(T
(T L 9399 [66] L) 9400 [67] L))) 9401 [68]
(T
(T
(T
(T L 9402 [69] L) 9403 [70] L) 9404 [71]
(T
(T L 9405 [72] L) 9406 [73] L)) 9407 [74]
(T
(T
(T L 9408 [75] L) 9409 [76] L) 9410 [77]
(T L 9411 [78] L)))) 9412 [79]
(T
(T
(T
(T
(T L 9413 [80] L) 9414 [81] L) 9415 [82]
(T
(T L 9416 [83] L) 9417 [84] L)) 9418 [85]
(T
(T
(T L 9419 [86] L) 9420 [87] L) 9421 [88]
(T
(T L 9422 [89] L) 9423 [90] L))) 9424 [97]
(T
(T
(T
(T L 9425 [98] L) 9426 [99] L) 9427 [100]
(T
(T L 9428 [101] L) 9429 [102] L)) 9430 [103]
(T
(T
(T L 9431 [104] L) 9432 [105] L) 9433 [106]
(T L 9434 [107] L))))) 9435 [108]
(T
(T
(T
(T
(T
(T L 9436 [109] L) 9437 [110] L) 9438 [111]
(T
(T L 9439 [112] L) 9440 [113] L)) 9441 [114]
(T
(T
(T L 9442 [115] L) 9443 [116] L) 9444 [117]
(T
(T L 9445 [118] L) 9446 [119] L))) 9447 [120]
(T
(T
(T
(T L 9448 [121] L) 9449 [122] L) 9450 [48]
(T
(T L 10764 [8747;8747;8747;8747] L) 10868 [58;58;61] L)) 10869 [61;61]
(T
(T
(T L 10870 [61;61;61] L) 10972 [10973;824] L) 11388 [106]
(T L 11389 [86] L)))) 11631 [11617]
(T
(T
(T
(T
(T L 11935 [27597] L) 12019 [40863] L) 12032 [19968]
(T
(T L 12033 [20008] L) 12034 [20022] L)) 12035 [20031]
(T
(T
(T L 12036 [20057] L) 12037 [20101] L) 12038 [20108]
(T L 12039 [20128] L))) 12040 [20154]
(T
(T
(T
(T L 12041 [20799] L) 12042 [20837] L) 12043 [20843]
(T
(T L 12044 [20866] L) 12045 [20886] L)) 12046 [20907]
(T
(T
(T L 12047 [20960] L) 12048 [20981] L) 12049 [20992]
(T L 12050 [21147] L)))))))))) 12051 [21241]
(T
(T
(T
(T
(T
(T
(T
(T
(T
(T
(T L 12052 [21269] L) 12053 [21274] L) 12054 [21304]
(T
(T L 12055 [21313] L) 12056 [21340] L)) 12057 [21353]
(T
(T
(T L 12058 [21378] L) 12059 [21430] L) 12060 [21448]
(T
(T L 12061 [21475] L) 12062 [22231] L))) 12063 [22303]
(T
(T
(T
(T L 12064 [22763] L) 12065 [22786] L) 12066 [22794]
(T
(T L 12067 [22805] L) 12068 [22823] L)) 12069 [22899]
(T
(T
(T L 12070 [23376] L) 12071 [23424] L) 12072 [23544]
(T L 12073 [23567] L)))) 12074 [23586]
(T
(T
(T
(T
(T L 12075 [23608] L) 12076 [23662] L) 12077 [23665]
(T
(T L 12078 [24027] L) 12079 [24037] L)) 12080 [24049]
(T
(T
(T L 12081 [24062] L) 12082 [24178] L) 12083 [24186]
(T
(T L 12084 [24191] L) 12085 [24308] L))) 12086 [24318]
(T
(T
(T
(T L 12087 [24331] L) 12088 [24339] L) 12089 [24400]
(T
(T L 12090 [24417] L) 12091 [24435] L)) 12092 [24515]
(T
(T
(T L 12093 [25096] L) 12094 [25142] L) 12095 [25163]
(T L 12096 [25903] L))))) 12097 [25908]
(T
(T
(T
(T
(T
(T L 12098 [25991] L) 12099 [26007] L) 12100 [26020]
(T
(T L 12101 [26041] L) 12102 [26080] L)) 12103 [26085]
(T
(T
(T L 12104 [26352] L) 12105 [26376] L) 12106 [26408]
(T
(T L 12107 [27424] L) 12108 [27490] L))) 12109 [27513]
(T
(T
(T
(T L 12110 [27571] L) 12111 [27595] L) 12112 [27604]
(T
(T L 12113 [27611] L) 12114 [27663] L)) 12115 [27668]
(T
(T
(T L 12116 [27700] L) 12117 [28779] L) 12118 [29226]
(T L 12119 [29238] L)))) 12120 [29243]
(T
(T
(T
(T
(T L 12121 [29247] L) 12122 [29255] L) 12123 [29273]
(T
(T L 12124 [29275] L) 12125 [29356] L)) 12126 [29572]
(T
(T
(T L 12127 [29577] L) 12128 [29916] L) 12129 [29926]
(T
(T L 12130 [29976] L) 12131 [29983] L))) 12132 [29992]
(T
(T
(T
(T L 12133 [30000] L) 12134 [30091] L) 12135 [30098]
(T
(T L 12136 [30326] L) 12137 [30333] L)) 12138 [30382]
(T
(T
(T L 12139 [30399] L) 12140 [30446] L) 12141 [30683]
(T L 12142 [30690] L)))))) 12143 [30707]
(T
(T
(T
(T
(T
(T
(T L 12144 [31034] L) 12145 [31160] L) 12146 [31166]
(T
(T L 12147 [31348] L) 12148 [31435] L)) 12149 [31481]
(T
(T
(T L 12150 [31859] L) 12151 [31992] L) 12152 [32566]
(T
(T L 12153 [32593] L) 12154 [32650] L))) 12155 [32701]
(T
(T
(T
(T L 12156 [32769] L) 12157 [32780] L) 12158 [32786]
(T
(T L 12159 [32819] L) 12160 [32895] L)) 12161 [32905]
(T
(T
(T L 12162 [33251] L) 12163 [33258] L) 12164 [33267]
(T L 12165 [33276] L)))) 12166 [33292]
(T
(T
(T
(T
(T L 12167 [33307] L) 12168 [33311] L) 12169 [33390]
(T
(T L 12170 [33394] L) 12171 [33400] L)) 12172 [34381]
(T
(T
(T L 12173 [34411] L) 12174 [34880] L) 12175 [34892]
(T
(T L 12176 [34915] L) 12177 [35198] L))) 12178 [35211]
(T
(T
(T
(T L 12179 [35282] L) 12180 [35328] L) 12181 [35895]
(T
(T L 12182 [35910] L) 12183 [35925] L)) 12184 [35960]
(T
(T
(T L 12185 [35997] L) 12186 [36196] L) 12187 [36208]
(T L 12188 [36275] L))))) 12189 [36523]
(T
(T
(T
(T
(T
(T L 12190 [36554] L) 12191 [36763] L) 12192 [36784]
(T
(T L 12193 [36789] L) 12194 [37009] L)) 12195 [37193]
(T
(T
(T L 12196 [37318] L) 12197 [37324] L) 12198 [37329]
(T
(T L 12199 [38263] L) 12200 [38272] L))) 12201 [38428]
(T
(T
(T
(T L 12202 [38582] L) 12203 [38585] L) 12204 [38632]
(T
(T L 12205 [38737] L) 12206 [38750] L)) 12207 [38754]
(T
(T
(T L 12208 [38761] L) 12209 [38859] L) 12210 [38893]
(T L 12211 [38899] L)))) 12212 [38913]
(T
(T
(T
(T
(T L 12213 [39080] L) 12214 [39131] L) 12215 [39135]
(T
(T L 12216 [39318] L) 12217 [39321] L)) 12218 [39340]
(T
(T
(T L 12219 [39592] L) 12220 [39640] L) 12221 [39647]
(T L 12222 [39717] L))) 12223 [39727]
(T
(T
(T
(T L 12224 [39730] L) 12225 [39740] L) 12226 [39770]
(T
(T L 12227 [40165] L) 12228 [40565] L)) 12229 [40575]
(T
(T
(T L 12230 [40613] L) 12231 [40635] L) 12232 [40643]
(T L 12233 [40653] L))))))) 12234 [40657]
(T
(T
(T
(T
(T
(T
(T
(T L 12235 [40697] L) 12236 [40701] L) 12237 [40718]
(T
(T L 12238 [40723] L) 12239 [40736] L)) 12240 [40763]
(T
(T
(T L 12241 [40778] L) 12242 [40786] L) 12243 [40845]
(T
(T L 12244 [40860] L) 12245 [40864] L))) 12288 [32]
(T
(T
(T
(T L 12342 [12306] L) 12344 [21313] L) 12345 [21316]
(T
(T L 12346 [21317] L) 12364 [12363;12441] L)) 12366 [12365;12441]
(T
(T
(T L 12368 [12367;12441] L) 12370 [12369;12441] L) 12372 [12371;12441]
(T L 12374 [12373;12441] L)))) 12376 [12375;12441]
(T
(T
(T
(T
(T L 12378 [12377;12441] L) 12380 [12379;12441] L) 12382 [12381;12441]
(T
(T L 12384 [12383;12441] L) 12386 [12385;12441] L)) 12389 [12388;12441]
(T
(T
(T L 12391 [12390;12441] L) 12393 [12392;12441] L) 12400 [12399;12441]
(T
(T L 12401 [12399;12442] L) 12403 [12402;12441] L))) 12404 [12402;12442]
(T
(T
(T
(T L 12406 [12405;12441] L) 12407 [12405;12442] L) 12409 [12408;12441]
(T
(T L 12410 [12408;12442] L) 12412 [12411;12441] L)) 12413 [12411;12442]
(T
(T
(T L 12436 [12358;12441] L) 12443 [32;12441] L) 12444 [32;12442]
(T L 12446 [12445;12441] L))))) 12447 [12424;12426]
(T
(T
(T
(T
(T
(T L 12460 [12459;12441] L) 12462 [12461;12441] L) 12464 [12463;12441]
(T
(T L 12466 [12465;12441] L) 12468 [12467;12441] L)) 12470 [12469;12441]
(T
(T
(T L 12472 [12471;12441] L) 12474 [12473;12441] L) 12476 [12475;12441]
(T
(T L 12478 [12477;12441] L) 12480 [12479;12441] L))) 12482 [12481;12441]
(T
(T
(T
(T L 12485 [12484;12441] L) 12487 [12486;12441] L) 12489 [12488;12441]
(T
(T L 12496 [12495;12441] L) 12497 [12495;12442] L)) 12499 [12498;12441]
(T
(T
(T L 12500 [12498;12442] L) 12502 [12501;12441] L) 12503 [12501;12442]
(T L 12505 [12504;12441] L)))) 12506 [12504;12442]
(T
(T
(T
(T
(T L 12508 [12507;12441] L) 12509 [12507;12442] L) 12532 [12454;12441]
(T
(T L 12535 [12527;12441] L) 12536 [12528;12441] L)) 12537 [12529;12441]
(T
(T
(T L 12538 [12530;12441] L) 12542 [12541;12441] L) 12543 [12467;12488]
(T
(T L 12593 [4352] L) 12594 [4353] L))) 12595 [4522]
(T
(T
(T
(T L 12596 [4354] L) 12597 [4524] L) 12598 [4525]
(T
(T L 12599 [4355] L) 12600 [4356] L)) 12601 [4357]
(T
(T
(T L 12602 [4528] L) 12603 [4529] L) 12604 [4530]
(T L 12605 [4531] L)))))) 12606 [4532]
(T
(T
(T
(T
(T
(T
(T L 12607 [4533] L) 12608 [4378] L) 12609 [4358]
(T
(T L 12610 [4359] L) 12611 [4360] L)) 12612 [4385]
(T
(T
(T L 12613 [4361] L) 12614 [4362] L) 12615 [4363]
(T
(T L 12616 [4364] L) 12617 [4365] L))) 12618 [4366]
(T
(T
(T
(T L 12619 [4367] L) 12620 [4368] L) 12621 [4369]
(T
(T L 12622 [4370] L) 12623 [4449] L)) 12624 [4450]
(T
(T
(T L 12625 [4451] L) 12626 [4452] L) 12627 [4453]
(T L 12628 [4454] L)))) 12629 [4455]
(T
(T
(T
(T
(T L 12630 [4456] L) 12631 [4457] L) 12632 [4458]
(T
(T L 12633 [4459] L) 12634 [4460] L)) 12635 [4461]
(T
(T
(T L 12636 [4462] L) 12637 [4463] L) 12638 [4464]
(T
(T L 12639 [4465] L) 12640 [4466] L))) 12641 [4467]
(T
(T
(T
(T L 12642 [4468] L) 12643 [4469] L) 12644 [4448]
(T
(T L 12645 [4372] L) 12646 [4373] L)) 12647 [4551]
(T
(T
(T L 12648 [4552] L) 12649 [4556] L) 12650 [4558]
(T L 12651 [4563] L))))) 12652 [4567]
(T
(T
(T
(T
(T
(T L 12653 [4569] L) 12654 [4380] L) 12655 [4573]
(T
(T L 12656 [4575] L) 12657 [4381] L)) 12658 [4382]
(T
(T
(T L 12659 [4384] L) 12660 [4386] L) 12661 [4387]
(T
(T L 12662 [4391] L) 12663 [4393] L))) 12664 [4395]
(T
(T
(T
(T L 12665 [4396] L) 12666 [4397] L) 12667 [4398]
(T
(T L 12668 [4399] L) 12669 [4402] L)) 12670 [4406]
(T
(T
(T L 12671 [4416] L) 12672 [4423] L) 12673 [4428]
(T L 12674 [4593] L)))) 12675 [4594]
(T
(T
(T
(T
(T L 12676 [4439] L) 12677 [4440] L) 12678 [4441]
(T
(T L 12679 [4484] L) 12680 [4485] L)) 12681 [4488]
(T
(T
(T L 12682 [4497] L) 12683 [4498] L) 12684 [4500]
(T L 12685 [4510] L))) 12686 [4513]
(T
(T
(T
(T L 12690 [19968] L) 12691 [20108] L) 12692 [19977]
(T
(T L 12693 [22235] L) 12694 [19978] L)) 12695 [20013]
(T
(T
(T L 12696 [19979] L) 12697 [30002] L) 12698 [20057]
(T L 12699 [19993] L)))))))) 12700 [19969]
(T
(T
(T
(T
(T
(T
(T
(T
(T L 12701 [22825] L) 12702 [22320] L) 12703 [20154]
(T
(T L 12800 [40;4352;41] L) 12801 [40;4354;41] L)) 12802 [40;4355;41]
(T
(T
(T L 12803 [40;4357;41] L) 12804 [40;4358;41] L) 12805 [40;4359;41]
(T
(T L 12806 [40;4361;41] L) 12807 [40;4363;41] L))) 12808 [40;4364;41]
(T
(T
(T
(T L 12809 [40;4366;41] L) 12810 [40;4367;41] L) 12811 [40;4368;41]
(T
(T L 12812 [40;4369;41] L) 12813 [40;4370;41] L)) 12814 [40;4352;4449;41]
(T
(T
(T L 12815 [40;4354;4449;41] L) 12816 [40;4355;4449;41] L) 12817 [40;4357;4449;41]
(T L 12818 [40;4358;4449;41] L)))) 12819 [40;4359;4449;41]
(T
(T
(T
(T
(T L 12820 [40;4361;4449;41] L) 12821 [40;4363;4449;41] L) 12822 [40;4364;4449;41]
(T
(T L 12823 [40;4366;4449;41] L) 12824 [40;4367;4449;41] L)) 12825 [40;4368;4449;41]
(T
(T
(T L 12826 [40;4369;4449;41] L) 12827 [40;4370;4449;41] L) 12828 [40;4364;4462;41]
(T
(T L 12829 [40;4363;4457;4364;4453;4523;41] L) 12830 [40;4363;4457;4370;4462;41] L))) 12832 [40;19968;41]
(T
(T
(T
(T L 12833 [40;20108;41] L) 12834 [40;19977;41] L) 12835 [40;22235;41]
(T
(T L 12836 [40;20116;41] L) 12837 [40;20845;41] L)) 12838 [40;19971;41]
(T
(T
(T L 12839 [40;20843;41] L) 12840 [40;20061;41] L) 12841 [40;21313;41]
(T L 12842 [40;26376;41] L))))) 12843 [40;28779;41]
(T
(T
(T
(T
(T
(T L 12844 [40;27700;41] L) 12845 [40;26408;41] L) 12846 [40;37329;41]
(T
(T L 12847 [40;22303;41] L) 12848 [40;26085;41] L)) 12849 [40;26666;41]
(T
(T
(T L 12850 [40;26377;41] L) 12851 [40;31038;41] L) 12852 [40;21517;41]
(T
(T L 12853 [40;29305;41] L) 12854 [40;36001;41] L))) 12855 [40;31069;41]
(T
(T
(T
(T L 12856 [40;21172;41] L) 12857 [40;20195;41] L) 12858 [40;21628;41]
(T
(T L 12859 [40;23398;41] L) 12860 [40;30435;41] L)) 12861 [40;20225;41]
(T
(T
(T L 12862 [40;36039;41] L) 12863 [40;21332;41] L) 12864 [40;31085;41]
(T L 12865 [40;20241;41] L)))) 12866 [40;33258;41]
(T
(T
(T
(T
(T L 12867 [40;33267;41] L) 12868 [21839] L) 12869 [24188]
(T
(T L 12870 [25991] L) 12871 [31631] L)) 12880 [80;84;69]
(T
(T
(T L 12881 [50;49] L) 12882 [50;50] L) 12883 [50;51]
(T
(T L 12884 [50;52] L) 12885 [50;53] L))) 12886 [50;54]
(T
(T
(T
(T L 12887 [50;55] L) 12888 [50;56] L) 12889 [50;57]
(T
(T L 12890 [51;48] L) 12891 [51;49] L)) 12892 [51;50]
(T
(T
(T L 12893 [51;51] L) 12894 [51;52] L) 12895 [51;53]
(T L 12896 [4352] L)))))) 12897 [4354]
(T
(T
(T
(T
(T
(T
(T L 12898 [4355] L) 12899 [4357] L) 12900 [4358]
(T
(T L 12901 [4359] L) 12902 [4361] L)) 12903 [4363]
(T
(T
(T L 12904 [4364] L) 12905 [4366] L) 12906 [4367]
(T
(T L 12907 [4368] L) 12908 [4369] L))) 12909 [4370]
(T
(T
(T
(T L 12910 [4352;4449] L) 12911 [4354;4449] L) 12912 [4355;4449]
(T
(T L 12913 [4357;4449] L) 12914 [4358;4449] L)) 12915 [4359;4449]
(T
(T
(T L 12916 [4361;4449] L) 12917 [4363;4449] L) 12918 [4364;4449]
(T L 12919 [4366;4449] L)))) 12920 [4367;4449]
(T
(T
(T
(T
(T L 12921 [4368;4449] L) 12922 [4369;4449] L) 12923 [4370;4449]
(T
(T L 12924 [4366;4449;4535;4352;4457] L) 12925 [4364;4462;4363;4468] L)) 12926 [4363;4462]
(T
(T
(T L 12928 [19968] L) 12929 [20108] L) 12930 [19977]
(T
(T L 12931 [22235] L) 12932 [20116] L))) 12933 [20845]
(T
(T
(T
(T L 12934 [19971] L) 12935 [20843] L) 12936 [20061]
(T
(T L 12937 [21313] L) 12938 [26376] L)) 12939 [28779]
(T
(T
(T L 12940 [27700] L) 12941 [26408] L) 12942 [37329]
(T L 12943 [22303] L))))) 12944 [26085]
(T
(T
(T
(T
(T
(T L 12945 [26666] L) 12946 [26377] L) 12947 [31038]
(T
(T L 12948 [21517] L) 12949 [29305] L)) 12950 [36001]
(T
(T
(T L 12951 [31069] L) 12952 [21172] L) 12953 [31192]
(T
(T L 12954 [30007] L) 12955 [22899] L))) 12956 [36969]
(T
(T
(T
(T L 12957 [20778] L) 12958 [21360] L) 12959 [27880]
(T
(T L 12960 [38917] L) 12961 [20241] L)) 12962 [20889]
(T
(T
(T L 12963 [27491] L) 12964 [19978] L) 12965 [20013]
(T L 12966 [19979] L)))) 12967 [24038]
(T
(T
(T
(T
(T L 12968 [21491] L) 12969 [21307] L) 12970 [23447]
(T
(T L 12971 [23398] L) 12972 [30435] L)) 12973 [20225]
(T
(T
(T L 12974 [36039] L) 12975 [21332] L) 12976 [22812]
(T L 12977 [51;54] L))) 12978 [51;55]
(T
(T
(T
(T L 12979 [51;56] L) 12980 [51;57] L) 12981 [52;48]
(T
(T L 12982 [52;49] L) 12983 [52;50] L)) 12984 [52;51]
(T
(T
(T L 12985 [52;52] L) 12986 [52;53] L) 12987 [52;54]
(T L 12988 [52;55] L))))))) 12989 [52;56]
(T
(T
(T
(T
(T
(T
(T
(T L 12990 [52;57] L) 12991 [53;48] L) 12992 [49;26376]
(T
(T L 12993 [50;26376] L) 12994 [51;26376] L)) 12995 [52;26376]
(T
(T
(T L 12996 [53;26376] L) 12997 [54;26376] L) 12998 [55;26376]
(T
(T L 12999 [56;26376] L) 13000 [57;26376] L))) 13001 [49;48;26376]
(T
(T
(T
(T L 13002 [49;49;26376] L) 13003 [49;50;26376] L) 13004 [72;103]
(T
(T L 13005 [101;114;103] L) 13006 [101;86] L)) 13007 [76;84;68]
(T
(T
(T L 13008 [12450] L) 13009 [12452] L) 13010 [12454]
(T L 13011 [12456] L)))) 13012 [12458]
(T
(T
(T
(T
(T L 13013 [12459] L) 13014 [12461] L) 13015 [12463]
(T
(T L 13016 [12465] L) 13017 [12467] L)) 13018 [12469]
(T
(T
(T L 13019 [12471] L) 13020 [12473] L) 13021 [12475]
(T
(T L 13022 [12477] L) 13023 [12479] L))) 13024 [12481]
(T
(T
(T
(T L 13025 [12484] L) 13026 [12486] L) 13027 [12488]
(T
(T L 13028 [12490] L) 13029 [12491] L)) 13030 [12492]
(T
(T
(T L 13031 [12493] L) 13032 [12494] L) 13033 [12495]
(T L 13034 [12498] L))))) 13035 [12501]
(T
(T
(T
(T
(T
(T L 13036 [12504] L) 13037 [12507] L) 13038 [12510]
(T
(T L 13039 [12511] L) 13040 [12512] L)) 13041 [12513]
(T
(T
(T L 13042 [12514] L) 13043 [12516] L) 13044 [12518]
(T
(T L 13045 [12520] L) 13046 [12521] L))) 13047 [12522]
(T
(T
(T
(T L 13048 [12523] L) 13049 [12524] L) 13050 [12525]
(T
(T L 13051 [12527] L) 13052 [12528] L)) 13053 [12529]
(T
(T
(T L 13054 [12530] L) 13055 [20196;21644] L) 13056 [12450;12495;12442;12540;12488]
(T L 13057 [12450;12523;12501;12449] L)))) 13058 [12450;12531;12504;12442;12450]
(T
(T
(T
(T
(T L 13059 [12450;12540;12523] L) 13060 [12452;12491;12531;12463;12441] L) 13061 [12452;12531;12481]
(T
(T L 13062 [12454;12457;12531] L) 13063 [12456;12473;12463;12540;12488;12441] L)) 13064 [12456;12540;12459;12540]
(T
(T
(T L 13065 [12458;12531;12473] L) 13066 [12458;12540;12512] L) 13067 [12459;12452;12522]
(T
(T L 13068 [12459;12521;12483;12488] L) 13069 [12459;12525;12522;12540] L))) 13070 [12459;12441;12525;12531]
(T
(T
(T
(T L 13071 [12459;12441;12531;12510] L) 13072 [12461;12441;12459;12441] L) 13073 [12461;12441;12491;12540]
(T
(T L 13074 [12461;12517;12522;12540] L) 13075 [12461;12441;12523;12479;12441;12540] L)) 13076 [12461;12525]
(T
(T
(T L 13077 [12461;12525;12463;12441;12521;12512] L) 13078 [12461;12525;12513;12540;12488;12523] L) 13079 [12461;12525;12527;12483;12488]
(T L 13080 [12463;12441;12521;12512] L)))))) 13081 [12463;12441;12521;12512;12488;12531]
(T
(T
(T
(T
(T
(T
(T L 13082 [12463;12523;12475;12441;12452;12525] L) 13083 [12463;12525;12540;12493] L) 13084 [12465;12540;12473]
(T
(T L 13085 [12467;12523;12490] L) 13086 [12467;12540;12507;12442] L)) 13087 [12469;12452;12463;12523]
(T
(T
(T L 13088 [12469;12531;12481;12540;12512] L) 13089 [12471;12522;12531;12463;12441] L) 13090 [12475;12531;12481]
(T
(T L 13091 [12475;12531;12488] L) 13092 [12479;12441;12540;12473] L))) 13093 [12486;12441;12471]
(T
(T
(T
(T L 13094 [12488;12441;12523] L) 13095 [12488;12531] L) 13096 [12490;12494]
(T
(T L 13097 [12494;12483;12488] L) 13098 [12495;12452;12484] L)) 13099 [12495;12442;12540;12475;12531;12488]
(T
(T
(T L 13100 [12495;12442;12540;12484] L) 13101 [12495;12441;12540;12524;12523] L) 13102 [12498;12442;12450;12473;12488;12523]
(T L 13103 [12498;12442;12463;12523] L)))) 13104 [12498;12442;12467]
(T
(T
(T
(T
(T L 13105 [12498;12441;12523] L) 13106 [12501;12449;12521;12483;12488;12441] L) 13107 [12501;12451;12540;12488]
(T
(T L 13108 [12501;12441;12483;12471;12455;12523] L) 13109 [12501;12521;12531] L)) 13110 [12504;12463;12479;12540;12523]
(T
(T
(T L 13111 [12504;12442;12477] L) 13112 [12504;12442;12491;12498] L) 13113 [12504;12523;12484]
(T
(T L 13114 [12504;12442;12531;12473] L) 13115 [12504;12442;12540;12471;12441] L))) 13116 [12504;12441;12540;12479]
(T
(T
(T
(T L 13117 [12507;12442;12452;12531;12488] L) 13118 [12507;12441;12523;12488] L) 13119 [12507;12531]
(T
(T L 13120 [12507;12442;12531;12488;12441] L) 13121 [12507;12540;12523] L)) 13122 [12507;12540;12531]
(T
(T
(T L 13123 [12510;12452;12463;12525] L) 13124 [12510;12452;12523] L) 13125 [12510;12483;12495]
(T L 13126 [12510;12523;12463] L))))) 13127 [12510;12531;12471;12519;12531]
(T
(T
(T
(T
(T
(T L 13128 [12511;12463;12525;12531] L) 13129 [12511;12522] L) 13130 [12511;12522;12495;12441;12540;12523]
(T
(T L 13131 [12513;12459;12441] L) 13132 [12513;12459;12441;12488;12531] L)) 13133 [12513;12540;12488;12523]
(T
(T
(T L 13134 [12516;12540;12488;12441] L) 13135 [12516;12540;12523] L) 13136 [12518;12450;12531]
(T
(T L 13137 [12522;12483;12488;12523] L) 13138 [12522;12521] L))) 13139 [12523;12498;12442;12540]
(T
(T
(T
(T L 13140 [12523;12540;12501;12441;12523] L) 13141 [12524;12512] L) 13142 [12524;12531;12488;12465;12441;12531]
(T
(T L 13143 [12527;12483;12488] L) 13144 [48;28857] L)) 13145 [49;28857]
(T
(T
(T L 13146 [50;28857] L) 13147 [51;28857] L) 13148 [52;28857]
(T L 13149 [53;28857] L)))) 13150 [54;28857]
(T
(T
(T
(T
(T L 13151 [55;28857] L) 13152 [56;28857] L) 13153 [57;28857]
(T
(T L 13154 [49;48;28857] L) 13155 [49;49;28857] L)) 13156 [49;50;28857]
(T
(T
(T L 13157 [49;51;28857] L) 13158 [49;52;28857] L) 13159 [49;53;28857]
(T L 13160 [49;54;28857] L))) 13161 [49;55;28857]
(T
(T
(T
(T L 13162 [49;56;28857] L) 13163 [49;57;28857] L) 13164 [50;48;28857]
(T
(T L 13165 [50;49;28857] L) 13166 [50;50;28857] L)) 13167 [50;51;28857]
(T
(T
(T L 13168 [50;52;28857] L) 13169 [104;80;97] L) 13170 [100;97]
(T L 13171 [65;85] L))))))))) 13172 [98;97;114]
(T
(T
(T
(T
(T
(T
(T
(T
(T
(T L 13173 [111;86] L) 13174 [112;99] L) 13175 [100;109]
(T
(T L 13176 [100;109;50] L) 13177 [100;109;51] L)) 13178 [73;85]
(T
(T
(T L 13179 [24179;25104] L) 13180 [26157;21644] L) 13181 [22823;27491]
(T
(T L 13182 [26126;27835] L) 13183 [26666;24335;20250;31038] L))) 13184 [112;65]
(T
(T
(T
(T L 13185 [110;65] L) 13186 [956;65] L) 13187 [109;65]
(T
(T L 13188 [107;65] L) 13189 [75;66] L)) 13190 [77;66]
(T
(T
(T L 13191 [71;66] L) 13192 [99;97;108] L) 13193 [107;99;97;108]
(T L 13194 [112;70] L)))) 13195 [110;70]
(T
(T
(T
(T
(T L 13196 [956;70] L) 13197 [956;103] L) 13198 [109;103]
(T
(T L 13199 [107;103] L) 13200 [72;122] L)) 13201 [107;72;122]
(T
(T
(T L 13202 [77;72;122] L) 13203 [71;72;122] L) 13204 [84;72;122]
(T
(T L 13205 [956;108] L) 13206 [109;108] L))) 13207 [100;108]
(T
(T
(T
(T L 13208 [107;108] L) 13209 [102;109] L) 13210 [110;109]
(T
(T L 13211 [956;109] L) 13212 [109;109] L)) 13213 [99;109]
(T
(T
(T L 13214 [107;109] L) 13215 [109;109;50] L) 13216 [99;109;50]
(T L 13217 [109;50] L))))) 13218 [107;109;50]
(T
(T
(T
(T
(T
(T L 13219 [109;109;51] L) 13220 [99;109;51] L) 13221 [109;51]
(T
(T L 13222 [107;109;51] L) 13223 [109;8725;115] L)) 13224 [109;8725;115;50]
(T
(T
(T L 13225 [80;97] L) 13226 [107;80;97] L) 13227 [77;80;97]
(T
(T L 13228 [71;80;97] L) 13229 [114;97;100] L))) 13230 [114;97;100;8725;115]
(T
(T
(T
(T L 13231 [114;97;100;8725;115;50] L) 13232 [112;115] L) 13233 [110;115]
(T
(T L 13234 [956;115] L) 13235 [109;115] L)) 13236 [112;86]
(T
(T
(T L 13237 [110;86] L) 13238 [956;86] L) 13239 [109;86]
(T L 13240 [107;86] L)))) 13241 [77;86]
(T
(T
(T
(T
(T L 13242 [112;87] L) 13243 [110;87] L) 13244 [956;87]
(T
(T L 13245 [109;87] L) 13246 [107;87] L)) 13247 [77;87]
(T
(T
(T L 13248 [107;937] L) 13249 [77;937] L) 13250 [97;46;109;46]
(T
(T L 13251 [66;113] L) 13252 [99;99] L))) 13253 [99;100]
(T
(T
(T
(T L 13254 [67;8725;107;103] L) 13255 [67;111;46] L) 13256 [100;66]
(T
(T L 13257 [71;121] L) 13258 [104;97] L)) 13259 [72;80]
(T
(T
(T L 13260 [105;110] L) 13261 [75;75] L) 13262 [75;77]
(T L 13263 [107;116] L)))))) 13264 [108;109]
(T
(T
(T
(T
(T
(T
(T L 13265 [108;110] L) 13266 [108;111;103] L) 13267 [108;120]
(T
(T L 13268 [109;98] L) 13269 [109;105;108] L)) 13270 [109;111;108]
(T
(T
(T L 13271 [80;72] L) 13272 [112;46;109;46] L) 13273 [80;80;77]
(T
(T L 13274 [80;82] L) 13275 [115;114] L))) 13276 [83;118]
(T
(T
(T
(T L 13277 [87;98] L) 13278 [86;8725;109] L) 13279 [65;8725;109]
(T
(T L 13280 [49;26085] L) 13281 [50;26085] L)) 13282 [51;26085]
(T
(T
(T L 13283 [52;26085] L) 13284 [53;26085] L) 13285 [54;26085]
(T L 13286 [55;26085] L)))) 13287 [56;26085]
(T
(T
(T
(T
(T L 13288 [57;26085] L) 13289 [49;48;26085] L) 13290 [49;49;26085]
(T
(T L 13291 [49;50;26085] L) 13292 [49;51;26085] L)) 13293 [49;52;26085]
(T
(T
(T L 13294 [49;53;26085] L) 13295 [49;54;26085] L) 13296 [49;55;26085]
(T
(T L 13297 [49;56;26085] L) 13298 [49;57;26085] L))) 13299 [50;48;26085]
(T
(T
(T
(T L 13300 [50;49;26085] L) 13301 [50;50;26085] L) 13302 [50;51;26085]
(T
(T L 13303 [50;52;26085] L) 13304 [50;53;26085] L)) 13305 [50;54;26085]
(T
(T
(T L 13306 [50;55;26085] L) 13307 [50;56;26085] L) 13308 [50;57;26085]
(T L 13309 [51;48;26085] L))))) 13310 [51;49;26085]
(T
(T
(T
(T
(T
(T L 13311 [103;97;108] L) 42652 [1098] L) 42653 [1100]
(T
(T L 42864 [42863] L) 42994 [67] L)) 42995 [70]
(T
(T
(T L 42996 [81] L) 43000 [294] L) 43001 [339]
(T
(T L 43868 [42791] L) 43869 [43831] L))) 43870 [619]
(T
(T
(T
(T L 43871 [43858] L) 43881 [653] L) 63744 [35912]
(T
(T L 63745 [26356] L) 63746 [36554] L)) 63747 [36040]
(T
(T
(T L 63748 [28369] L) 63749 [20018] L) 63750 [21477]
(T L 63751 [40860] L)))) 63752 [40860]
(T
(T
(T
(T
(T L 63753 [22865] L) 63754 [37329] L) 63755 [21895]
(T
(T L 63756 [22856] L) 63757 [25078] L)) 63758 [30313]
(T
(T
(T L 63759 [32645] L) 63760 [34367] L) 63761 [34746]
(T L 63762 [35064] L))) 63763 [37007]
(T
(T
(T
(T L 63764 [27138] L) 63765 [27931] L) 63766 [28889]
(T
(T L 63767 [29662] L) 63768 [33853] L)) 63769 [37226]
(T
(T
(T L 63770 [39409] L) 63771 [20098] L) 63772 [21365]
(T L 63773 [27396] L))))))) 63774 [29211]
(T
(T
(T
(T
(T
(T
(T
(T L 63775 [34349] L) 63776 [40478] L) 63777 [23888]
(T
(T L 63778 [28651] L) 63779 [34253] L)) 63780 [35172]
(T
(T
(T L 63781 [25289] L) 63782 [33240] L) 63783 [34847]
(T
(T L 63784 [24266] L) 63785 [26391] L))) 63786 [28010]
(T
(T
(T
(T L 63787 [29436] L) 63788 [37070] L) 63789 [20358]
(T
(T L 63790 [20919] L) 63791 [21214] L)) 63792 [25796]
(T
(T
(T L 63793 [27347] L) 63794 [29200] L) 63795 [30439]
(T L 63796 [32769] L)))) 63797 [34310]
(T
(T
(T
(T
(T L 63798 [34396] L) 63799 [36335] L) 63800 [38706]
(T
(T L 63801 [39791] L) 63802 [40442] L)) 63803 [30860]
(T
(T
(T L 63804 [31103] L) 63805 [32160] L) 63806 [33737]
(T
(T L 63807 [37636] L) 63808 [40575] L))) 63809 [35542]
(T
(T
(T
(T L 63810 [22751] L) 63811 [24324] L) 63812 [31840]
(T
(T L 63813 [32894] L) 63814 [29282] L)) 63815 [30922]
(T
(T
(T L 63816 [36034] L) 63817 [38647] L) 63818 [22744]
(T L 63819 [23650] L))))) 63820 [27155]
(T
(T
(T
(T
(T
(T L 63821 [28122] L) 63822 [28431] L) 63823 [32047]
(T
(T L 63824 [32311] L) 63825 [38475] L)) 63826 [21202]
(T
(T
(T L 63827 [32907] L) 63828 [20956] L) 63829 [20940]
(T
(T L 63830 [31260] L) 63831 [32190] L))) 63832 [33777]
(T
(T
(T
(T L 63833 [38517] L) 63834 [35712] L) 63835 [25295]
(T
(T L 63836 [27138] L) 63837 [35582] L)) 63838 [20025]
(T
(T
(T L 63839 [23527] L) 63840 [24594] L) 63841 [29575]
(T L 63842 [30064] L)))) 63843 [21271]
(T
(T
(T
(T
(T L 63844 [30971] L) 63845 [20415] L) 63846 [24489]
(T
(T L 63847 [19981] L) 63848 [27852] L)) 63849 [25976]
(T
(T
(T L 63850 [32034] L) 63851 [21443] L) 63852 [22622]
(T
(T L 63853 [30465] L) 63854 [33865] L))) 63855 [35498]
(T
(T
(T
(T L 63856 [27578] L) 63857 [36784] L) 63858 [27784]
(T
(T L 63859 [25342] L) 63860 [33509] L)) 63861 [25504]
(T
(T
(T L 63862 [30053] L) 63863 [20142] L) 63864 [20841]
(T L 63865 [20937] L)))))) 63866 [26753]
(T
(T
(T
(T
(T
(T
(T L 63867 [31975] L) 63868 [33391] L) 63869 [35538]
(T
(T L 63870 [37327] L) 63871 [21237] L)) 63872 [21570]
(T
(T
(T L 63873 [22899] L) 63874 [24300] L) 63875 [26053]
(T
(T L 63876 [28670] L) 63877 [31018] L))) 63878 [38317]
(T
(T
(T
(T L 63879 [39530] L) 63880 [40599] L) 63881 [40654]
(T
(T L 63882 [21147] L) 63883 [26310] L)) 63884 [27511]
(T
(T
(T L 63885 [36706] L) 63886 [24180] L) 63887 [24976]
(T L 63888 [25088] L)))) 63889 [25754]
(T
(T
(T
(T
(T L 63890 [28451] L) 63891 [29001] L) 63892 [29833]
(T
(T L 63893 [31178] L) 63894 [32244] L)) 63895 [32879]
(T
(T
(T L 63896 [36646] L) 63897 [34030] L) 63898 [36899]
(T
(T L 63899 [37706] L) 63900 [21015] L))) 63901 [21155]
(T
(T
(T
(T L 63902 [21693] L) 63903 [28872] L) 63904 [35010]
(T
(T L 63905 [35498] L) 63906 [24265] L)) 63907 [24565]
(T
(T
(T L 63908 [25467] L) 63909 [27566] L) 63910 [31806]
(T L 63911 [29557] L))))) 63912 [20196]
(T
(T
(T
(T
(T
(T L 63913 [22265] L) 63914 [23527] L) 63915 [23994]
(T
(T L 63916 [24604] L) 63917 [29618] L)) 63918 [29801]
(T
(T
(T L 63919 [32666] L) 63920 [32838] L) 63921 [37428]
(T
(T L 63922 [38646] L) 63923 [38728] L))) 63924 [38936]
(T
(T
(T
(T L 63925 [20363] L) 63926 [31150] L) 63927 [37300]
(T
(T L 63928 [38584] L) 63929 [24801] L)) 63930 [20102]
(T
(T
(T L 63931 [20698] L) 63932 [23534] L) 63933 [23615]
(T L 63934 [26009] L)))) 63935 [27138]
(T
(T
(T
(T
(T L 63936 [29134] L) 63937 [30274] L) 63938 [34044]
(T
(T L 63939 [36988] L) 63940 [40845] L)) 63941 [26248]
(T
(T
(T L 63942 [38446] L) 63943 [21129] L) 63944 [26491]
(T L 63945 [26611] L))) 63946 [27969]
(T
(T
(T
(T L 63947 [28316] L) 63948 [29705] L) 63949 [30041]
(T
(T L 63950 [30827] L) 63951 [32016] L)) 63952 [39006]
(T
(T
(T L 63953 [20845] L) 63954 [25134] L) 63955 [38520]
(T L 63956 [20523] L)))))))) 63957 [23833]
(T
(T
(T
(T
(T
(T
(T
(T
(T L 63958 [28138] L) 63959 [36650] L) 63960 [24459]
(T
(T L 63961 [24900] L) 63962 [26647] L)) 63963 [29575]
(T
(T
(T L 63964 [38534] L) 63965 [21033] L) 63966 [21519]
(T
(T L 63967 [23653] L) 63968 [26131] L))) 63969 [26446]
(T
(T
(T
(T L 63970 [26792] L) 63971 [27877] L) 63972 [29702]
(T
(T L 63973 [30178] L) 63974 [32633] L)) 63975 [35023]
(T
(T
(T L 63976 [35041] L) 63977 [37324] L) 63978 [38626]
(T L 63979 [21311] L)))) 63980 [28346]
(T
(T
(T
(T
(T L 63981 [21533] L) 63982 [29136] L) 63983 [29848]
(T
(T L 63984 [34298] L) 63985 [38563] L)) 63986 [40023]
(T
(T
(T L 63987 [40607] L) 63988 [26519] L) 63989 [28107]
(T
(T L 63990 [33256] L) 63991 [31435] L))) 63992 [31520]
(T
(T
(T
(T L 63993 [31890] L) 63994 [29376] L) 63995 [28825]
(T
(T L 63996 [35672] L) 63997 [20160] L)) 63998 [33590]
(T
(T
(T L 63999 [21050] L) 64000 [20999] L) 64001 [24230]
(T L 64002 [25299] L))))) 64003 [31958]
(T
(T
(T
(T
(T
(T L 64004 [23429] L) 64005 [27934] L) 64006 [26292]
(T
(T L 64007 [36667] L) 64008 [34892] L)) 64009 [38477]
(T
(T
(T L 64010 [35211] L) 64011 [24275] L) 64012 [20800]
(T
(T L 64013 [21952] L) 64016 [22618] L))) 64018 [26228]
(T
(T
(T
(T L 64021 [20958] L) 64022 [29482] L) 64023 [30410]
(T
(T L 64024 [31036] L) 64025 [31070] L)) 64026 [31077]
(T
(T
(T L 64027 [31119] L) 64028 [38742] L) 64029 [31934]
(T L 64030 [32701] L)))) 64032 [34322]
(T
(T
(T
(T
(T L 64034 [35576] L) 64037 [36920] L) 64038 [37117]
(T
(T L 64042 [39151] L) 64043 [39164] L)) 64044 [39208]
(T
(T
(T L 64045 [40372] L) 64046 [37086] L) 64047 [38583]
(T
(T L 64048 [20398] L) 64049 [20711] L))) 64050 [20813]
(T
(T
(T
(T L 64051 [21193] L) 64052 [21220] L) 64053 [21329]
(T
(T L 64054 [21917] L) 64055 [22022] L)) 64056 [22120]
(T
(T
(T L 64057 [22592] L) 64058 [22696] L) 64059 [23652]
(T L 64060 [23662] L)))))) 64061 [24724]
(T
(T
(T
(T
(T
(T
(T L 64062 [24936] L) 64063 [24974] L) 64064 [25074]
(T
(T L 64065 [25935] L) 64066 [26082] L)) 64067 [26257]
(T
(T
(T L 64068 [26757] L) 64069 [28023] L) 64070 [28186]
(T
(T L 64071 [28450] L) 64072 [29038] L))) 64073 [29227]
(T
(T
(T
(T L 64074 [29730] L) 64075 [30865] L) 64076 [31038]
(T
(T L 64077 [31049] L) 64078 [31048] L)) 64079 [31056]
(T
(T
(T L 64080 [31062] L) 64081 [31069] L) 64082 [31117]
(T L 64083 [31118] L)))) 64084 [31296]
(T
(T
(T
(T
(T L 64085 [31361] L) 64086 [31680] L) 64087 [32244]
(T
(T L 64088 [32265] L) 64089 [32321] L)) 64090 [32626]
(T
(T
(T L 64091 [32773] L) 64092 [33261] L) 64093 [33401]
(T
(T L 64094 [33401] L) 64095 [33879] L))) 64096 [35088]
(T
(T
(T
(T L 64097 [35222] L) 64098 [35585] L) 64099 [35641]
(T
(T L 64100 [36051] L) 64101 [36104] L)) 64102 [36790]
(T
(T
(T L 64103 [36920] L) 64104 [38627] L) 64105 [38911]
(T L 64106 [38971] L))))) 64107 [24693]
(T
(T
(T
(T
(T
(T L 64108 [148206] L) 64109 [33304] L) 64112 [20006]
(T
(T L 64113 [20917] L) 64114 [20840] L)) 64115 [20352]
(T
(T
(T L 64116 [20805] L) 64117 [20864] L) 64118 [21191]
(T
(T L 64119 [21242] L) 64120 [21917] L))) 64121 [21845]
(T
(T
(T
(T L 64122 [21913] L) 64123 [21986] L) 64124 [22618]
(T
(T L 64125 [22707] L) 64126 [22852] L)) 64127 [22868]
(T
(T
(T L 64128 [23138] L) 64129 [23336] L) 64130 [24274]
(T L 64131 [24281] L)))) 64132 [24425]
(T
(T
(T
(T
(T L 64133 [24493] L) 64134 [24792] L) 64135 [24910]
(T
(T L 64136 [24840] L) 64137 [24974] L)) 64138 [24928]
(T
(T
(T L 64139 [25074] L) 64140 [25140] L) 64141 [25540]
(T L 64142 [25628] L))) 64143 [25682]
(T
(T
(T
(T L 64144 [25942] L) 64145 [26228] L) 64146 [26391]
(T
(T L 64147 [26395] L) 64148 [26454] L)) 64149 [27513]
(T
(T
(T L 64150 [27578] L) 64151 [27969] L) 64152 [28379]
(T L 64153 [28363] L))))))) 64154 [28450]
(T
(T
(T
(T
(T
(T
(T
(T L 64155 [28702] L) 64156 [29038] L) 64157 [30631]
(T
(T L 64158 [29237] L) 64159 [29359] L)) 64160 [29482]
(T
(T
(T L 64161 [29809] L) 64162 [29958] L) 64163 [30011]
(T
(T L 64164 [30237] L) 64165 [30239] L))) 64166 [30410]
(T
(T
(T
(T L 64167 [30427] L) 64168 [30452] L) 64169 [30538]
(T
(T L 64170 [30528] L) 64171 [30924] L)) 64172 [31409]
(T
(T
(T L 64173 [31680] L) 64174 [31867] L) 64175 [32091]
(T L 64176 [32244] L)))) 64177 [32574]
(T
(T
(T
(T
(T L 64178 [32773] L) 64179 [33618] L) 64180 [33775]
(T
(T L 64181 [34681] L) 64182 [35137] L)) 64183 [35206]
(T
(T
(T L 64184 [35222] L) 64185 [35519] L) 64186 [35576]
(T
(T L 64187 [35531] L) 64188 [35585] L))) 64189 [35582]
(T
(T
(T
(T L 64190 [35565] L) 64191 [35641] L) 64192 [35722]
(T
(T L 64193 [36104] L) 64194 [36664] L)) 64195 [36978]
(T
(T
(T L 64196 [37273] L) 64197 [37494] L) 64198 [38524]
(T L 64199 [38627] L))))) 64200 [38742]
(T
(T
(T
(T
(T
(T L 64201 [38875] L) 64202 [38911] L) 64203 [38923]
(T
(T L 64204 [38971] L) 64205 [39698] L)) 64206 [40860]
(T
(T
(T L 64207 [141386] L) 64208 [141380] L) 64209 [144341]
(T
(T L 64210 [15261] L) 64211 [16408] L))) 64212 [16441]
(T
(T
(T
(T L 64213 [152137] L) 64214 [154832] L) 64215 [163539]
(T
(T L 64216 [40771] L) 64217 [40846] L)) 64256 [102;102]
(T
(T
(T L 64257 [102;105] L) 64258 [102;108] L) 64259 [102;102;105]
(T L 64260 [102;102;108] L)))) 64261 [115;116]
(T
(T
(T
(T
(T L 64262 [115;116] L) 64275 [1396;1398] L) 64276 [1396;1381]
(T
(T L 64277 [1396;1387] L) 64278 [1406;1398] L)) 64279 [1396;1389]
(T
(T
(T L 64285 [1497;1460] L) 64287 [1522;1463] L) 64288 [1506]
(T
(T L 64289 [1488] L) 64290 [1491] L))) 64291 [1492]
(T
(T
(T
(T L 64292 [1499] L) 64293 [1500] L) 64294 [1501]
(T
(T L 64295 [1512] L) 64296 [1514] L)) 64297 [43]
(T
(T
(T L 64298 [1513;1473] L) 64299 [1513;1474] L) 64300 [1513;1468;1473]
(T L 64301 [1513;1468;1474] L)))))) 64302 [1488;1463]
(T
(T
(T
(T
(T
(T
(T L 64303 [1488;1464] L) 64304 [1488;1468] L) 64305 [1489;1468]
(T
(T L 64306 [1490;1468] L) 64307 [1491;1468] L)) 64308 [1492;1468]
(T
(T
(T L 64309 [1493;1468] L) 64310 [1494;1468] L) 64312 [1496;1468]
(T
(T L 64313 [1497;1468] L) 64314 [1498;1468] L))) 64315 [1499;1468]
(T
(T
(T
(T L 64316 [1500;1468] L) 64318 [1502;1468] L) 64320 [1504;1468]
(T
(T L 64321 [1505;1468] L) 64323 [1507;1468] L)) 64324 [1508;1468]
(T
(T
(T L 64326 [1510;1468] L) 64327 [1511;1468] L) 64328 [1512;1468]
(T L 64329 [1513;1468] L)))) 64330 [1514;1468]
(T
(T
(T
(T
(T L 64331 [1493;1465] L) 64332 [1489;1471] L) 64333 [1499;1471]
(T
(T L 64334 [1508;1471] L) 64335 [1488;1500] L)) 64336 [1649]
(T
(T
(T L 64337 [1649] L) 64338 [1659] L) 64339 [1659]
(T
(T L 64340 [1659] L) 64341 [1659] L))) 64342 [1662]
(T
(T
(T
(T L 64343 [1662] L) 64344 [1662] L) 64345 [1662]
(T
(T L 64346 [1664] L) 64347 [1664] L)) 64348 [1664]
(T
(T
(T L 64349 [1664] L) 64350 [1658] L) 64351 [1658]
(T L 64352 [1658] L))))) 64353 [1658]
(T
(T
(T
(T
(T
(T L 64354 [1663] L) 64355 [1663] L) 64356 [1663]
(T
(T L 64357 [1663] L) 64358 [1657] L)) 64359 [1657]
(T
(T
(T L 64360 [1657] L) 64361 [1657] L) 64362 [1700]
(T
(T L 64363 [1700] L) 64364 [1700] L))) 64365 [1700]
(T
(T
(T
(T L 64366 [1702] L) 64367 [1702] L) 64368 [1702]
(T
(T L 64369 [1702] L) 64370 [1668] L)) 64371 [1668]
(T
(T
(T L 64372 [1668] L) 64373 [1668] L) 64374 [1667]
(T L 64375 [1667] L)))) 64376 [1667]
(T
(T
(T
(T
(T L 64377 [1667] L) 64378 [1670] L) 64379 [1670]
(T
(T L 64380 [1670] L) 64381 [1670] L)) 64382 [1671]
(T
(T
(T L 64383 [1671] L) 64384 [1671] L) 64385 [1671]
(T L 64386 [1677] L))) 64387 [1677]
(T
(T
(T
(T L 64388 [1676] L) 64389 [1676] L) 64390 [1678]
(T
(T L 64391 [1678] L) 64392 [1672] L)) 64393 [1672]
(T
(T
(T L 64394 [1688] L) 64395 [1688] L) 64396 [1681]
(T L 64397 [1681] L))))))))))) 64398 [1705]
(T
(T
(T
(T
(T
(T
(T
(T
(T
(T
(T
(T L 64399 [1705] L) 64400 [1705] L) 64401 [1705]
(T
(T L 64402 [1711] L) 64403 [1711] L)) 64404 [1711]
(T
(T
(T L 64405 [1711] L) 64406 [1715] L) 64407 [1715]
(T
(T L 64408 [1715] L) 64409 [1715] L))) 64410 [1713]
(T
(T
(T
(T L 64411 [1713] L) 64412 [1713] L) 64413 [1713]
(T
(T L 64414 [1722] L) 64415 [1722] L)) 64416 [1723]
(T
(T
(T L 64417 [1723] L) 64418 [1723] L) 64419 [1723]
(T L 64420 [1749;1620] L)))) 64421 [1749;1620]
(T
(T
(T
(T
(T L 64422 [1729] L) 64423 [1729] L) 64424 [1729]
(T
(T L 64425 [1729] L) 64426 [1726] L)) 64427 [1726]
(T
(T
(T L 64428 [1726] L) 64429 [1726] L) 64430 [1746]
(T
(T L 64431 [1746] L) 64432 [1746;1620] L))) 64433 [1746;1620]
(T
(T
(T
(T L 64467 [1709] L) 64468 [1709] L) 64469 [1709]
(T
(T L 64470 [1709] L) 64471 [1735] L)) 64472 [1735]
(T
(T
(T L 64473 [1734] L) 64474 [1734] L) 64475 [1736]
(T L 64476 [1736] L))))) 64477 [1735;1652]
(T
(T
(T
(T
(T
(T L 64478 [1739] L) 64479 [1739] L) 64480 [1733]
(T
(T L 64481 [1733] L) 64482 [1737] L)) 64483 [1737]
(T
(T
(T L 64484 [1744] L) 64485 [1744] L) 64486 [1744]
(T
(T L 64487 [1744] L) 64488 [1609] L))) 64489 [1609]
(T
(T
(T
(T L 64490 [1610;1620;1575] L) 64491 [1610;1620;1575] L) 64492 [1610;1620;1749]
(T
(T L 64493 [1610;1620;1749] L) 64494 [1610;1620;1608] L)) 64495 [1610;1620;1608]
(T
(T
(T L 64496 [1610;1620;1735] L) 64497 [1610;1620;1735] L) 64498 [1610;1620;1734]
(T L 64499 [1610;1620;1734] L)))) 64500 [1610;1620;1736]
(T
(T
(T
(T
(T L 64501 [1610;1620;1736] L) 64502 [1610;1620;1744] L) 64503 [1610;1620;1744]
(T
(T L 64504 [1610;1620;1744] L) 64505 [1610;1620;1609] L)) 64506 [1610;1620;1609]
(T
(T
(T L 64507 [1610;1620;1609] L) 64508 [1740] L) 64509 [1740]
(T
(T L 64510 [1740] L) 64511 [1740] L))) 64512 [1610;1620;1580]
(T
(T
(T
(T L 64513 [1610;1620;1581] L) 64514 [1610;1620;1605] L) 64515 [1610;1620;1609]
(T
(T L 64516 [1610;1620;1610] L) 64517 [1576;1580] L)) 64518 [1576;1581]
(T
(T
(T L 64519 [1576;1582] L) 64520 [1576;1605] L) 64521 [1576;1609]
(T L 64522 [1576;1610] L)))))) 64523 [1578;1580]
(T
(T
(T
(T
(T
(T
(T L 64524 [1578;1581] L) 64525 [1578;1582] L) 64526 [1578;1605]
(T
(T L 64527 [1578;1609] L) 64528 [1578;1610] L)) 64529 [1579;1580]
(T
(T
(T L 64530 [1579;1605] L) 64531 [1579;1609] L) 64532 [1579;1610]
(T
(T L 64533 [1580;1581] L) 64534 [1580;1605] L))) 64535 [1581;1580]
(T
(T
(T
(T L 64536 [1581;1605] L) 64537 [1582;1580] L) 64538 [1582;1581]
(T
(T L 64539 [1582;1605] L) 64540 [1587;1580] L)) 64541 [1587;1581]
(T
(T
(T L 64542 [1587;1582] L) 64543 [1587;1605] L) 64544 [1589;1581]
(T L 64545 [1589;1605] L)))) 64546 [1590;1580]
(T
(T
(T
(T
(T L 64547 [1590;1581] L) 64548 [1590;1582] L) 64549 [1590;1605]
(T
(T L 64550 [1591;1581] L) 64551 [1591;1605] L)) 64552 [1592;1605]
(T
(T
(T L 64553 [1593;1580] L) 64554 [1593;1605] L) 64555 [1594;1580]
(T
(T L 64556 [1594;1605] L) 64557 [1601;1580] L))) 64558 [1601;1581]
(T
(T
(T
(T L 64559 [1601;1582] L) 64560 [1601;1605] L) 64561 [1601;1609]
(T
(T L 64562 [1601;1610] L) 64563 [1602;1581] L)) 64564 [1602;1605]
(T
(T
(T L 64565 [1602;1609] L) 64566 [1602;1610] L) 64567 [1603;1575]
(T L 64568 [1603;1580] L))))) 64569 [1603;1581]
(T
(T
(T
(T
(T
(T L 64570 [1603;1582] L) 64571 [1603;1604] L) 64572 [1603;1605]
(T
(T L 64573 [1603;1609] L) 64574 [1603;1610] L)) 64575 [1604;1580]
(T
(T
(T L 64576 [1604;1581] L) 64577 [1604;1582] L) 64578 [1604;1605]
(T
(T L 64579 [1604;1609] L) 64580 [1604;1610] L))) 64581 [1605;1580]
(T
(T
(T
(T L 64582 [1605;1581] L) 64583 [1605;1582] L) 64584 [1605;1605]
(T
(T L 64585 [1605;1609] L) 64586 [1605;1610] L)) 64587 [1606;1580]
(T
(T
(T L 64588 [1606;1581] L) 64589 [1606;1582] L) 64590 [1606;1605]
(T L 64591 [1606;1609] L)))) 64592 [1606;1610]
(T
(T
(T
(T
(T L 64593 [1607;1580] L) 64594 [1607;1605] L) 64595 [1607;1609]
(T
(T L 64596 [1607;1610] L) 64597 [1610;1580] L)) 64598 [1610;1581]
(T
(T
(T L 64599 [1610;1582] L) 64600 [1610;1605] L) 64601 [1610;1609]
(T
(T L 64602 [1610;1610] L) 64603 [1584;1648] L))) 64604 [1585;1648]
(T
(T
(T
(T L 64605 [1609;1648] L) 64606 [32;1612;1617] L) 64607 [32;1613;1617]
(T
(T L 64608 [32;1614;1617] L) 64609 [32;1615;1617] L)) 64610 [32;1616;1617]
(T
(T
(T L 64611 [32;1617;1648] L) 64612 [1610;1620;1585] L) 64613 [1610;1620;1586]
(T L 64614 [1610;1620;1605] L))))))) 64615 [1610;1620;1606]
(T
(T
(T
(T
(T
(T
(T
(T L 64616 [1610;1620;1609] L) 64617 [1610;1620;1610] L) 64618 [1576;1585]
(T
(T L 64619 [1576;1586] L) 64620 [1576;1605] L)) 64621 [1576;1606]
(T
(T
(T L 64622 [1576;1609] L) 64623 [1576;1610] L) 64624 [1578;1585]
(T
(T L 64625 [1578;1586] L) 64626 [1578;1605] L))) 64627 [1578;1606]
(T
(T
(T
(T L 64628 [1578;1609] L) 64629 [1578;1610] L) 64630 [1579;1585]
(T
(T L 64631 [1579;1586] L) 64632 [1579;1605] L)) 64633 [1579;1606]
(T
(T
(T L 64634 [1579;1609] L) 64635 [1579;1610] L) 64636 [1601;1609]
(T L 64637 [1601;1610] L)))) 64638 [1602;1609]
(T
(T
(T
(T
(T L 64639 [1602;1610] L) 64640 [1603;1575] L) 64641 [1603;1604]
(T
(T L 64642 [1603;1605] L) 64643 [1603;1609] L)) 64644 [1603;1610]
(T
(T
(T L 64645 [1604;1605] L) 64646 [1604;1609] L) 64647 [1604;1610]
(T
(T L 64648 [1605;1575] L) 64649 [1605;1605] L))) 64650 [1606;1585]
(T
(T
(T
(T L 64651 [1606;1586] L) 64652 [1606;1605] L) 64653 [1606;1606]
(T
(T L 64654 [1606;1609] L) 64655 [1606;1610] L)) 64656 [1609;1648]
(T
(T
(T L 64657 [1610;1585] L) 64658 [1610;1586] L) 64659 [1610;1605]
(T L 64660 [1610;1606] L))))) 64661 [1610;1609]
(T
(T
(T
(T
(T
(T L 64662 [1610;1610] L) 64663 [1610;1620;1580] L) 64664 [1610;1620;1581]
(T
(T L 64665 [1610;1620;1582] L) 64666 [1610;1620;1605] L)) 64667 [1610;1620;1607]
(T
(T
(T L 64668 [1576;1580] L) 64669 [1576;1581] L) 64670 [1576;1582]
(T
(T L 64671 [1576;1605] L) 64672 [1576;1607] L))) 64673 [1578;1580]
(T
(T
(T
(T L 64674 [1578;1581] L) 64675 [1578;1582] L) 64676 [1578;1605]
(T
(T L 64677 [1578;1607] L) 64678 [1579;1605] L)) 64679 [1580;1581]
(T
(T
(T L 64680 [1580;1605] L) 64681 [1581;1580] L) 64682 [1581;1605]
(T L 64683 [1582;1580] L)))) 64684 [1582;1605]
(T
(T
(T
(T
(T L 64685 [1587;1580] L) 64686 [1587;1581] L) 64687 [1587;1582]
(T
(T L 64688 [1587;1605] L) 64689 [1589;1581] L)) 64690 [1589;1582]
(T
(T
(T L 64691 [1589;1605] L) 64692 [1590;1580] L) 64693 [1590;1581]
(T
(T L 64694 [1590;1582] L) 64695 [1590;1605] L))) 64696 [1591;1581]
(T
(T
(T
(T L 64697 [1592;1605] L) 64698 [1593;1580] L) 64699 [1593;1605]
(T
(T L 64700 [1594;1580] L) 64701 [1594;1605] L)) 64702 [1601;1580]
(T
(T
(T L 64703 [1601;1581] L) 64704 [1601;1582] L) 64705 [1601;1605]
(T L 64706 [1602;1581] L)))))) 64707 [1602;1605]
(T
(T
(T
(T
(T
(T
(T L 64708 [1603;1580] L) 64709 [1603;1581] L) 64710 [1603;1582]
(T
(T L 64711 [1603;1604] L) 64712 [1603;1605] L)) 64713 [1604;1580]
(T
(T
(T L 64714 [1604;1581] L) 64715 [1604;1582] L) 64716 [1604;1605]
(T
(T L 64717 [1604;1607] L) 64718 [1605;1580] L))) 64719 [1605;1581]
(T
(T
(T
(T L 64720 [1605;1582] L) 64721 [1605;1605] L) 64722 [1606;1580]
(T
(T L 64723 [1606;1581] L) 64724 [1606;1582] L)) 64725 [1606;1605]
(T
(T
(T L 64726 [1606;1607] L) 64727 [1607;1580] L) 64728 [1607;1605]
(T L 64729 [1607;1648] L)))) 64730 [1610;1580]
(T
(T
(T
(T
(T L 64731 [1610;1581] L) 64732 [1610;1582] L) 64733 [1610;1605]
(T
(T L 64734 [1610;1607] L) 64735 [1610;1620;1605] L)) 64736 [1610;1620;1607]
(T
(T
(T L 64737 [1576;1605] L) 64738 [1576;1607] L) 64739 [1578;1605]
(T
(T L 64740 [1578;1607] L) 64741 [1579;1605] L))) 64742 [1579;1607]
(T
(T
(T
(T L 64743 [1587;1605] L) 64744 [1587;1607] L) 64745 [1588;1605]
(T
(T L 64746 [1588;1607] L) 64747 [1603;1604] L)) 64748 [1603;1605]
(T
(T
(T L 64749 [1604;1605] L) 64750 [1606;1605] L) 64751 [1606;1607]
(T L 64752 [1610;1605] L))))) 64753 [1610;1607]
(T
(T
(T
(T
(T
(T L 64754 [1600;1614;1617] L) 64755 [1600;1615;1617] L) 64756 [1600;1616;1617]
(T
(T L 64757 [1591;1609] L) 64758 [1591;1610] L)) 64759 [1593;1609]
(T
(T
(T L 64760 [1593;1610] L) 64761 [1594;1609] L) 64762 [1594;1610]
(T
(T L 64763 [1587;1609] L) 64764 [1587;1610] L))) 64765 [1588;1609]
(T
(T
(T
(T L 64766 [1588;1610] L) 64767 [1581;1609] L) 64768 [1581;1610]
(T
(T L 64769 [1580;1609] L) 64770 [1580;1610] L)) 64771 [1582;1609]
(T
(T
(T L 64772 [1582;1610] L) 64773 [1589;1609] L) 64774 [1589;1610]
(T L 64775 [1590;1609] L)))) 64776 [1590;1610]
(T
(T
(T
(T
(T L 64777 [1588;1580] L) 64778 [1588;1581] L) 64779 [1588;1582]
(T
(T L 64780 [1588;1605] L) 64781 [1588;1585] L)) 64782 [1587;1585]
(T
(T
(T L 64783 [1589;1585] L) 64784 [1590;1585] L) 64785 [1591;1609]
(T L 64786 [1591;1610] L))) 64787 [1593;1609]
(T
(T
(T
(T L 64788 [1593;1610] L) 64789 [1594;1609] L) 64790 [1594;1610]
(T
(T L 64791 [1587;1609] L) 64792 [1587;1610] L)) 64793 [1588;1609]
(T
(T
(T L 64794 [1588;1610] L) 64795 [1581;1609] L) 64796 [1581;1610]
(T L 64797 [1580;1609] L)))))))) 64798 [1580;1610]
(T
(T
(T
(T
(T
(T
(T
(T
(T L 64799 [1582;1609] L) 64800 [1582;1610] L) 64801 [1589;1609]
(T
(T L 64802 [1589;1610] L) 64803 [1590;1609] L)) 64804 [1590;1610]
(T
(T
(T L 64805 [1588;1580] L) 64806 [1588;1581] L) 64807 [1588;1582]
(T
(T L 64808 [1588;1605] L) 64809 [1588;1585] L))) 64810 [1587;1585]
(T
(T
(T
(T L 64811 [1589;1585] L) 64812 [1590;1585] L) 64813 [1588;1580]
(T
(T L 64814 [1588;1581] L) 64815 [1588;1582] L)) 64816 [1588;1605]
(T
(T
(T L 64817 [1587;1607] L) 64818 [1588;1607] L) 64819 [1591;1605]
(T L 64820 [1587;1580] L)))) 64821 [1587;1581]
(T
(T
(T
(T
(T L 64822 [1587;1582] L) 64823 [1588;1580] L) 64824 [1588;1581]
(T
(T L 64825 [1588;1582] L) 64826 [1591;1605] L)) 64827 [1592;1605]
(T
(T
(T L 64828 [1575;1611] L) 64829 [1575;1611] L) 64848 [1578;1580;1605]
(T
(T L 64849 [1578;1581;1580] L) 64850 [1578;1581;1580] L))) 64851 [1578;1581;1605]
(T
(T
(T
(T L 64852 [1578;1582;1605] L) 64853 [1578;1605;1580] L) 64854 [1578;1605;1581]
(T
(T L 64855 [1578;1605;1582] L) 64856 [1580;1605;1581] L)) 64857 [1580;1605;1581]
(T
(T
(T L 64858 [1581;1605;1610] L) 64859 [1581;1605;1609] L) 64860 [1587;1581;1580]
(T L 64861 [1587;1580;1581] L))))) 64862 [1587;1580;1609]
(T
(T
(T
(T
(T
(T L 64863 [1587;1605;1581] L) 64864 [1587;1605;1581] L) 64865 [1587;1605;1580]
(T
(T L 64866 [1587;1605;1605] L) 64867 [1587;1605;1605] L)) 64868 [1589;1581;1581]
(T
(T
(T L 64869 [1589;1581;1581] L) 64870 [1589;1605;1605] L) 64871 [1588;1581;1605]
(T
(T L 64872 [1588;1581;1605] L) 64873 [1588;1580;1610] L))) 64874 [1588;1605;1582]
(T
(T
(T
(T L 64875 [1588;1605;1582] L) 64876 [1588;1605;1605] L) 64877 [1588;1605;1605]
(T
(T L 64878 [1590;1581;1609] L) 64879 [1590;1582;1605] L)) 64880 [1590;1582;1605]
(T
(T
(T L 64881 [1591;1605;1581] L) 64882 [1591;1605;1581] L) 64883 [1591;1605;1605]
(T L 64884 [1591;1605;1610] L)))) 64885 [1593;1580;1605]
(T
(T
(T
(T
(T L 64886 [1593;1605;1605] L) 64887 [1593;1605;1605] L) 64888 [1593;1605;1609]
(T
(T L 64889 [1594;1605;1605] L) 64890 [1594;1605;1610] L)) 64891 [1594;1605;1609]
(T
(T
(T L 64892 [1601;1582;1605] L) 64893 [1601;1582;1605] L) 64894 [1602;1605;1581]
(T
(T L 64895 [1602;1605;1605] L) 64896 [1604;1581;1605] L))) 64897 [1604;1581;1610]
(T
(T
(T
(T L 64898 [1604;1581;1609] L) 64899 [1604;1580;1580] L) 64900 [1604;1580;1580]
(T
(T L 64901 [1604;1582;1605] L) 64902 [1604;1582;1605] L)) 64903 [1604;1605;1581]
(T
(T
(T L 64904 [1604;1605;1581] L) 64905 [1605;1581;1580] L) 64906 [1605;1581;1605]
(T L 64907 [1605;1581;1610] L)))))) 64908 [1605;1580;1581]
(T
(T
(T
(T
(T
(T
(T L 64909 [1605;1580;1605] L) 64910 [1605;1582;1580] L) 64911 [1605;1582;1605]
(T
(T L 64914 [1605;1580;1582] L) 64915 [1607;1605;1580] L)) 64916 [1607;1605;1605]
(T
(T
(T L 64917 [1606;1581;1605] L) 64918 [1606;1581;1609] L) 64919 [1606;1580;1605]
(T
(T L 64920 [1606;1580;1605] L) 64921 [1606;1580;1609] L))) 64922 [1606;1605;1610]
(T
(T
(T
(T L 64923 [1606;1605;1609] L) 64924 [1610;1605;1605] L) 64925 [1610;1605;1605]
(T
(T L 64926 [1576;1582;1610] L) 64927 [1578;1580;1610] L)) 64928 [1578;1580;1609]
(T
(T
(T L 64929 [1578;1582;1610] L) 64930 [1578;1582;1609] L) 64931 [1578;1605;1610]
(T L 64932 [1578;1605;1609] L)))) 64933 [1580;1605;1610]
(T
(T
(T
(T
(T L 64934 [1580;1581;1609] L) 64935 [1580;1605;1609] L) 64936 [1587;1582;1609]
(T
(T L 64937 [1589;1581;1610] L) 64938 [1588;1581;1610] L)) 64939 [1590;1581;1610]
(T
(T
(T L 64940 [1604;1580;1610] L) 64941 [1604;1605;1610] L) 64942 [1610;1581;1610]
(T
(T L 64943 [1610;1580;1610] L) 64944 [1610;1605;1610] L))) 64945 [1605;1605;1610]
(T
(T
(T
(T L 64946 [1602;1605;1610] L) 64947 [1606;1581;1610] L) 64948 [1602;1605;1581]
(T
(T L 64949 [1604;1581;1605] L) 64950 [1593;1605;1610] L)) 64951 [1603;1605;1610]
(T
(T
(T L 64952 [1606;1580;1581] L) 64953 [1605;1582;1610] L) 64954 [1604;1580;1605]
(T L 64955 [1603;1605;1605] L))))) 64956 [1604;1580;1605]
(T
(T
(T
(T
(T
(T L 64957 [1606;1580;1581] L) 64958 [1580;1581;1610] L) 64959 [1581;1580;1610]
(T
(T L 64960 [1605;1580;1610] L) 64961 [1601;1605;1610] L)) 64962 [1576;1581;1610]
(T
(T
(T L 64963 [1603;1605;1605] L) 64964 [1593;1580;1605] L) 64965 [1589;1605;1605]
(T
(T L 64966 [1587;1582;1610] L) 64967 [1606;1580;1610] L))) 65008 [1589;1604;1746]
(T
(T
(T
(T L 65009 [1602;1604;1746] L) 65010 [1575;1604;1604;1607] L) 65011 [1575;1603;1576;1585]
(T
(T L 65012 [1605;1581;1605;1583] L) 65013 [1589;1604;1593;1605] L)) 65014 [1585;1587;1608;1604]
(T
(T
(T L 65015 [1593;1604;1610;1607] L) 65016 [1608;1587;1604;1605] L) 65017 [1589;1604;1609]
(T L 65018 [1589;1604;1609;32;1575;1604;1604;1607;32;1593;1604;1610;1607;32;1608;1587;1604;1605] L)))) 65019 [1580;1604;32;1580;1604;1575;1604;1607]
(T
(T
(T
(T
(T L 65020 [1585;1740;1575;1604] L) 65040 [44] L) 65041 [12289]
(T
(T L 65042 [12290] L) 65043 [58] L)) 65044 [59]
(T
(T
(T L 65045 [33] L) 65046 [63] L) 65047 [12310]
(T L 65048 [12311] L))) 65049 [46;46;46]
(T
(T
(T
(T L 65072 [46;46] L) 65073 [8212] L) 65074 [8211]
(T
(T L 65075 [95] L) 65076 [95] L)) 65077 [40]
(T
(T
(T L 65078 [41] L) 65079 [123] L) 65080 [125]
(T L 65081 [12308] L))))))) 65082 [12309]
(T
(T
(T
(T
(T
(T
(T
(T L 65083 [12304] L) 65084 [12305] L) 65085 [12298]
(T
(T L 65086 [12299] L) 65087 [12296] L)) 65088 [12297]
(T
(T
(T L 65089 [12300] L) 65090 [12301] L) 65091 [12302]
(T
(T L 65092 [12303] L) 65095 [91] L))) 65096 [93]
(T
(T
(T
(T L 65097 [32;773] L) 65098 [32;773] L) 65099 [32;773]
(T
(T L 65100 [32;773] L) 65101 [95] L)) 65102 [95]
(T
(T
(T L 65103 [95] L) 65104 [44] L) 65105 [12289]
(T L 65106 [46] L)))) 65108 [59]
(T
(T
(T
(T
(T L 65109 [58] L) 65110 [63] L) 65111 [33]
(T
(T L 65112 [8212] L) 65113 [40] L)) 65114 [41]
(T
(T
(T L 65115 [123] L) 65116 [125] L) 65117 [12308]
(T
(T L 65118 [12309] L) 65119 [35] L))) 65120 [38]
(T
(T
(T
(T L 65121 [42] L) 65122 [43] L) 65123 [45]
(T
(T L 65124 [60] L) 65125 [62] L)) 65126 [61]
(T
(T
(T L 65128 [92] L) 65129 [36] L) 65130 [37]
(T L 65131 [64] L))))) 65136 [32;1611]
(T
(T
(T
(T
(T
(T L 65137 [1600;1611] L) 65138 [32;1612] L) 65140 [32;1613]
(T
(T L 65142 [32;1614] L) 65143 [1600;1614] L)) 65144 [32;1615]
(T
(T
(T L 65145 [1600;1615] L) 65146 [32;1616] L) 65147 [1600;1616]
(T
(T L 65148 [32;1617] L) 65149 [1600;1617] L))) 65150 [32;1618]
(T
(T
(T
(T L 65151 [1600;1618] L) 65152 [1569] L) 65153 [1575;1619]
(T
(T L 65154 [1575;1619] L) 65155 [1575;1620] L)) 65156 [1575;1620]
(T
(T
(T L 65157 [1608;1620] L) 65158 [1608;1620] L) 65159 [1575;1621]
(T L 65160 [1575;1621] L)))) 65161 [1610;1620]
(T
(T
(T
(T
(T L 65162 [1610;1620] L) 65163 [1610;1620] L) 65164 [1610;1620]
(T
(T L 65165 [1575] L) 65166 [1575] L)) 65167 [1576]
(T
(T
(T L 65168 [1576] L) 65169 [1576] L) 65170 [1576]
(T
(T L 65171 [1577] L) 65172 [1577] L))) 65173 [1578]
(T
(T
(T
(T L 65174 [1578] L) 65175 [1578] L) 65176 [1578]
(T
(T L 65177 [1579] L) 65178 [1579] L)) 65179 [1579]
(T
(T
(T L 65180 [1579] L) 65181 [1580] L) 65182 [1580]
(T L 65183 [1580] L)))))) 65184 [1580]
(T
(T
(T
(T
(T
(T
(T L 65185 [1581] L) 65186 [1581] L) 65187 [1581]
(T
(T L 65188 [1581] L) 65189 [1582] L)) 65190 [1582]
(T
(T
(T L 65191 [1582] L) 65192 [1582] L) 65193 [1583]
(T
(T L 65194 [1583] L) 65195 [1584] L))) 65196 [1584]
(T
(T
(T
(T L 65197 [1585] L) 65198 [1585] L) 65199 [1586]
(T
(T L 65200 [1586] L) 65201 [1587] L)) 65202 [1587]
(T
(T
(T L 65203 [1587] L) 65204 [1587] L) 65205 [1588]
(T L 65206 [1588] L)))) 65207 [1588]
(T
(T
(T
(T
(T L 65208 [1588] L) 65209 [1589] L) 65210 [1589]
(T
(T L 65211 [1589] L) 65212 [1589] L)) 65213 [1590]
(T
(T
(T L 65214 [1590] L) 65215 [1590] L) 65216 [1590]
(T
(T L 65217 [1591] L) 65218 [1591] L))) 65219 [1591]
(T
(T
(T
(T L 65220 [1591] L) 65221 [1592] L) 65222 [1592]
(T
(T L 65223 [1592] L) 65224 [1592] L)) 65225 [1593]
(T
(T
(T L 65226 [1593] L) 65227 [1593] L) 65228 [1593]
(T L 65229 [1594] L))))) 65230 [1594]
(T
(T
(T
(T
(T
(T L 65231 [1594] L) 65232 [1594] L) 65233 [1601]
(T
(T L 65234 [1601] L) 65235 [1601] L)) 65236 [1601]
(T
(T
(T L 65237 [1602] L) 65238 [1602] L) 65239 [1602]
(T
(T L 65240 [1602] L) 65241 [1603] L))) 65242 [1603]
(T
(T
(T
(T L 65243 [1603] L) 65244 [1603] L) 65245 [1604]
(T
(T L 65246 [1604] L) 65247 [1604] L)) 65248 [1604]
(T
(T
(T L 65249 [1605] L) 65250 [1605] L) 65251 [1605]
(T L 65252 [1605] L)))) 65253 [1606]
(T
(T
(T
(T
(T L 65254 [1606] L) 65255 [1606] L) 65256 [1606]
(T
(T L 65257 [1607] L) 65258 [1607] L)) 65259 [1607]
(T
(T
(T L 65260 [1607] L) 65261 [1608] L) 65262 [1608]
(T L 65263 [1609] L))) 65264 [1609]
(T
(T
(T
(T L 65265 [1610] L) 65266 [1610] L) 65267 [1610]
(T
(T L 65268 [1610] L) 65269 [1604;1575;1619] L)) 65270 [1604;1575;1619]
(T
(T
(T L 65271 [1604;1575;1620] L) 65272 [1604;1575;1620] L) 65273 [1604;1575;1621]
(T L 65274 [1604;1575;1621] L))))))))) 65275 [1604;1575]
(T
(T
(T
(T
(T
(T
(T
(T
(T
(T L 65276 [1604;1575] L) 65281 [33] L) 65282 [34]
(T
(T L 65283 [35] L) 65284 [36] L)) 65285 [37]
(T
(T
(T L 65286 [38] L) 65287 [39] L) 65288 [40]
(T
(T L 65289 [41] L) 65290 [42] L))) 65291 [43]
(T
(T
(T
(T L 65292 [44] L) 65293 [45] L) 65294 [46]
(T
(T L 65295 [47] L) 65296 [48] L)) 65297 [49]
(T
(T
(T L 65298 [50] L) 65299 [51] L) 65300 [52]
(T L 65301 [53] L)))) 65302 [54]
(T
(T
(T
(T
(T L 65303 [55] L) 65304 [56] L) 65305 [57]
(T
(T L 65306 [58] L) 65307 [59] L)) 65308 [60]
(T
(T
(T L 65309 [61] L) 65310 [62] L) 65311 [63]
(T
(T L 65312 [64] L) 65313 [65] L))) 65314 [66]
(T
(T
(T
(T L 65315 [67] L) 65316 [68] L) 65317 [69]
(T
(T L 65318 [70] L) 65319 [71] L)) 65320 [72]
(T
(T
(T L 65321 [73] L) 65322 [74] L) 65323 [75]
(T L 65324 [76] L))))) 65325 [77]
(T
(T
(T
(T
(T
(T L 65326 [78] L) 65327 [79] L) 65328 [80]
(T
(T L 65329 [81] L) 65330 [82] L)) 65331 [83]
(T
(T
(T L 65332 [84] L) 65333 [85] L) 65334 [86]
(T
(T L 65335 [87] L) 65336 [88] L))) 65337 [89]
(T
(T
(T
(T L 65338 [90] L) 65339 [91] L) 65340 [92]
(T
(T L 65341 [93] L) 65342 [94] L)) 65343 [95]
(T
(T
(T L 65344 [96] L) 65345 [97] L) 65346 [98]
(T L 65347 [99] L)))) 65348 [100]
(T
(T
(T
(T
(T L 65349 [101] L) 65350 [102] L) 65351 [103]
(T
(T L 65352 [104] L) 65353 [105] L)) 65354 [106]
(T
(T
(T L 65355 [107] L) 65356 [108] L) 65357 [109]
(T
(T L 65358 [110] L) 65359 [111] L))) 65360 [112]
(T
(T
(T
(T L 65361 [113] L) 65362 [114] L) 65363 [115]
(T
(T L 65364 [116] L) 65365 [117] L)) 65366 [118]
(T
(T
(T L 65367 [119] L) 65368 [120] L) 65369 [121]
(T L 65370 [122] L)))))) 65371 [123]
(T
(T
(T
(T
(T
(T
(T L 65372 [124] L) 65373 [125] L) 65374 [126]
(T
(T L 65375 [10629] L) 65376 [10630] L)) 65377 [12290]
(T
(T
(T L 65378 [12300] L) 65379 [12301] L) 65380 [12289]
(T
(T L 65381 [12539] L) 65382 [12530] L))) 65383 [12449]
(T
(T
(T
(T L 65384 [12451] L) 65385 [12453] L) 65386 [12455]
(T
(T L 65387 [12457] L) 65388 [12515] L)) 65389 [12517]
(T
(T
(T L 65390 [12519] L) 65391 [12483] L) 65392 [12540]
(T L 65393 [12450] L)))) 65394 [12452]
(T
(T
(T
(T
(T L 65395 [12454] L) 65396 [12456] L) 65397 [12458]
(T
(T L 65398 [12459] L) 65399 [12461] L)) 65400 [12463]
(T
(T
(T L 65401 [12465] L) 65402 [12467] L) 65403 [12469]
(T
(T L 65404 [12471] L) 65405 [12473] L))) 65406 [12475]
(T
(T
(T
(T L 65407 [12477] L) 65408 [12479] L) 65409 [12481]
(T
(T L 65410 [12484] L) 65411 [12486] L)) 65412 [12488]
(T
(T
(T L 65413 [12490] L) 65414 [12491] L) 65415 [12492]
(T L 65416 [12493] L))))) 65417 [12494]
(T
(T
(T
(T
(T
(T L 65418 [12495] L) 65419 [12498] L) 65420 [12501]
(T
(T L 65421 [12504] L) 65422 [12507] L)) 65423 [12510]
(T
(T
(T L 65424 [12511] L) 65425 [12512] L) 65426 [12513]
(T
(T L 65427 [12514] L) 65428 [12516] L))) 65429 [12518]
(T
(T
(T
(T L 65430 [12520] L) 65431 [12521] L) 65432 [12522]
(T
(T L 65433 [12523] L) 65434 [12524] L)) 65435 [12525]
(T
(T
(T L 65436 [12527] L) 65437 [12531] L) 65438 [12441]
(T L 65439 [12442] L)))) 65440 [4448]
(T
(T
(T
(T
(T L 65441 [4352] L) 65442 [4353] L) 65443 [4522]
(T
(T L 65444 [4354] L) 65445 [4524] L)) 65446 [4525]
(T
(T
(T L 65447 [4355] L) 65448 [4356] L) 65449 [4357]
(T L 65450 [4528] L))) 65451 [4529]
(T
(T
(T
(T L 65452 [4530] L) 65453 [4531] L) 65454 [4532]
(T
(T L 65455 [4533] L) 65456 [4378] L)) 65457 [4358]
(T
(T
(T L 65458 [4359] L) 65459 [4360] L) 65460 [4385]
(T L 65461 [4361] L))))))) 65462 [4362]
(T
(T
(T
(T
(T
(T
(T
(T L 65463 [4363] L) 65464 [4364] L) 65465 [4365]
(T
(T L 65466 [4366] L) 65467 [4367] L)) 65468 [4368]
(T
(T
(T L 65469 [4369] L) 65470 [4370] L) 65474 [4449]
(T
(T L 65475 [4450] L) 65476 [4451] L))) 65477 [4452]
(T
(T
(T
(T L 65478 [4453] L) 65479 [4454] L) 65482 [4455]
(T
(T L 65483 [4456] L) 65484 [4457] L)) 65485 [4458]
(T
(T
(T L 65486 [4459] L) 65487 [4460] L) 65490 [4461]
(T L 65491 [4462] L)))) 65492 [4463]
(T
(T
(T
(T
(T L 65493 [4464] L) 65494 [4465] L) 65495 [4466]
(T
(T L 65498 [4467] L) 65499 [4468] L)) 65500 [4469]
(T
(T
(T L 65504 [162] L) 65505 [163] L) 65506 [172]
(T
(T L 65507 [32;772] L) 65508 [166] L))) 65509 [165]
(T
(T
(T
(T L 65510 [8361] L) 65512 [9474] L) 65513 [8592]
(T
(T L 65514 [8593] L) 65515 [8594] L)) 65516 [8595]
(T
(T
(T L 65517 [9632] L) 65518 [9675] L) 67457 [720]
(T L 67458 [721] L))))) 67459 [230]
(T
(T
(T
(T
(T
(T L 67460 [665] L) 67461 [595] L) 67463 [675]
(T
(T L 67464 [43878] L) 67465 [677] L)) 67466 [676]
(T
(T
(T L 67467 [598] L) 67468 [599] L) 67469 [7569]
(T
(T L 67470 [600] L) 67471 [606] L))) 67472 [681]
(T
(T
(T
(T L 67473 [612] L) 67474 [610] L) 67475 [608]
(T
(T L 67476 [667] L) 67477 [295] L)) 67478 [668]
(T
(T
(T L 67479 [615] L) 67480 [644] L) 67481 [682]
(T L 67482 [683] L)))) 67483 [620]
(T
(T
(T
(T
(T L 67484 [122628] L) 67485 [42894] L) 67486 [622]
(T
(T L 67487 [122629] L) 67488 [654] L)) 67489 [122630]
(T
(T
(T L 67490 [248] L) 67491 [630] L) 67492 [631]
(T
(T L 67493 [113] L) 67494 [634] L))) 67495 [122632]
(T
(T
(T
(T L 67496 [637] L) 67497 [638] L) 67498 [640]
(T
(T L 67499 [680] L) 67500 [678] L)) 67501 [43879]
(T
(T
(T L 67502 [679] L) 67503 [648] L) 67504 [11377]
(T L 67506 [655] L)))))) 67507 [673]
(T
(T
(T
(T
(T
(T
(T L 67508 [674] L) 67509 [664] L) 67510 [448]
(T
(T L 67511 [449] L) 67512 [450] L)) 67513 [122634]
(T
(T
(T L 67514 [122654] L) 69786 [69785;69818] L) 69788 [69787;69818]
(T
(T L 69803 [69797;69818] L) 69934 [69937;69927] L))) 69935 [69938;69927]
(T
(T
(T
(T L 70475 [70471;70462] L) 70476 [70471;70487] L) 70843 [70841;70842]
(T
(T L 70844 [70841;70832] L) 70846 [70841;70845] L)) 71098 [71096;71087]
(T
(T
(T L 71099 [71097;71087] L) 71992 [71989;71984] L) 119134 [119127;119141]
(T L 119135 [119128;119141] L)))) 119136 [119128;119141;119150]
(T
(T
(T
(T
(T L 119137 [119128;119141;119151] L) 119138 [119128;119141;119152] L) 119139 [119128;119141;119153]
(T
(T L 119140 [119128;119141;119154] L) 119227 [119225;119141] L)) 119228 [119226;119141]
(T
(T
(T L 119229 [119225;119141;119150] L) 119230 [119226;119141;119150] L) 119231 [119225;119141;119151]
(T
(T L 119232 [119226;119141;119151] L) 119808 [65] L))) 119809 [66]
(T
(T
(T
(T L 119810 [67] L) 119811 [68] L) 119812 [69]
(T
(T L 119813 [70] L) 119814 [71] L)) 119815 [72]
(T
(T
(T L 119816 [73] L) 119817 [74] L) 119818 [75]
(T L 119819 [76] L))))) 119820 [77]
(T
(T
(T
(T
(T
(T L 119821 [78] L) 119822 [79] L) 119823 [80]
(T
(T L 119824 [81] L) 119825 [82] L)) 119826 [83]
(T
(T
(T L 119827 [84] L) 119828 [85] L) 119829 [86]
(T
(T L 119830 [87] L) 119831 [88] L))) 119832 [89]
(T
(T
(T
(T L 119833 [90] L) 119834 [97] L) 119835 [98]
(T
(T L 119836 [99] L) 119837 [100] L)) 119838 [101]
(T
(T
(T L 119839 [102] L) 119840 [103] L) 119841 [104]
(T L 119842 [105] L)))) 119843 [106]
(T
(T
(T
(T
(T L 119844 [107] L) 119845 [108] L) 119846 [109]
(T
(T L 119847 [110] L) 119848 [111] L)) 119849 [112]
(T
(T
(T L 119850 [113] L) 119851 [114] L) 119852 [115]
(T L 119853 [116] L))) 119854 [117]
(T
(T
(T
(T L 119855 [118] L) 119856 [119] L) 119857 [120]
(T
(T L 119858 [121] L) 119859 [122] L)) 119860 [65]
(T
(T
(T L 119861 [66] L) 119862 [67] L) 119863 [68]
(T L 119864 [69] L)))))))) 119865 [70]
(T
(T
(T
(T
(T
(T
(T
(T
(T L 119866 [71] L) 119867 [72] L) 119868 [73]
(T
(T L 119869 [74] L) 119870 [75] L)) 119871 [76]
(T
(T
(T L 119872 [77] L) 119873 [78] L) 119874 [79]
(T
(T L 119875 [80] L) 119876 [81] L))) 119877 [82]
(T
(T
(T
(T L 119878 [83] L) 119879 [84] L) 119880 [85]
(T
(T L 119881 [86] L) 119882 [87] L)) 119883 [88]
(T
(T
(T L 119884 [89] L) 119885 [90] L) 119886 [97]
(T L 119887 [98] L)))) 119888 [99]
(T
(T
(T
(T
(T L 119889 [100] L) 119890 [101] L) 119891 [102]
(T
(T L 119892 [103] L) 119894 [105] L)) 119895 [106]
(T
(T
(T L 119896 [107] L) 119897 [108] L) 119898 [109]
(T
(T L 119899 [110] L) 119900 [111] L))) 119901 [112]
(T
(T
(T
(T L 119902 [113] L) 119903 [114] L) 119904 [115]
(T
(T L 119905 [116] L) 119906 [117] L)) 119907 [118]
(T
(T
(T L 119908 [119] L) 119909 [120] L) 119910 [121]
(T L 119911 [122] L))))) 119912 [65]
(T
(T
(T
(T
(T
(T L 119913 [66] L) 119914 [67] L) 119915 [68]
(T
(T L 119916 [69] L) 119917 [70] L)) 119918 [71]
(T
(T
(T L 119919 [72] L) 119920 [73] L) 119921 [74]
(T
(T L 119922 [75] L) 119923 [76] L))) 119924 [77]
(T
(T
(T
(T L 119925 [78] L) 119926 [79] L) 119927 [80]
(T
(T L 119928 [81] L) 119929 [82] L)) 119930 [83]
(T
(T
(T L 119931 [84] L) 119932 [85] L) 119933 [86]
(T L 119934 [87] L)))) 119935 [88]
(T
(T
(T
(T
(T L 119936 [89] L) 119937 [90] L) 119938 [97]
(T
(T L 119939 [98] L) 119940 [99] L)) 119941 [100]
(T
(T
(T L 119942 [101] L) 119943 [102] L) 119944 [103]
(T
(T L 119945 [104] L) 119946 [105] L))) 119947 [106]
(T
(T
(T
(T L 119948 [107] L) 119949 [108] L) 119950 [109]
(T
(T L 119951 [110] L) 119952 [111] L)) 119953 [112]
(T
(T
(T L 119954 [113] L) 119955 [114] L) 119956 [115]
(T L 119957 [116] L)))))) 119958 [117]
(T
(T
(T
(T
(T
(T
(T L 119959 [118] L) 119960 [119] L) 119961 [120]
(T
(T L 119962 [121] L) 119963 [122] L)) 119964 [65]
(T
(T
(T L 119966 [67] L) 119967 [68] L) 119970 [71]
(T
(T L 119973 [74] L) 119974 [75] L))) 119977 [78]
(T
(T
(T
(T L 119978 [79] L) 119979 [80] L) 119980 [81]
(T
(T L 119982 [83] L) 119983 [84] L)) 119984 [85]
(T
(T
(T L 119985 [86] L) 119986 [87] L) 119987 [88]
(T L 119988 [89] L)))) 119989 [90]
(T
(T
(T
(T
(T L 119990 [97] L) 119991 [98] L) 119992 [99]
(T
(T L 119993 [100] L) 119995 [102] L)) 119997 [104]
(T
(T
(T L 119998 [105] L) 119999 [106] L) 120000 [107]
(T
(T L 120001 [108] L) 120002 [109] L))) 120003 [110]
(T
(T
(T
(T L 120005 [112] L) 120006 [113] L) 120007 [114]
(T
(T L 120008 [115] L) 120009 [116] L)) 120010 [117]
(T
(T
(T L 120011 [118] L) 120012 [119] L) 120013 [120]
(T L 120014 [121] L))))) 120015 [122]
(T
(T
(T
(T
(T
(T L 120016 [65] L) 120017 [66] L) 120018 [67]
(T
(T L 120019 [68] L) 120020 [69] L)) 120021 [70]
(T
(T
(T L 120022 [71] L) 120023 [72] L) 120024 [73]
(T
(T L 120025 [74] L) 120026 [75] L))) 120027 [76]
(T
(T
(T
(T L 120028 [77] L) 120029 [78] L) 120030 [79]
(T
(T L 120031 [80] L) 120032 [81] L)) 120033 [82]
(T
(T
(T L 120034 [83] L) 120035 [84] L) 120036 [85]
(T L 120037 [86] L)))) 120038 [87]
(T
(T
(T
(T
(T L 120039 [88] L) 120040 [89] L) 120041 [90]
(T
(T L 120042 [97] L) 120043 [98] L)) 120044 [99]
(T
(T
(T L 120045 [100] L) 120046 [101] L) 120047 [102]
(T L 120048 [103] L))) 120049 [104]
(T
(T
(T
(T L 120050 [105] L) 120051 [106] L) 120052 [107]
(T
(T L 120053 [108] L) 120054 [109] L)) 120055 [110]
(T
(T
(T L 120056 [111] L) 120057 [112] L) 120058 [113]
(T L 120059 [114] L))))))) 120060 [115]
(T
(T
(T
(T
(T
(T
(T
(T L 120061 [116] L) 120062 [117] L) 120063 [118]
(T
(T L 120064 [119] L) 120065 [120] L)) 120066 [121]
(T
(T
(T L 120067 [122] L) 120068 [65] L) 120069 [66]
(T
(T L 120071 [68] L) 120072 [69] L))) 120073 [70]
(T
(T
(T
(T L 120074 [71] L) 120077 [74] L) 120078 [75]
(T
(T L 120079 [76] L) 120080 [77] L)) 120081 [78]
(T
(T
(T L 120082 [79] L) 120083 [80] L) 120084 [81]
(T L 120086 [83] L)))) 120087 [84]
(T
(T
(T
(T
(T L 120088 [85] L) 120089 [86] L) 120090 [87]
(T
(T L 120091 [88] L) 120092 [89] L)) 120094 [97]
(T
(T
(T L 120095 [98] L) 120096 [99] L) 120097 [100]
(T
(T L 120098 [101] L) 120099 [102] L))) 120100 [103]
(T
(T
(T
(T L 120101 [104] L) 120102 [105] L) 120103 [106]
(T
(T L 120104 [107] L) 120105 [108] L)) 120106 [109]
(T
(T
(T L 120107 [110] L) 120108 [111] L) 120109 [112]
(T L 120110 [113] L))))) 120111 [114]
(T
(T
(T
(T
(T
(T L 120112 [115] L) 120113 [116] L) 120114 [117]
(T
(T L 120115 [118] L) 120116 [119] L)) 120117 [120]
(T
(T
(T L 120118 [121] L) 120119 [122] L) 120120 [65]
(T
(T L 120121 [66] L) 120123 [68] L))) 120124 [69]
(T
(T
(T
(T L 120125 [70] L) 120126 [71] L) 120128 [73]
(T
(T L 120129 [74] L) 120130 [75] L)) 120131 [76]
(T
(T
(T L 120132 [77] L) 120134 [79] L) 120138 [83]
(T L 120139 [84] L)))) 120140 [85]
(T
(T
(T
(T
(T L 120141 [86] L) 120142 [87] L) 120143 [88]
(T
(T L 120144 [89] L) 120146 [97] L)) 120147 [98]
(T
(T
(T L 120148 [99] L) 120149 [100] L) 120150 [101]
(T
(T L 120151 [102] L) 120152 [103] L))) 120153 [104]
(T
(T
(T
(T L 120154 [105] L) 120155 [106] L) 120156 [107]
(T
(T L 120157 [108] L) 120158 [109] L)) 120159 [110]
(T
(T
(T L 120160 [111] L) 120161 [112] L) 120162 [113]
(T L 120163 [114] L)))))) 120164 [115]
(T
(T
(T
(T
(T
(T
(T L 120165 [116] L) 120166 [117] L) 120167 [118]
(T
(T L 120168 [119] L) 120169 [120] L)) 120170 [121]
(T
(T
(T L 120171 [122] L) 120172 [65] L) 120173 [66]
(T
(T L 120174 [67] L) 120175 [68] L))) 120176 [69]
(T
(T
(T
(T L 120177 [70] L) 120178 [71] L) 120179 [72]
(T
(T L 120180 [73] L) 120181 [74] L)) 120182 [75]
(T
(T
(T L 120183 [76] L) 120184 [77] L) 120185 [78]
(T L 120186 [79] L)))) 120187 [80]
(T
(T
(T
(T
(T L 120188 [81] L) 120189 [82] L) 120190 [83]
(T
(T L 120191 [84] L) 120192 [85] L)) 120193 [86]
(T
(T
(T L 120194 [87] L) 120195 [88] L) 120196 [89]
(T
(T L 120197 [90] L) 120198 [97] L))) 120199 [98]
(T
(T
(T
(T L 120200 [99] L) 120201 [100] L) 120202 [101]
(T
(T L 120203 [102] L) 120204 [103] L)) 120205 [104]
(T
(T
(T L 120206 [105] L) 120207 [106] L) 120208 [107]
(T L 120209 [108] L))))) 120210 [109]
(T
(T
(T
(T
(T
(T L 120211 [110] L) 120212 [111] L) 120213 [112]
(T
(T L 120214 [113] L) 120215 [114] L)) 120216 [115]
(T
(T
(T L 120217 [116] L) 120218 [117] L) 120219 [118]
(T
(T L 120220 [119] L) 120221 [120] L))) 120222 [121]
(T
(T
(T
(T L 120223 [122] L) 120224 [65] L) 120225 [66]
(T
(T L 120226 [67] L) 120227 [68] L)) 120228 [69]
(T
(T
(T L 120229 [70] L) 120230 [71] L) 120231 [72]
(T L 120232 [73] L)))) 120233 [74]
(T
(T
(T
(T
(T L 120234 [75] L) 120235 [76] L) 120236 [77]
(T
(T L 120237 [78] L) 120238 [79] L)) 120239 [80]
(T
(T
(T L 120240 [81] L) 120241 [82] L) 120242 [83]
(T L 120243 [84] L))) 120244 [85]
(T
(T
(T
(T L 120245 [86] L) 120246 [87] L) 120247 [88]
(T
(T L 120248 [89] L) 120249 [90] L)) 120250 [97]
(T
(T
(T L 120251 [98] L) 120252 [99] L) 120253 [100]
(T L 120254 [101] L)))))))))) 120255 [102]
(T
(T
(T
(T
(T
(T
(T
(T
(T
(T
(T L 120256 [103] L) 120257 [104] L) 120258 [105]
(T
(T L 120259 [106] L) 120260 [107] L)) 120261 [108]
(T
(T
(T L 120262 [109] L) 120263 [110] L) 120264 [111]
(T
(T L 120265 [112] L) 120266 [113] L))) 120267 [114]
(T
(T
(T
(T L 120268 [115] L) 120269 [116] L) 120270 [117]
(T
(T L 120271 [118] L) 120272 [119] L)) 120273 [120]
(T
(T
(T L 120274 [121] L) 120275 [122] L) 120276 [65]
(T L 120277 [66] L)))) 120278 [67]
(T
(T
(T
(T
(T L 120279 [68] L) 120280 [69] L) 120281 [70]
(T
(T L 120282 [71] L) 120283 [72] L)) 120284 [73]
(T
(T
(T L 120285 [74] L) 120286 [75] L) 120287 [76]
(T
(T L 120288 [77] L) 120289 [78] L))) 120290 [79]
(T
(T
(T
(T L 120291 [80] L) 120292 [81] L) 120293 [82]
(T
(T L 120294 [83] L) 120295 [84] L)) 120296 [85]
(T
(T
(T L 120297 [86] L) 120298 [87] L) 120299 [88]
(T L 120300 [89] L))))) 120301 [90]
(T
(T
(T
(T
(T
(T L 120302 [97] L) 120303 [98] L) 120304 [99]
(T
(T L 120305 [100] L) 120306 [101] L)) 120307 [102]
(T
(T
(T L 120308 [103] L) 120309 [104] L) 120310 [105]
(T
(T L 120311 [106] L) 120312 [107] L))) 120313 [108]
(T
(T
(T
(T L 120314 [109] L) 120315 [110] L) 120316 [111]
(T
(T L 120317 [112] L) 120318 [113] L)) 120319 [114]
(T
(T
(T L 120320 [115] L) 120321 [116] L) 120322 [117]
(T L 120323 [118] L)))) 120324 [119]
(T
(T
(T
(T
(T L 120325 [120] L) 120326 [121] L) 120327 [122]
(T
(T L 120328 [65] L) 120329 [66] L)) 120330 [67]
(T
(T
(T L 120331 [68] L) 120332 [69] L) 120333 [70]
(T
(T L 120334 [71] L) 120335 [72] L))) 120336 [73]
(T
(T
(T
(T L 120337 [74] L) 120338 [75] L) 120339 [76]
(T
(T L 120340 [77] L) 120341 [78] L)) 120342 [79]
(T
(T
(T L 120343 [80] L) 120344 [81] L) 120345 [82]
(T L 120346 [83] L)))))) 120347 [84]
(T
(T
(T
(T
(T
(T
(T L 120348 [85] L) 120349 [86] L) 120350 [87]
(T
(T L 120351 [88] L) 120352 [89] L)) 120353 [90]
(T
(T
(T L 120354 [97] L) 120355 [98] L) 120356 [99]
(T
(T L 120357 [100] L) 120358 [101] L))) 120359 [102]
(T
(T
(T
(T L 120360 [103] L) 120361 [104] L) 120362 [105]
(T
(T L 120363 [106] L) 120364 [107] L)) 120365 [108]
(T
(T
(T L 120366 [109] L) 120367 [110] L) 120368 [111]
(T L 120369 [112] L)))) 120370 [113]
(T
(T
(T
(T
(T L 120371 [114] L) 120372 [115] L) 120373 [116]
(T
(T L 120374 [117] L) 120375 [118] L)) 120376 [119]
(T
(T
(T L 120377 [120] L) 120378 [121] L) 120379 [122]
(T
(T L 120380 [65] L) 120381 [66] L))) 120382 [67]
(T
(T
(T
(T L 120383 [68] L) 120384 [69] L) 120385 [70]
(T
(T L 120386 [71] L) 120387 [72] L)) 120388 [73]
(T
(T
(T L 120389 [74] L) 120390 [75] L) 120391 [76]
(T L 120392 [77] L))))) 120393 [78]
(T
(T
(T
(T
(T
(T L 120394 [79] L) 120395 [80] L) 120396 [81]
(T
(T L 120397 [82] L) 120398 [83] L)) 120399 [84]
(T
(T
(T L 120400 [85] L) 120401 [86] L) 120402 [87]
(T
(T L 120403 [88] L) 120404 [89] L))) 120405 [90]
(T
(T
(T
(T L 120406 [97] L) 120407 [98] L) 120408 [99]
(T
(T L 120409 [100] L) 120410 [101] L)) 120411 [102]
(T
(T
(T L 120412 [103] L) 120413 [104] L) 120414 [105]
(T L 120415 [106] L)))) 120416 [107]
(T
(T
(T
(T
(T L 120417 [108] L) 120418 [109] L) 120419 [110]
(T
(T L 120420 [111] L) 120421 [112] L)) 120422 [113]
(T
(T
(T L 120423 [114] L) 120424 [115] L) 120425 [116]
(T L 120426 [117] L))) 120427 [118]
(T
(T
(T
(T L 120428 [119] L) 120429 [120] L) 120430 [121]
(T
(T L 120431 [122] L) 120432 [65] L)) 120433 [66]
(T
(T
(T L 120434 [67] L) 120435 [68] L) 120436 [69]
(T L 120437 [70] L))))))) 120438 [71]
(T
(T
(T
(T
(T
(T
(T
(T L 120439 [72] L) 120440 [73] L) 120441 [74]
(T
(T L 120442 [75] L) 120443 [76] L)) 120444 [77]
(T
(T
(T L 120445 [78] L) 120446 [79] L) 120447 [80]
(T
(T L 120448 [81] L) 120449 [82] L))) 120450 [83]
(T
(T
(T
(T L 120451 [84] L) 120452 [85] L) 120453 [86]
(T
(T L 120454 [87] L) 120455 [88] L)) 120456 [89]
(T
(T
(T L 120457 [90] L) 120458 [97] L) 120459 [98]
(T L 120460 [99] L)))) 120461 [100]
(T
(T
(T
(T
(T L 120462 [101] L) 120463 [102] L) 120464 [103]
(T
(T L 120465 [104] L) 120466 [105] L)) 120467 [106]
(T
(T
(T L 120468 [107] L) 120469 [108] L) 120470 [109]
(T
(T L 120471 [110] L) 120472 [111] L))) 120473 [112]
(T
(T
(T
(T L 120474 [113] L) 120475 [114] L) 120476 [115]
(T
(T L 120477 [116] L) 120478 [117] L)) 120479 [118]
(T
(T
(T L 120480 [119] L) 120481 [120] L) 120482 [121]
(T L 120483 [122] L))))) 120484 [305]
(T
(T
(T
(T
(T
(T L 120485 [567] L) 120488 [913] L) 120489 [914]
(T
(T L 120490 [915] L) 120491 [916] L)) 120492 [917]
(T
(T
(T L 120493 [918] L) 120494 [919] L) 120495 [920]
(T
(T L 120496 [921] L) 120497 [922] L))) 120498 [923]
(T
(T
(T
(T L 120499 [924] L) 120500 [925] L) 120501 [926]
(T
(T L 120502 [927] L) 120503 [928] L)) 120504 [929]
(T
(T
(T L 120505 [920] L) 120506 [931] L) 120507 [932]
(T L 120508 [933] L)))) 120509 [934]
(T
(T
(T
(T
(T L 120510 [935] L) 120511 [936] L) 120512 [937]
(T
(T L 120513 [8711] L) 120514 [945] L)) 120515 [946]
(T
(T
(T L 120516 [947] L) 120517 [948] L) 120518 [949]
(T
(T L 120519 [950] L) 120520 [951] L))) 120521 [952]
(T
(T
(T
(T L 120522 [953] L) 120523 [954] L) 120524 [955]
(T
(T L 120525 [956] L) 120526 [957] L)) 120527 [958]
(T
(T
(T L 120528 [959] L) 120529 [960] L) 120530 [961]
(T L 120531 [962] L)))))) 120532 [963]
(T
(T
(T
(T
(T
(T
(T L 120533 [964] L) 120534 [965] L) 120535 [966]
(T
(T L 120536 [967] L) 120537 [968] L)) 120538 [969]
(T
(T
(T L 120539 [8706] L) 120540 [949] L) 120541 [952]
(T
(T L 120542 [954] L) 120543 [966] L))) 120544 [961]
(T
(T
(T
(T L 120545 [960] L) 120546 [913] L) 120547 [914]
(T
(T L 120548 [915] L) 120549 [916] L)) 120550 [917]
(T
(T
(T L 120551 [918] L) 120552 [919] L) 120553 [920]
(T L 120554 [921] L)))) 120555 [922]
(T
(T
(T
(T
(T L 120556 [923] L) 120557 [924] L) 120558 [925]
(T
(T L 120559 [926] L) 120560 [927] L)) 120561 [928]
(T
(T
(T L 120562 [929] L) 120563 [920] L) 120564 [931]
(T
(T L 120565 [932] L) 120566 [933] L))) 120567 [934]
(T
(T
(T
(T L 120568 [935] L) 120569 [936] L) 120570 [937]
(T
(T L 120571 [8711] L) 120572 [945] L)) 120573 [946]
(T
(T
(T L 120574 [947] L) 120575 [948] L) 120576 [949]
(T L 120577 [950] L))))) 120578 [951]
(T
(T
(T
(T
(T
(T L 120579 [952] L) 120580 [953] L) 120581 [954]
(T
(T L 120582 [955] L) 120583 [956] L)) 120584 [957]
(T
(T
(T L 120585 [958] L) 120586 [959] L) 120587 [960]
(T
(T L 120588 [961] L) 120589 [962] L))) 120590 [963]
(T
(T
(T
(T L 120591 [964] L) 120592 [965] L) 120593 [966]
(T
(T L 120594 [967] L) 120595 [968] L)) 120596 [969]
(T
(T
(T L 120597 [8706] L) 120598 [949] L) 120599 [952]
(T L 120600 [954] L)))) 120601 [966]
(T
(T
(T
(T
(T L 120602 [961] L) 120603 [960] L) 120604 [913]
(T
(T L 120605 [914] L) 120606 [915] L)) 120607 [916]
(T
(T
(T L 120608 [917] L) 120609 [918] L) 120610 [919]
(T L 120611 [920] L))) 120612 [921]
(T
(T
(T
(T L 120613 [922] L) 120614 [923] L) 120615 [924]
(T
(T L 120616 [925] L) 120617 [926] L)) 120618 [927]
(T
(T
(T L 120619 [928] L) 120620 [929] L) 120621 [920]
(T L 120622 [931] L)))))))) 120623 [932]
(T
(T
(T
(T
(T
(T
(T
(T
(T L 120624 [933] L) 120625 [934] L) 120626 [935]
(T
(T L 120627 [936] L) 120628 [937] L)) 120629 [8711]
(T
(T
(T L 120630 [945] L) 120631 [946] L) 120632 [947]
(T
(T L 120633 [948] L) 120634 [949] L))) 120635 [950]
(T
(T
(T
(T L 120636 [951] L) 120637 [952] L) 120638 [953]
(T
(T L 120639 [954] L) 120640 [955] L)) 120641 [956]
(T
(T
(T L 120642 [957] L) 120643 [958] L) 120644 [959]
(T L 120645 [960] L)))) 120646 [961]
(T
(T
(T
(T
(T L 120647 [962] L) 120648 [963] L) 120649 [964]
(T
(T L 120650 [965] L) 120651 [966] L)) 120652 [967]
(T
(T
(T L 120653 [968] L) 120654 [969] L) 120655 [8706]
(T
(T L 120656 [949] L) 120657 [952] L))) 120658 [954]
(T
(T
(T
(T L 120659 [966] L) 120660 [961] L) 120661 [960]
(T
(T L 120662 [913] L) 120663 [914] L)) 120664 [915]
(T
(T
(T L 120665 [916] L) 120666 [917] L) 120667 [918]
(T L 120668 [919] L))))) 120669 [920]
(T
(T
(T
(T
(T
(T L 120670 [921] L) 120671 [922] L) 120672 [923]
(T
(T L 120673 [924] L) 120674 [925] L)) 120675 [926]
(T
(T
(T L 120676 [927] L) 120677 [928] L) 120678 [929]
(T
(T L 120679 [920] L) 120680 [931] L))) 120681 [932]
(T
(T
(T
(T L 120682 [933] L) 120683 [934] L) 120684 [935]
(T
(T L 120685 [936] L) 120686 [937] L)) 120687 [8711]
(T
(T
(T L 120688 [945] L) 120689 [946] L) 120690 [947]
(T L 120691 [948] L)))) 120692 [949]
(T
(T
(T
(T
(T L 120693 [950] L) 120694 [951] L) 120695 [952]
(T
(T L 120696 [953] L) 120697 [954] L)) 120698 [955]
(T
(T
(T L 120699 [956] L) 120700 [957] L) 120701 [958]
(T
(T L 120702 [959] L) 120703 [960] L))) 120704 [961]
(T
(T
(T
(T L 120705 [962] L) 120706 [963] L) 120707 [964]
(T
(T L 120708 [965] L) 120709 [966] L)) 120710 [967]
(T
(T
(T L 120711 [968] L) 120712 [969] L) 120713 [8706]
(T L 120714 [949] L)))))) 120715 [952]
(T
(T
(T
(T
(T
(T
(T L 120716 [954] L) 120717 [966] L) 120718 [961]
(T
(T L 120719 [960] L) 120720 [913] L)) 120721 [914]
(T
(T
(T L 120722 [915] L) 120723 [916] L) 120724 [917]
(T
(T L 120725 [918] L) 120726 [919] L))) 120727 [920]
(T
(T
(T
(T L 120728 [921] L) 120729 [922] L) 120730 [923]
(T
(T L 120731 [924] L) 120732 [925] L)) 120733 [926]
(T
(T
(T L 120734 [927] L) 120735 [928] L) 120736 [929]
(T L 120737 [920] L)))) 120738 [931]
(T
(T
(T
(T
(T L 120739 [932] L) 120740 [933] L) 120741 [934]
(T
(T L 120742 [935] L) 120743 [936] L)) 120744 [937]
(T
(T
(T L 120745 [8711] L) 120746 [945] L) 120747 [946]
(T
(T L 120748 [947] L) 120749 [948] L))) 120750 [949]
(T
(T
(T
(T L 120751 [950] L) 120752 [951] L) 120753 [952]
(T
(T L 120754 [953] L) 120755 [954] L)) 120756 [955]
(T
(T
(T L 120757 [956] L) 120758 [957] L) 120759 [958]
(T L 120760 [959] L))))) 120761 [960]
(T
(T
(T
(T
(T
(T L 120762 [961] L) 120763 [962] L) 120764 [963]
(T
(T L 120765 [964] L) 120766 [965] L)) 120767 [966]
(T
(T
(T L 120768 [967] L) 120769 [968] L) 120770 [969]
(T
(T L 120771 [8706] L) 120772 [949] L))) 120773 [952]
(T
(T
(T
(T L 120774 [954] L) 120775 [966] L) 120776 [961]
(T
(T L 120777 [960] L) 120778 [988] L)) 120779 [989]
(T
(T
(T L 120782 [48] L) 120783 [49] L) 120784 [50]
(T L 120785 [51] L)))) 120786 [52]
(T
(T
(T
(T
(T L 120787 [53] L) 120788 [54] L) 120789 [55]
(T
(T L 120790 [56] L) 120791 [57] L)) 120792 [48]
(T
(T
(T L 120793 [49] L) 120794 [50] L) 120795 [51]
(T L 120796 [52] L))) 120797 [53]
(T
(T
(T
(T L 120798 [54] L) 120799 [55] L) 120800 [56]
(T
(T L 120801 [57] L) 120802 [48] L)) 120803 [49]
(T
(T
(T L 120804 [50] L) 120805 [51] L) 120806 [52]
(T L 120807 [53] L))))))) 120808 [54]
(T
(T
(T
(T
(T
(T
(T
(T L 120809 [55] L) 120810 [56] L) 120811 [57]
(T
(T L 120812 [48] L) 120813 [49] L)) 120814 [50]
(T
(T
(T L 120815 [51] L) 120816 [52] L) 120817 [53]
(T
(T L 120818 [54] L) 120819 [55] L))) 120820 [56]
(T
(T
(T
(T L 120821 [57] L) 120822 [48] L) 120823 [49]
(T
(T L 120824 [50] L) 120825 [51] L)) 120826 [52]
(T
(T
(T L 120827 [53] L) 120828 [54] L) 120829 [55]
(T L 120830 [56] L)))) 120831 [57]
(T
(T
(T
(T
(T L 122928 [1072] L) 122929 [1073] L) 122930 [1074]
(T
(T L 122931 [1075] L) 122932 [1076] L)) 122933 [1077]
(T
(T
(T L 122934 [1078] L) 122935 [1079] L) 122936 [1080]
(T
(T L 122937 [1082] L) 122938 [1083] L))) 122939 [1084]
(T
(T
(T
(T L 122940 [1086] L) 122941 [1087] L) 122942 [1088]
(T
(T L 122943 [1089] L) 122944 [1090] L)) 122945 [1091]
(T
(T
(T L 122946 [1092] L) 122947 [1093] L) 122948 [1094]
(T L 122949 [1095] L))))) 122950 [1096]
(T
(T
(T
(T
(T
(T L 122951 [1099] L) 122952 [1101] L) 122953 [1102]
(T
(T L 122954 [42633] L) 122955 [1241] L)) 122956 [1110]
(T
(T
(T L 122957 [1112] L) 122958 [1257] L) 122959 [1199]
(T
(T L 122960 [1231] L) 122961 [1072] L))) 122962 [1073]
(T
(T
(T
(T L 122963 [1074] L) 122964 [1075] L) 122965 [1076]
(T
(T L 122966 [1077] L) 122967 [1078] L)) 122968 [1079]
(T
(T
(T L 122969 [1080] L) 122970 [1082] L) 122971 [1083]
(T L 122972 [1086] L)))) 122973 [1087]
(T
(T
(T
(T
(T L 122974 [1089] L) 122975 [1091] L) 122976 [1092]
(T
(T L 122977 [1093] L) 122978 [1094] L)) 122979 [1095]
(T
(T
(T L 122980 [1096] L) 122981 [1098] L) 122982 [1099]
(T
(T L 122983 [1169] L) 122984 [1110] L))) 122985 [1109]
(T
(T
(T
(T L 122986 [1119] L) 122987 [1195] L) 122988 [42577]
(T
(T L 122989 [1201] L) 126464 [1575] L)) 126465 [1576]
(T
(T
(T L 126466 [1580] L) 126467 [1583] L) 126469 [1608]
(T L 126470 [1586] L)))))) 126471 [1581]
(T
(T
(T
(T
(T
(T
(T L 126472 [1591] L) 126473 [1610] L) 126474 [1603]
(T
(T L 126475 [1604] L) 126476 [1605] L)) 126477 [1606]
(T
(T
(T L 126478 [1587] L) 126479 [1593] L) 126480 [1601]
(T
(T L 126481 [1589] L) 126482 [1602] L))) 126483 [1585]
(T
(T
(T
(T L 126484 [1588] L) 126485 [1578] L) 126486 [1579]
(T
(T L 126487 [1582] L) 126488 [1584] L)) 126489 [1590]
(T
(T
(T L 126490 [1592] L) 126491 [1594] L) 126492 [1646]
(T L 126493 [1722] L)))) 126494 [1697]
(T
(T
(T
(T
(T L 126495 [1647] L) 126497 [1576] L) 126498 [1580]
(T
(T L 126500 [1607] L) 126503 [1581] L)) 126505 [1610]
(T
(T
(T L 126506 [1603] L) 126507 [1604] L) 126508 [1605]
(T
(T L 126509 [1606] L) 126510 [1587] L))) 126511 [1593]
(T
(T
(T
(T L 126512 [1601] L) 126513 [1589] L) 126514 [1602]
(T
(T L 126516 [1588] L) 126517 [1578] L)) 126518 [1579]
(T
(T
(T L 126519 [1582] L) 126521 [1590] L) 126523 [1594]
(T L 126530 [1580] L))))) 126535 [1581]
(T
(T
(T
(T
(T
(T L 126537 [1610] L) 126539 [1604] L) 126541 [1606]
(T
(T L 126542 [1587] L) 126543 [1593] L)) 126545 [1589]
(T
(T
(T L 126546 [1602] L) 126548 [1588] L) 126551 [1582]
(T
(T L 126553 [1590] L) 126555 [1594] L))) 126557 [1722]
(T
(T
(T
(T L 126559 [1647] L) 126561 [1576] L) 126562 [1580]
(T
(T L 126564 [1607] L) 126567 [1581] L)) 126568 [1591]
(T
(T
(T L 126569 [1610] L) 126570 [1603] L) 126572 [1605]
(T L 126573 [1606] L)))) 126574 [1587]
(T
(T
(T
(T
(T L 126575 [1593] L) 126576 [1601] L) 126577 [1589]
(T
(T L 126578 [1602] L) 126580 [1588] L)) 126581 [1578]
(T
(T
(T L 126582 [1579] L) 126583 [1582] L) 126585 [1590]
(T L 126586 [1592] L))) 126587 [1594]
(T
(T
(T
(T L 126588 [1646] L) 126590 [1697] L) 126592 [1575]
(T
(T L 126593 [1576] L) 126594 [1580] L)) 126595 [1583]
(T
(T
(T L 126596 [1607] L) 126597 [1608] L) 126598 [1586]
(T L 126599 [1581] L))))))))) 126600 [1591]
(T
(T
(T
(T
(T
(T
(T
(T
(T
(T L 126601 [1610] L) 126603 [1604] L) 126604 [1605]
(T
(T L 126605 [1606] L) 126606 [1587] L)) 126607 [1593]
(T
(T
(T L 126608 [1601] L) 126609 [1589] L) 126610 [1602]
(T
(T L 126611 [1585] L) 126612 [1588] L))) 126613 [1578]
(T
(T
(T
(T L 126614 [1579] L) 126615 [1582] L) 126616 [1584]
(T
(T L 126617 [1590] L) 126618 [1592] L)) 126619 [1594]
(T
(T
(T L 126625 [1576] L) 126626 [1580] L) 126627 [1583]
(T L 126629 [1608] L)))) 126630 [1586]
(T
(T
(T
(T
(T L 126631 [1581] L) 126632 [1591] L) 126633 [1610]
(T
(T L 126635 [1604] L) 126636 [1605] L)) 126637 [1606]
(T
(T
(T L 126638 [1587] L) 126639 [1593] L) 126640 [1601]
(T
(T L 126641 [1589] L) 126642 [1602] L))) 126643 [1585]
(T
(T
(T
(T L 126644 [1588] L) 126645 [1578] L) 126646 [1579]
(T
(T L 126647 [1582] L) 126648 [1584] L)) 126649 [1590]
(T
(T
(T L 126650 [1592] L) 126651 [1594] L) 127232 [48;46]
(T L 127233 [48;44] L))))) 127234 [49;44]
(T
(T
(T
(T
(T
(T L 127235 [50;44] L) 127236 [51;44] L) 127237 [52;44]
(T
(T L 127238 [53;44] L) 127239 [54;44] L)) 127240 [55;44]
(T
(T
(T L 127241 [56;44] L) 127242 [57;44] L) 127248 [40;65;41]
(T
(T L 127249 [40;66;41] L) 127250 [40;67;41] L))) 127251 [40;68;41]
(T
(T
(T
(T L 127252 [40;69;41] L) 127253 [40;70;41] L) 127254 [40;71;41]
(T
(T L 127255 [40;72;41] L) 127256 [40;73;41] L)) 127257 [40;74;41]
(T
(T
(T L 127258 [40;75;41] L) 127259 [40;76;41] L) 127260 [40;77;41]
(T L 127261 [40;78;41] L)))) 127262 [40;79;41]
(T
(T
(T
(T
(T L 127263 [40;80;41] L) 127264 [40;81;41] L) 127265 [40;82;41]
(T
(T L 127266 [40;83;41] L) 127267 [40;84;41] L)) 127268 [40;85;41]
(T
(T
(T L 127269 [40;86;41] L) 127270 [40;87;41] L) 127271 [40;88;41]
(T
(T L 127272 [40;89;41] L) 127273 [40;90;41] L))) 127274 [12308;83;12309]
(T
(T
(T
(T L 127275 [67] L) 127276 [82] L) 127277 [67;68]
(T
(T L 127278 [87;90] L) 127280 [65] L)) 127281 [66]
(T
(T
(T L 127282 [67] L) 127283 [68] L) 127284 [69]
(T L 127285 [70] L)))))) 127286 [71]
(T
(T
(T
(T
(T
(T
(T L 127287 [72] L) 127288 [73] L) 127289 [74]
(T
(T L 127290 [75] L) 127291 [76] L)) 127292 [77]
(T
(T
(T L 127293 [78] L) 127294 [79] L) 127295 [80]
(T
(T L 127296 [81] L) 127297 [82] L))) 127298 [83]
(T
(T
(T
(T L 127299 [84] L) 127300 [85] L) 127301 [86]
(T
(T L 127302 [87] L) 127303 [88] L)) 127304 [89]
(T
(T
(T L 127305 [90] L) 127306 [72;86] L) 127307 [77;86]
(T L 127308 [83;68] L)))) 127309 [83;83]
(T
(T
(T
(T
(T L 127310 [80;80;86] L) 127311 [87;67] L) 127338 [77;67]
(T
(T L 127339 [77;68] L) 127340 [77;82] L)) 127376 [68;74]
(T
(T
(T L 127488 [12411;12363] L) 127489 [12467;12467] L) 127490 [12469]
(T
(T L 127504 [25163] L) 127505 [23383] L))) 127506 [21452]
(T
(T
(T
(T L 127507 [12486;12441] L) 127508 [20108] L) 127509 [22810]
(T
(T L 127510 [35299] L) 127511 [22825] L)) 127512 [20132]
(T
(T
(T L 127513 [26144] L) 127514 [28961] L) 127515 [26009]
(T L 127516 [21069] L))))) 127517 [24460]
(T
(T
(T
(T
(T
(T L 127518 [20877] L) 127519 [26032] L) 127520 [21021]
(T
(T L 127521 [32066] L) 127522 [29983] L)) 127523 [36009]
(T
(T
(T L 127524 [22768] L) 127525 [21561] L) 127526 [28436]
(T
(T L 127527 [25237] L) 127528 [25429] L))) 127529 [19968]
(T
(T
(T
(T L 127530 [19977] L) 127531 [36938] L) 127532 [24038]
(T
(T L 127533 [20013] L) 127534 [21491] L)) 127535 [25351]
(T
(T
(T L 127536 [36208] L) 127537 [25171] L) 127538 [31105]
(T L 127539 [31354] L)))) 127540 [21512]
(T
(T
(T
(T
(T L 127541 [28288] L) 127542 [26377] L) 127543 [26376]
(T
(T L 127544 [30003] L) 127545 [21106] L)) 127546 [21942]
(T
(T
(T L 127547 [37197] L) 127552 [12308;26412;12309] L) 127553 [12308;19977;12309]
(T L 127554 [12308;20108;12309] L))) 127555 [12308;23433;12309]
(T
(T
(T
(T L 127556 [12308;28857;12309] L) 127557 [12308;25171;12309] L) 127558 [12308;30423;12309]
(T
(T L 127559 [12308;21213;12309] L) 127560 [12308;25943;12309] L)) 127568 [24471]
(T
(T
(T L 127569 [21487] L) 130032 [48] L) 130033 [49]
(T L 130034 [50] L))))))) 130035 [51]
(T
(T
(T
(T
(T
(T
(T
(T L 130036 [52] L) 130037 [53] L) 130038 [54]
(T
(T L 130039 [55] L) 130040 [56] L)) 130041 [57]
(T
(T
(T L 194560 [20029] L) 194561 [20024] L) 194562 [20033]
(T
(T L 194563 [131362] L) 194564 [20320] L))) 194565 [20398]
(T
(T
(T
(T L 194566 [20411] L) 194567 [20482] L) 194568 [20602]
(T
(T L 194569 [20633] L) 194570 [20711] L)) 194571 [20687]
(T
(T
(T L 194572 [13470] L) 194573 [132666] L) 194574 [20813]
(T L 194575 [20820] L)))) 194576 [20836]
(T
(T
(T
(T
(T L 194577 [20855] L) 194578 [132380] L) 194579 [13497]
(T
(T L 194580 [20839] L) 194581 [20877] L)) 194582 [132427]
(T
(T
(T L 194583 [20887] L) 194584 [20900] L) 194585 [20172]
(T
(T L 194586 [20908] L) 194587 [20917] L))) 194588 [168415]
(T
(T
(T
(T L 194589 [20981] L) 194590 [20995] L) 194591 [13535]
(T
(T L 194592 [21051] L) 194593 [21062] L)) 194594 [21106]
(T
(T
(T L 194595 [21111] L) 194596 [13589] L) 194597 [21191]
(T L 194598 [21193] L))))) 194599 [21220]
(T
(T
(T
(T
(T
(T L 194600 [21242] L) 194601 [21253] L) 194602 [21254]
(T
(T L 194603 [21271] L) 194604 [21321] L)) 194605 [21329]
(T
(T
(T L 194606 [21338] L) 194607 [21363] L) 194608 [21373]
(T
(T L 194609 [21375] L) 194610 [21375] L))) 194611 [21375]
(T
(T
(T
(T L 194612 [133676] L) 194613 [28784] L) 194614 [21450]
(T
(T L 194615 [21471] L) 194616 [133987] L)) 194617 [21483]
(T
(T
(T L 194618 [21489] L) 194619 [21510] L) 194620 [21662]
(T L 194621 [21560] L)))) 194622 [21576]
(T
(T
(T
(T
(T L 194623 [21608] L) 194624 [21666] L) 194625 [21750]
(T
(T L 194626 [21776] L) 194627 [21843] L)) 194628 [21859]
(T
(T
(T L 194629 [21892] L) 194630 [21892] L) 194631 [21913]
(T
(T L 194632 [21931] L) 194633 [21939] L))) 194634 [21954]
(T
(T
(T
(T L 194635 [22294] L) 194636 [22022] L) 194637 [22295]
(T
(T L 194638 [22097] L) 194639 [22132] L)) 194640 [20999]
(T
(T
(T L 194641 [22766] L) 194642 [22478] L) 194643 [22516]
(T L 194644 [22541] L)))))) 194645 [22411]
(T
(T
(T
(T
(T
(T
(T L 194646 [22578] L) 194647 [22577] L) 194648 [22700]
(T
(T L 194649 [136420] L) 194650 [22770] L)) 194651 [22775]
(T
(T
(T L 194652 [22790] L) 194653 [22810] L) 194654 [22818]
(T
(T L 194655 [22882] L) 194656 [136872] L))) 194657 [136938]
(T
(T
(T
(T L 194658 [23020] L) 194659 [23067] L) 194660 [23079]
(T
(T L 194661 [23000] L) 194662 [23142] L)) 194663 [14062]
(T
(T
(T L 194664 [14076] L) 194665 [23304] L) 194666 [23358]
(T L 194667 [23358] L)))) 194668 [137672]
(T
(T
(T
(T
(T L 194669 [23491] L) 194670 [23512] L) 194671 [23527]
(T
(T L 194672 [23539] L) 194673 [138008] L)) 194674 [23551]
(T
(T
(T L 194675 [23558] L) 194676 [24403] L) 194677 [23586]
(T
(T L 194678 [14209] L) 194679 [23648] L))) 194680 [23662]
(T
(T
(T
(T L 194681 [23744] L) 194682 [23693] L) 194683 [138724]
(T
(T L 194684 [23875] L) 194685 [138726] L)) 194686 [23918]
(T
(T
(T L 194687 [23915] L) 194688 [23932] L) 194689 [24033]
(T L 194690 [24034] L))))) 194691 [14383]
(T
(T
(T
(T
(T
(T L 194692 [24061] L) 194693 [24104] L) 194694 [24125]
(T
(T L 194695 [24169] L) 194696 [14434] L)) 194697 [139651]
(T
(T
(T L 194698 [14460] L) 194699 [24240] L) 194700 [24243]
(T
(T L 194701 [24246] L) 194702 [24266] L))) 194703 [172946]
(T
(T
(T
(T L 194704 [24318] L) 194705 [140081] L) 194706 [140081]
(T
(T L 194707 [33281] L) 194708 [24354] L)) 194709 [24354]
(T
(T
(T L 194710 [14535] L) 194711 [144056] L) 194712 [156122]
(T L 194713 [24418] L)))) 194714 [24427]
(T
(T
(T
(T
(T L 194715 [14563] L) 194716 [24474] L) 194717 [24525]
(T
(T L 194718 [24535] L) 194719 [24569] L)) 194720 [24705]
(T
(T
(T L 194721 [14650] L) 194722 [14620] L) 194723 [24724]
(T L 194724 [141012] L))) 194725 [24775]
(T
(T
(T
(T L 194726 [24904] L) 194727 [24908] L) 194728 [24910]
(T
(T L 194729 [24908] L) 194730 [24954] L)) 194731 [24974]
(T
(T
(T L 194732 [25010] L) 194733 [24996] L) 194734 [25007]
(T L 194735 [25054] L)))))))) 194736 [25074]
(T
(T
(T
(T
(T
(T
(T
(T
(T L 194737 [25078] L) 194738 [25104] L) 194739 [25115]
(T
(T L 194740 [25181] L) 194741 [25265] L)) 194742 [25300]
(T
(T
(T L 194743 [25424] L) 194744 [142092] L) 194745 [25405]
(T
(T L 194746 [25340] L) 194747 [25448] L))) 194748 [25475]
(T
(T
(T
(T L 194749 [25572] L) 194750 [142321] L) 194751 [25634]
(T
(T L 194752 [25541] L) 194753 [25513] L)) 194754 [14894]
(T
(T
(T L 194755 [25705] L) 194756 [25726] L) 194757 [25757]
(T L 194758 [25719] L)))) 194759 [14956]
(T
(T
(T
(T
(T L 194760 [25935] L) 194761 [25964] L) 194762 [143370]
(T
(T L 194763 [26083] L) 194764 [26360] L)) 194765 [26185]
(T
(T
(T L 194766 [15129] L) 194767 [26257] L) 194768 [15112]
(T
(T L 194769 [15076] L) 194770 [20882] L))) 194771 [20885]
(T
(T
(T
(T L 194772 [26368] L) 194773 [26268] L) 194774 [32941]
(T
(T L 194775 [17369] L) 194776 [26391] L)) 194777 [26395]
(T
(T
(T L 194778 [26401] L) 194779 [26462] L) 194780 [26451]
(T L 194781 [144323] L))))) 194782 [15177]
(T
(T
(T
(T
(T
(T L 194783 [26618] L) 194784 [26501] L) 194785 [26706]
(T
(T L 194786 [26757] L) 194787 [144493] L)) 194788 [26766]
(T
(T
(T L 194789 [26655] L) 194790 [26900] L) 194791 [15261]
(T
(T L 194792 [26946] L) 194793 [27043] L))) 194794 [27114]
(T
(T
(T
(T L 194795 [27304] L) 194796 [145059] L) 194797 [27355]
(T
(T L 194798 [15384] L) 194799 [27425] L)) 194800 [145575]
(T
(T
(T L 194801 [27476] L) 194802 [15438] L) 194803 [27506]
(T L 194804 [27551] L)))) 194805 [27578]
(T
(T
(T
(T
(T L 194806 [27579] L) 194807 [146061] L) 194808 [138507]
(T
(T L 194809 [146170] L) 194810 [27726] L)) 194811 [146620]
(T
(T
(T L 194812 [27839] L) 194813 [27853] L) 194814 [27751]
(T
(T L 194815 [27926] L) 194816 [27966] L))) 194817 [28023]
(T
(T
(T
(T L 194818 [27969] L) 194819 [28009] L) 194820 [28024]
(T
(T L 194821 [28037] L) 194822 [146718] L)) 194823 [27956]
(T
(T
(T L 194824 [28207] L) 194825 [28270] L) 194826 [15667]
(T L 194827 [28363] L)))))) 194828 [28359]
(T
(T
(T
(T
(T
(T
(T L 194829 [147153] L) 194830 [28153] L) 194831 [28526]
(T
(T L 194832 [147294] L) 194833 [147342] L)) 194834 [28614]
(T
(T
(T L 194835 [28729] L) 194836 [28702] L) 194837 [28699]
(T
(T L 194838 [15766] L) 194839 [28746] L))) 194840 [28797]
(T
(T
(T
(T L 194841 [28791] L) 194842 [28845] L) 194843 [132389]
(T
(T L 194844 [28997] L) 194845 [148067] L)) 194846 [29084]
(T
(T
(T L 194847 [148395] L) 194848 [29224] L) 194849 [29237]
(T L 194850 [29264] L)))) 194851 [149000]
(T
(T
(T
(T
(T L 194852 [29312] L) 194853 [29333] L) 194854 [149301]
(T
(T L 194855 [149524] L) 194856 [29562] L)) 194857 [29579]
(T
(T
(T L 194858 [16044] L) 194859 [29605] L) 194860 [16056]
(T
(T L 194861 [16056] L) 194862 [29767] L))) 194863 [29788]
(T
(T
(T
(T L 194864 [29809] L) 194865 [29829] L) 194866 [29898]
(T
(T L 194867 [16155] L) 194868 [29988] L)) 194869 [150582]
(T
(T
(T L 194870 [30014] L) 194871 [150674] L) 194872 [30064]
(T L 194873 [139679] L))))) 194874 [30224]
(T
(T
(T
(T
(T
(T L 194875 [151457] L) 194876 [151480] L) 194877 [151620]
(T
(T L 194878 [16380] L) 194879 [16392] L)) 194880 [30452]
(T
(T
(T L 194881 [151795] L) 194882 [151794] L) 194883 [151833]
(T
(T L 194884 [151859] L) 194885 [30494] L))) 194886 [30495]
(T
(T
(T
(T L 194887 [30495] L) 194888 [30538] L) 194889 [16441]
(T
(T L 194890 [30603] L) 194891 [16454] L)) 194892 [16534]
(T
(T
(T L 194893 [152605] L) 194894 [30798] L) 194895 [30860]
(T L 194896 [30924] L)))) 194897 [16611]
(T
(T
(T
(T
(T L 194898 [153126] L) 194899 [31062] L) 194900 [153242]
(T
(T L 194901 [153285] L) 194902 [31119] L)) 194903 [31211]
(T
(T
(T L 194904 [16687] L) 194905 [31296] L) 194906 [31306]
(T L 194907 [31311] L))) 194908 [153980]
(T
(T
(T
(T L 194909 [154279] L) 194910 [154279] L) 194911 [31470]
(T
(T L 194912 [16898] L) 194913 [154539] L)) 194914 [31686]
(T
(T
(T L 194915 [31689] L) 194916 [16935] L) 194917 [154752]
(T L 194918 [31954] L))))))) 194919 [17056]
(T
(T
(T
(T
(T
(T
(T
(T L 194920 [31976] L) 194921 [31971] L) 194922 [32000]
(T
(T L 194923 [155526] L) 194924 [32099] L)) 194925 [17153]
(T
(T
(T L 194926 [32199] L) 194927 [32258] L) 194928 [32325]
(T
(T L 194929 [17204] L) 194930 [156200] L))) 194931 [156231]
(T
(T
(T
(T L 194932 [17241] L) 194933 [156377] L) 194934 [32634]
(T
(T L 194935 [156478] L) 194936 [32661] L)) 194937 [32762]
(T
(T
(T L 194938 [32773] L) 194939 [156890] L) 194940 [156963]
(T L 194941 [32864] L)))) 194942 [157096]
(T
(T
(T
(T
(T L 194943 [32880] L) 194944 [144223] L) 194945 [17365]
(T
(T L 194946 [32946] L) 194947 [33027] L)) 194948 [17419]
(T
(T
(T L 194949 [33086] L) 194950 [23221] L) 194951 [157607]
(T
(T L 194952 [157621] L) 194953 [144275] L))) 194954 [144284]
(T
(T
(T
(T L 194955 [33281] L) 194956 [33284] L) 194957 [36766]
(T
(T L 194958 [17515] L) 194959 [33425] L)) 194960 [33419]
(T
(T
(T L 194961 [33437] L) 194962 [21171] L) 194963 [33457]
(T L 194964 [33459] L))))) 194965 [33469]
(T
(T
(T
(T
(T
(T L 194966 [33510] L) 194967 [158524] L) 194968 [33509]
(T
(T L 194969 [33565] L) 194970 [33635] L)) 194971 [33709]
(T
(T
(T L 194972 [33571] L) 194973 [33725] L) 194974 [33767]
(T
(T L 194975 [33879] L) 194976 [33619] L))) 194977 [33738]
(T
(T
(T
(T L 194978 [33740] L) 194979 [33756] L) 194980 [158774]
(T
(T L 194981 [159083] L) 194982 [158933] L)) 194983 [17707]
(T
(T
(T L 194984 [34033] L) 194985 [34035] L) 194986 [34070]
(T L 194987 [160714] L)))) 194988 [34148]
(T
(T
(T
(T
(T L 194989 [159532] L) 194990 [17757] L) 194991 [17761]
(T
(T L 194992 [159665] L) 194993 [159954] L)) 194994 [17771]
(T
(T
(T L 194995 [34384] L) 194996 [34396] L) 194997 [34407]
(T
(T L 194998 [34409] L) 194999 [34473] L))) 195000 [34440]
(T
(T
(T
(T L 195001 [34574] L) 195002 [34530] L) 195003 [34681]
(T
(T L 195004 [34600] L) 195005 [34667] L)) 195006 [34694]
(T
(T
(T L 195007 [17879] L) 195008 [34785] L) 195009 [34817]
(T L 195010 [17913] L)))))) 195011 [34912]
(T
(T
(T
(T
(T
(T
(T L 195012 [34915] L) 195013 [161383] L) 195014 [35031]
(T
(T L 195015 [35038] L) 195016 [17973] L)) 195017 [35066]
(T
(T
(T L 195018 [13499] L) 195019 [161966] L) 195020 [162150]
(T
(T L 195021 [18110] L) 195022 [18119] L))) 195023 [35488]
(T
(T
(T
(T L 195024 [35565] L) 195025 [35722] L) 195026 [35925]
(T
(T L 195027 [162984] L) 195028 [36011] L)) 195029 [36033]
(T
(T
(T L 195030 [36123] L) 195031 [36215] L) 195032 [163631]
(T L 195033 [133124] L)))) 195034 [36299]
(T
(T
(T
(T
(T L 195035 [36284] L) 195036 [36336] L) 195037 [133342]
(T
(T L 195038 [36564] L) 195039 [36664] L)) 195040 [165330]
(T
(T
(T L 195041 [165357] L) 195042 [37012] L) 195043 [37105]
(T
(T L 195044 [37137] L) 195045 [165678] L))) 195046 [37147]
(T
(T
(T
(T L 195047 [37432] L) 195048 [37591] L) 195049 [37592]
(T
(T L 195050 [37500] L) 195051 [37881] L)) 195052 [37909]
(T
(T
(T L 195053 [166906] L) 195054 [38283] L) 195055 [18837]
(T L 195056 [38327] L))))) 195057 [167287]
(T
(T
(T
(T
(T
(T L 195058 [18918] L) 195059 [38595] L) 195060 [23986]
(T
(T L 195061 [38691] L) 195062 [168261] L)) 195063 [168474]
(T
(T
(T L 195064 [19054] L) 195065 [19062] L) 195066 [38880]
(T
(T L 195067 [168970] L) 195068 [19122] L))) 195069 [169110]
(T
(T
(T
(T L 195070 [38923] L) 195071 [38923] L) 195072 [38953]
(T
(T L 195073 [169398] L) 195074 [39138] L)) 195075 [19251]
(T
(T
(T L 195076 [39209] L) 195077 [39335] L) 195078 [39362]
(T L 195079 [39422] L)))) 195080 [19406]
(T
(T
(T
(T
(T L 195081 [170800] L) 195082 [39698] L) 195083 [40000]
(T
(T L 195084 [40189] L) 195085 [19662] L)) 195086 [19693]
(T
(T
(T L 195087 [40295] L) 195088 [172238] L) 195089 [19704]
(T L 195090 [172293] L))) 195091 [172558]
(T
(T
(T
(T L 195092 [172689] L) 195093 [40635] L) 195094 [19798]
(T
(T L 195095 [40697] L) 195096 [40702] L)) 195097 [40709]
(T
(T
(T L 195098 [40719] L) 195099 [40726] L) 195100 [40763]
(T L 195101 [173568] L)))))))))))).

Definition ccc_table : tree N :=
(T
(T
(T
(T
(T
(T
(T
(T
(T
(T L 768 230 L) 769 230
(T L 770 230 L)) 771 230
(T
(T L 772 230 L) 773 230
(T L 774 230 L))) 775 230
(T
(T
(T L 776 230 L) 777 230
(T L 778 230 L)) 779 230
(T
(T L 780 230 L) 781 230 L))) 782 230
(T
(T
(T
(T L 783 230 L) 784 230
(T L 785 230 L)) 786 230
(T
(T L 787 230 L) 788 230 L)) 789 232
(T
(T
(T L 790 220 L) 791 220
(T L 792 220 L)) 793 220
(T
(T L 794 232 L) 795 216 L)))) 796 220
(T
(T
(T
(T
(T L 797 220 L) 798 220
(T L 799 220 L)) 800 220
(T
(T L 801 202 L) 802 202
(T L 803 220 L))) 804 220
(T
(T
(T L 805 220 L) 806 220
(T L 807 202 L)) 808 202
(T
(T L 809 220 L) 810 220 L))) 811 220
(T
(T
(T
(T L 812 220 L) 813 220
(T L 814 220 L)) 815 220
(T
(T L 816 220 L) 817 220 L)) 818 220
(T
(T
(T L 819 220 L) 820 1
(T L 821 1 L)) 822 1
(T
(T L 823 1 L) 824 1 L))))) 825 220
(T
(T
(T
(T
(T
(T L 826 220 L) 827 220
(T L 828 220 L)) 829 230
(T
(T L 830 230 L) 831 230
(T L 832 230 L))) 833 230
(T
(T
(T L 834 230 L) 835 230
(T L 836 230 L)) 837 240
(T
(T L 838 230 L) 839 220 L))) 840 220
(T
(T
(T
(T L 841 220 L) 842 230
(T L 843 230 L)) 844 230
(T
(T L 845 220 L) 846 220 L)) 848 230
(T
(T
(T L 849 230 L) 850 230
(T L 851 220 L)) 852 220
(T
(T L 853 220 L) 854 220 L)))) 855 230
(T
(T
(T
(T
(T L 856 232 L) 857 220
(T L 858 220 L)) 859 230
(T
(T L 860 233 L) 861 234
(T L 862 234 L))) 863 233
(T
(T
(T L 864 234 L) 865 234
(T L 866 233 L)) 867 230
(T
(T L 868 230 L) 869 230 L))) 870 230
(T
(T
(T
(T L 871 230 L) 872 230
(T L 873 230 L)) 874 230
(T
(T L 875 230 L) 876 230 L)) 877 230
(T
(T
(T L 878 230 L) 879 230
(T L 1155 230 L)) 1156 230
(T
(T L 1157 230 L) 1158 230 L)))))) 1159 230
(T
(T
(T
(T
(T
(T
(T L 1425 220 L) 1426 230
(T L 1427 230 L)) 1428 230
(T
(T L 1429 230 L) 1430 220
(T L 1431 230 L))) 1432 230
(T
(T
(T L 1433 230 L) 1434 222
(T L 1435 220 L)) 1436 230
(T
(T L 1437 230 L) 1438 230 L))) 1439 230
(T
(T
(T
(T L 1440 230 L) 1441 230
(T L 1442 220 L)) 1443 220
(T
(T L 1444 220 L) 1445 220 L)) 1446 220
(T
(T
(T L 1447 220 L) 1448 230
(T L 1449 230 L)) 1450 220
(T
(T L 1451 230 L) 1452 230 L)))) 1453 222
(T
(T
(T
(T
(T L 1454 228 L) 1455 230
(T L 1456 10 L)) 1457 11
(T
(T L 1458 12 L) 1459 13
(T L 1460 14 L))) 1461 15
(T
(T
(T L 1462 16 L) 1463 17
(T L 1464 18 L)) 1465 19
(T
(T L 1466 19 L) 1467 20 L))) 1468 21
(T
(T
(T
(T L 1469 22 L) 1471 23
(T L 1473 24 L)) 1474 25
(T
(T L 1476 230 L) 1477 220 L)) 1479 18
(T
(T
(T L 1552 230 L) 1553 230
(T L 1554 230 L)) 1555 230
(T
(T L 1556 230 L) 1557 230 L))))) 1558 230
(T
(T
(T
(T
(T
(T L 1559 230 L) 1560 30
(T L 1561 31 L)) 1562 32
(T
(T L 1611 27 L) 1612 28
(T L 1613 29 L))) 1614 30
(T
(T
(T L 1615 31 L) 1616 32
(T L 1617 33 L)) 1618 34
(T
(T L 1619 230 L) 1620 230 L))) 1621 220
(T
(T
(T
(T L 1622 220 L) 1623 230
(T L 1624 230 L)) 1625 230
(T
(T L 1626 230 L) 1627 230 L)) 1628 220
(T
(T
(T L 1629 230 L) 1630 230
(T L 1631 220 L)) 1648 35
(T
(T L 1750 230 L) 1751 230 L)))) 1752 230
(T
(T
(T
(T
(T L 1753 230 L) 1754 230
(T L 1755 230 L)) 1756 230
(T
(T L 1759 230 L) 1760 230 L)) 1761 230
(T
(T
(T L 1762 230 L) 1763 220
(T L 1764 230 L)) 1767 230
(T
(T L 1768 230 L) 1770 220 L))) 1771 230
(T
(T
(T
(T L 1772 230 L) 1773 220
(T L 1809 36 L)) 1840 230
(T
(T L 1841 220 L) 1842 230 L)) 1843 230
(T
(T
(T L 1844 220 L) 1845 230
(T L 1846 230 L)) 1847 220
(T
(T L 1848 220 L) 1849 220 L))))))) 1850 230
(T
(T
(T
(T
(T
(T
(T
(T L 1851 220 L) 1852 220
(T L 1853 230 L)) 1854 220
(T
(T L 1855 230 L) 1856 230
(T L 1857 230 L))) 1858 220
(T
(T
(T L 1859 230 L) 1860 220
(T L 1861 230 L)) 1862 220
(T
(T L 1863 230 L) 1864 220 L))) 1865 230
(T
(T
(T
(T L 1866 230 L) 2027 230
(T L 2028 230 L)) 2029 230
(T
(T L 2030 230 L) 2031 230 L)) 2032 230
(T
(T
(T L 2033 230 L) 2034 220
(T L 2035 230 L)) 2045 220
(T
(T L 2070 230 L) 2071 230 L)))) 2072 230
(T
(T
(T
(T
(T L 2073 230 L) 2075 230
(T L 2076 230 L)) 2077 230
(T
(T L 2078 230 L) 2079 230
(T L 2080 230 L))) 2081 230
(T
(T
(T L 2082 230 L) 2083 230
(T L 2085 230 L)) 2086 230
(T
(T L 2087 230 L) 2089 230 L))) 2090 230
(T
(T
(T
(T L 2091 230 L) 2092 230
(T L 2093 230 L)) 2137 220
(T
(T L 2138 220 L) 2139 220 L)) 2200 230
(T
(T
(T L 2201 220 L) 2202 220
(T L 2203 220 L)) 2204 230
(T
(T L 2205 230 L) 2206 230 L))))) 2207 230
(T
(T
(T
(T
(T
(T L 2250 230 L) 2251 230
(T L 2252 230 L)) 2253 230
(T
(T L 2254 230 L) 2255 220
(T L 2256 220 L))) 2257 220
(T
(T
(T L 2258 220 L) 2259 220
(T L 2260 230 L)) 2261 230
(T
(T L 2262 230 L) 2263 230 L))) 2264 230
(T
(T
(T
(T L 2265 230 L) 2266 230
(T L 2267 230 L)) 2268 230
(T
(T L 2269 230 L) 2270 230 L)) 2271 230
(T
(T
(T L 2272 230 L) 2273 230
(T L 2275 220 L)) 2276 230
(T
(T L 2277 230 L) 2278 220 L)))) 2279 230
(T
(T
(T
(T
(T L 2280 230 L) 2281 220
(T L 2282 230 L)) 2283 230
(T
(T L 2284 230 L) 2285 220
(T L 2286 220 L))) 2287 220
(T
(T
(T L 2288 27 L) 2289 28
(T L 2290 29 L)) 2291 230
(T
(T L 2292 230 L) 2293 230 L))) 2294 220
(T
(T
(T
(T L 2295 230 L) 2296 230
(T L 2297 220 L)) 2298 220
(T
(T L 2299 230 L) 2300 230 L)) 2301 230
(T
(T
(T L 2302 230 L) 2303 230
(T L 2364 7 L)) 2381 9
(T
(T L 2385 230 L) 2386 220 L)))))) 2387 230
(T
(T
(T
(T
(T
(T
(T L 2388 230 L) 2492 7
(T L 2509 9 L)) 2558 230
(T
(T L 2620 7 L) 2637 9
(T L 2748 7 L))) 2765 9
(T
(T
(T L 2876 7 L) 2893 9
(T L 3021 9 L)) 3132 7
(T
(T L 3149 9 L) 3157 84 L))) 3158 91
(T
(T
(T
(T L 3260 7 L) 3277 9
(T L 3387 9 L)) 3388 9
(T
(T L 3405 9 L) 3530 9 L)) 3640 103
(T
(T
(T L 3641 103 L) 3642 9
(T L 3656 107 L)) 3657 107
(T
(T L 3658 107 L) 3659 107 L)))) 3768 118
(T
(T
(T
(T
(T L 3769 118 L) 3770 9
(T L 3784 122 L)) 3785 122
(T
(T L 3786 122 L) 3787 122
(T L 3864 220 L))) 3865 220
(T
(T
(T L 3893 220 L) 3895 220
(T L 3897 216 L)) 3953 129
(T
(T L 3954 130 L) 3956 132 L))) 3962 130
(T
(T
(T
(T L 3963 130 L) 3964 130
(T L 3965 130 L)) 3968 130
(T
(T L 3970 230 L) 3971 230 L)) 3972 9
(T
(T
(T L 3974 230 L) 3975 230
(T L 4038 220 L)) 4151 7
(T
(T L 4153 9 L) 4154 9 L))))) 4237 220
(T
(T
(T
(T
(T
(T L 4957 230 L) 4958 230
(T L 4959 230 L)) 5908 9
(T
(T L 5909 9 L) 5940 9
(T L 6098 9 L))) 6109 230
(T
(T
(T L 6313 228 L) 6457 222
(T L 6458 230 L)) 6459 220
(T
(T L 6679 230 L) 6680 220 L))) 6752 9
(T
(T
(T
(T L 6773 230 L) 6774 230
(T L 6775 230 L)) 6776 230
(T
(T L 6777 230 L) 6778 230 L)) 6779 230
(T
(T
(T L 6780 230 L) 6783 220
(T L 6832 230 L)) 6833 230
(T
(T L 6834 230 L) 6835 230 L)))) 6836 230
(T
(T
(T
(T
(T L 6837 220 L) 6838 220
(T L 6839 220 L)) 6840 220
(T
(T L 6841 220 L) 6842 220 L)) 6843 230
(T
(T
(T L 6844 230 L) 6845 220
(T L 6847 220 L)) 6848 220
(T
(T L 6849 230 L) 6850 230 L))) 6851 220
(T
(T
(T
(T L 6852 220 L) 6853 230
(T L 6854 230 L)) 6855 230
(T
(T L 6856 230 L) 6857 230 L)) 6858 220
(T
(T
(T L 6859 230 L) 6860 230
(T L 6861 230 L)) 6862 230
(T
(T L 6964 7 L) 6980 9 L)))))))) 7019 230
(T
(T
(T
(T
(T
(T
(T
(T
(T L 7020 220 L) 7021 230
(T L 7022 230 L)) 7023 230
(T
(T L 7024 230 L) 7025 230
(T L 7026 230 L))) 7027 230
(T
(T
(T L 7082 9 L) 7083 9
(T L 7142 7 L)) 7154 9
(T
(T L 7155 9 L) 7223 7 L))) 7376 230
(T
(T
(T
(T L 7377 230 L) 7378 230
(T L 7380 1 L)) 7381 220
(T
(T L 7382 220 L) 7383 220 L)) 7384 220
(T
(T
(T L 7385 220 L) 7386 230
(T L 7387 230 L)) 7388 220
(T
(T L 7389 220 L) 7390 220 L)))) 7391 220
(T
(T
(T
(T
(T L 7392 230 L) 7394 1
(T L 7395 1 L)) 7396 1
(T
(T L 7397 1 L) 7398 1
(T L 7399 1 L))) 7400 1
(T
(T
(T L 7405 220 L) 7412 230
(T L 7416 230 L)) 7417 230
(T
(T L 7616 230 L) 7617 230 L))) 7618 220
(T
(T
(T
(T L 7619 230 L) 7620 230
(T L 7621 230 L)) 7622 230
(T
(T L 7623 230 L) 7624 230 L)) 7625 230
(T
(T
(T L 7626 220 L) 7627 230
(T L 7628 230 L)) 7629 234
(T
(T L 7630 214 L) 7631 220 L))))) 7632 202
(T
(T
(T
(T
(T
(T L 7633 230 L) 7634 230
(T L 7635 230 L)) 7636 230
(T
(T L 7637 230 L) 7638 230
(T L 7639 230 L))) 7640 230
(T
(T
(T L 7641 230 L) 7642 230
(T L 7643 230 L)) 7644 230
(T
(T L 7645 230 L) 7646 230 L))) 7647 230
(T
(T
(T
(T L 7648 230 L) 7649 230
(T L 7650 230 L)) 7651 230
(T
(T L 7652 230 L) 7653 230 L)) 7654 230
(T
(T
(T L 7655 230 L) 7656 230
(T L 7657 230 L)) 7658 230
(T
(T L 7659 230 L) 7660 230 L)))) 7661 230
(T
(T
(T
(T
(T L 7662 230 L) 7663 230
(T L 7664 230 L)) 7665 230
(T
(T L 7666 230 L) 7667 230
(T L 7668 230 L))) 7669 230
(T
(T
(T L 7670 232 L) 7671 228
(T L 7672 228 L)) 7673 220
(T
(T L 7674 218 L) 7675 230 L))) 7676 233
(T
(T
(T
(T L 7677 220 L) 7678 230
(T L 7679 220 L)) 8400 230
(T
(T L 8401 230 L) 8402 1 L)) 8403 1
(T
(T
(T L 8404 230 L) 8405 230
(T L 8406 230 L)) 8407 230
(T
(T L 8408 1 L) 8409 1 L)))))) 8410 1
(T
(T
(T
(T
(T
(T
(T L 8411 230 L) 8412 230
(T L 8417 230 L)) 8421 1
(T
(T L 8422 1 L) 8423 230
(T L 8424 220 L))) 8425 230
(T
(T
(T L 8426 1 L) 8427 1
(T L 8428 220 L)) 8429 220
(T
(T L 8430 220 L) 8431 220 L))) 8432 230
(T
(T
(T
(T L 11503 230 L) 11504 230
(T L 11505 230 L)) 11647 9
(T
(T L 11744 230 L) 11745 230 L)) 11746 230
(T
(T
(T L 11747 230 L) 11748 230
(T L 11749 230 L)) 11750 230
(T
(T L 11751 230 L) 11752 230 L)))) 11753 230
(T
(T
(T
(T
(T L 11754 230 L) 11755 230
(T L 11756 230 L)) 11757 230
(T
(T L 11758 230 L) 11759 230
(T L 11760 230 L))) 11761 230
(T
(T
(T L 11762 230 L) 11763 230
(T L 11764 230 L)) 11765 230
(T
(T L 11766 230 L) 11767 230 L))) 11768 230
(T
(T
(T
(T L 11769 230 L) 11770 230
(T L 11771 230 L)) 11772 230
(T
(T L 11773 230 L) 11774 230 L)) 11775 230
(T
(T
(T L 12330 218 L) 12331 228
(T L 12332 232 L)) 12333 222
(T
(T L 12334 224 L) 12335 224 L))))) 12441 8
(T
(T
(T
(T
(T
(T L 12442 8 L) 42607 230
(T L 42612 230 L)) 42613 230
(T
(T L 42614 230 L) 42615 230
(T L 42616 230 L))) 42617 230
(T
(T
(T L 42618 230 L) 42619 230
(T L 42620 230 L)) 42621 230
(T
(T L 42654 230 L) 42655 230 L))) 42736 230
(T
(T
(T
(T L 42737 230 L) 43014 9
(T L 43052 9 L)) 43204 9
(T
(T L 43232 230 L) 43233 230 L)) 43234 230
(T
(T
(T L 43235 230 L) 43236 230
(T L 43237 230 L)) 43238 230
(T
(T L 43239 230 L) 43240 230 L)))) 43241 230
(T
(T
(T
(T
(T L 43242 230 L) 43243 230
(T L 43244 230 L)) 43245 230
(T
(T L 43246 230 L) 43247 230 L)) 43248 230
(T
(T
(T L 43249 230 L) 43307 220
(T L 43308 220 L)) 43309 220
(T
(T L 43347 9 L) 43443 7 L))) 43456 9
(T
(T
(T
(T L 43696 230 L) 43698 230
(T L 43699 230 L)) 43700 220
(T
(T L 43703 230 L) 43704 230 L)) 43710 230
(T
(T
(T L 43711 230 L) 43713 230
(T L 43766 9 L)) 44013 9
(T
(T L 64286 26 L) 65056 230 L))))))) 65057 230
(T
(T
(T
(T
(T
(T
(T
(T L 65058 230 L) 65059 230
(T L 65060 230 L)) 65061 230
(T
(T L 65062 230 L) 65063 220
(T L 65064 220 L))) 65065 220
(T
(T
(T L 65066 220 L) 65067 220
(T L 65068 220 L)) 65069 220
(T
(T L 65070 230 L) 65071 230 L))) 66045 220
(T
(T
(T
(T L 66272 220 L) 66422 230
(T L 66423 230 L)) 66424 230
(T
(T L 66425 230 L) 66426 230 L)) 68109 220
(T
(T
(T L 68111 230 L) 68152 230
(T L 68153 1 L)) 68154 220
(T
(T L 68159 9 L) 68325 230 L)))) 68326 220
(T
(T
(T
(T
(T L 68900 230 L) 68901 230
(T L 68902 230 L)) 68903 230
(T
(T L 69291 230 L) 69292 230
(T L 69373 220 L))) 69374 220
(T
(T
(T L 69375 220 L) 69446 220
(T L 69447 220 L)) 69448 230
(T
(T L 69449 230 L) 69450 230 L))) 69451 220
(T
(T
(T
(T L 69452 230 L) 69453 220
(T L 69454 220 L)) 69455 220
(T
(T L 69456 220 L) 69506 230 L)) 69507 220
(T
(T
(T L 69508 230 L) 69509 220
(T L 69702 9 L)) 69744 9
(T
(T L 69759 9 L) 69817 9 L))))) 69818 7
(T
(T
(T
(T
(T
(T L 69888 230 L) 69889 230
(T L 69890 230 L)) 69939 9
(T
(T L 69940 9 L) 70003 7
(T L 70080 9 L))) 70090 7
(T
(T
(T L 70197 9 L) 70198 7
(T L 70377 7 L)) 70378 9
(T
(T L 70459 7 L) 70460 7 L))) 70477 9
(T
(T
(T
(T L 70502 230 L) 70503 230
(T L 70504 230 L)) 70505 230
(T
(T L 70506 230 L) 70507 230 L)) 70508 230
(T
(T
(T L 70512 230 L) 70513 230
(T L 70514 230 L)) 70515 230
(T
(T L 70516 230 L) 70722 9 L)))) 70726 7
(T
(T
(T
(T
(T L 70750 230 L) 70850 9
(T L 70851 7 L)) 71103 9
(T
(T L 71104 7 L) 71231 9 L)) 71350 9
(T
(T
(T L 71351 7 L) 71467 9
(T L 71737 9 L)) 71738 7
(T
(T L 71997 9 L) 71998 9 L))) 72003 7
(T
(T
(T
(T L 72160 9 L) 72244 9
(T L 72263 9 L)) 72345 9
(T
(T L 72767 9 L) 73026 7 L)) 73028 9
(T
(T
(T L 73029 9 L) 73111 9
(T L 73537 9 L)) 73538 9
(T
(T L 92912 1 L) 92913 1 L)))))) 92914 1
(T
(T
(T
(T
(T
(T
(T L 92915 1 L) 92916 1
(T L 92976 230 L)) 92977 230
(T
(T L 92978 230 L) 92979 230
(T L 92980 230 L))) 92981 230
(T
(T
(T L 92982 230 L) 94192 6
(T L 94193 6 L)) 113822 1
(T
(T L 119141 216 L) 119142 216 L))) 119143 1
(T
(T
(T
(T L 119144 1 L) 119145 1
(T L 119149 226 L)) 119150 216
(T
(T L 119151 216 L) 119152 216 L)) 119153 216
(T
(T
(T L 119154 216 L) 119163 220
(T L 119164 220 L)) 119165 220
(T
(T L 119166 220 L) 119167 220 L)))) 119168 220
(T
(T
(T
(T
(T L 119169 220 L) 119170 220
(T L 119173 230 L)) 119174 230
(T
(T L 119175 230 L) 119176 230
(T L 119177 230 L))) 119178 220
(T
(T
(T L 119179 220 L) 119210 230
(T L 119211 230 L)) 119212 230
(T
(T L 119213 230 L) 119362 230 L))) 119363 230
(T
(T
(T
(T L 119364 230 L) 122880 230
(T L 122881 230 L)) 122882 230
(T
(T L 122883 230 L) 122884 230 L)) 122885 230
(T
(T
(T L 122886 230 L) 122888 230
(T L 122889 230 L)) 122890 230
(T
(T L 122891 230 L) 122892 230 L))))) 122893 230
(T
(T
(T
(T
(T
(T L 122894 230 L) 122895 230
(T L 122896 230 L)) 122897 230
(T
(T L 122898 230 L) 122899 230
(T L 122900 230 L))) 122901 230
(T
(T
(T L 122902 230 L) 122903 230
(T L 122904 230 L)) 122907 230
(T
(T L 122908 230 L) 122909 230 L))) 122910 230
(T
(T
(T
(T L 122911 230 L) 122912 230
(T L 122913 230 L)) 122915 230
(T
(T L 122916 230 L) 122918 230 L)) 122919 230
(T
(T
(T L 122920 230 L) 122921 230
(T L 122922 230 L)) 123023 230
(T
(T L 123184 230 L) 123185 230 L)))) 123186 230
(T
(T
(T
(T
(T L 123187 230 L) 123188 230
(T L 123189 230 L)) 123190 230
(T
(T L 123566 230 L) 123628 230 L)) 123629 230
(T
(T
(T L 123630 230 L) 123631 230
(T L 124140 232 L)) 124141 232
(T
(T L 124142 220 L) 124143 230 L))) 125136 220
(T
(T
(T
(T L 125137 220 L) 125138 220
(T L 125139 220 L)) 125140 220
(T
(T L 125141 220 L) 125142 220 L)) 125252 230
(T
(T
(T L 125253 230 L) 125254 230
(T L 125255 230 L)) 125256 230
(T
(T L 125257 230 L) 125258 7 L))))))))).

Definition ucd15 : ucd := {|
  ucd_dec := tlookup dec_table;
  ucd_ccc c := match tlookup ccc_table c with Some k => k | None => 0 end
|}.
