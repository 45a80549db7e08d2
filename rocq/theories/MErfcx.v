(** Generated by tools/gen_erfcx.py from /repo/src/math/mod.rs:290-801:
    the match arms 0_u8 .. 99_u8 of [erfcx_helper].  A row is the constant [c]
    of [let t = 2.0*z - c] and the seven coefficients of the nested polynomial
    in order of increasing degree. *)
From Coq Require Import ZArith List.
From Verif Require Import Scalar.
Import ListNotations.
Section Model.
Context {T : Type} {Sc : Scalar T}.
Definition erfcx_table : list (T * list T) := [
  (* 0_u8, line 297 *) ((sdec 1 0), [(sdec 7087803245410644 19); (sdec 712340910470263 18); (sdec 35779077297597742 22); (sdec 17403143962587938 24); (sdec 8171066004730779 26); (sdec 3688502236043496 28); (sdec 15917038551111112 31)]);
  (* 1_u8, line 302 *) ((sdec 3 0), [(sdec 21479143208285143 19); (sdec 7268640236737999 19); (sdec 36843175430938994 22); (sdec 180718412721492 22); (sdec 8549644929604033 26); (sdec 3885203751853429 28); (sdec 16868473576888889 31)]);
  (* 2_u8, line 307 *) ((sdec 5 0), [(sdec 36165255935630175 19); (sdec 7418209232355551 19); (sdec 3794831995752824 21); (sdec 18771627021793087 24); (sdec 8948471512241509 26); (sdec 4093585851777244 28); (sdec 1787206146488889 30)]);
  (* 3_u8, line 312 *) ((sdec 7 0), [(sdec 5115498386003198 18); (sdec 7572284073479166 19); (sdec 390964257267357 20); (sdec 1950416870430047 23); (sdec 93687503063179 24); (sdec 43143925959079665 29); (sdec 18939926435555556 31)]);
  (* 4_u8, line 317 *) ((sdec 9 0), [(sdec 6645751317267305 18); (sdec 7731040605444745 19); (sdec 4028951058939944 21); (sdec 20271233238288382 24); (sdec 981176313217091 25); (sdec 4548420740601775 28); (sdec 2007635221333333 30)]);
  (* 5_u8, line 322 *) ((sdec 11 0), [(sdec 8208238997024121 18); (sdec 7894662961188171 19); (sdec 4152970155262265 21); (sdec 21074693344544657 24); (sdec 10278874108587318 26); (sdec 4796520139061334 28); (sdec 21285907413333335 31)]);
  (* 6_u8, line 327 *) ((sdec 13 0), [(sdec 9803953727535219 18); (sdec 8063344010834284 19); (sdec 4281924132973699 21); (sdec 21916534346907168 24); (sdec 10771535136565471 26); (sdec 5059597262369282 28); (sdec 22573462684444446 31)]);
  (* 7_u8, line 332 *) ((sdec 15 0), [(sdec 11433927298290302 18); (sdec 8237285838319657 19); (sdec 4416049531176544 21); (sdec 22798861426211987 24); (sdec 1129129174587924 25); (sdec 5338618936581688 28); (sdec 23944209546666666 31)]);
  (* 8_u8, line 337 *) ((sdec 17 0), [(sdec 13099232878814654 18); (sdec 8416700246790696 19); (sdec 4555595898845751 21); (sdec 23723907357214174 24); (sdec 11839789326602696 26); (sdec 5634616306755024 28); (sdec 25403679644444446 31)]);
  (* 9_u8, line 342 *) ((sdec 19 0), [(sdec 14800987015587536 18); (sdec 8601809294634594 19); (sdec 4700826584881687 21); (sdec 24694040760197315 24); (sdec 12418779768752298 26); (sdec 5948689037032026 28); (sdec 2695776456888889 30)]);
  (* 10_u8, line 347 *) ((sdec 21 0), [(sdec 1654035173939407 17); (sdec 8792845864124146 19); (sdec 4852019579300175 21); (sdec 2571177490088171 23); (sdec 13030128534230821 26); (sdec 6282009758687478 28); (sdec 28612737351111112 31)]);
  (* 11_u8, line 352 *) ((sdec 23 0), [(sdec 18318536789842393 18); (sdec 8990054264789172 19); (sdec 5009468408955337 21); (sdec 2677977707421807 23); (sdec 13675822186304616 26); (sdec 6635828774535271 28); (sdec 30375273884444443 31)]);
  (* 12_u8, line 357 *) ((sdec 25 0), [(sdec 20136801964214277 18); (sdec 9193690873767368 19); (sdec 51734830914104276 22); (sdec 27900878609710433 24); (sdec 1435797640280904 25); (sdec 7011479031104373 28); (sdec 32252476 22)]);
  (* 13_u8, line 362 *) ((sdec 27 0), [(sdec 21996459598282742 18); (sdec 9404024815536678 19); (sdec 5344391150804117 21); (sdec 29078085538049375 24); (sdec 1507884450032973 25); (sdec 741038136474992 27); (sdec 3425189232 24)]);
  (* 14_u8, line 367 *) ((sdec 29 0), [(sdec 2389887718722632 17); (sdec 9621338683590018 19); (sdec 55225386998049015 22); (sdec 30314589961047687 24); (sdec 15840826497296334 26); (sdec 7834050047241445 28); (sdec 36381553564444445 31)]);
  (* 15_u8, line 372 *) ((sdec 31 0), [(sdec 25845480155298518 18); (sdec 9845929306782012 19); (sdec 5708291592005185 21); (sdec 3161378216916483 23); (sdec 1664647874552963 25); (sdec 828409859287854 27); (sdec 3864997576888889 30)]);
  (* 16_u8, line 377 *) ((sdec 33 0), [(sdec 27837754783474698 18); (sdec 10078108563256892 19); (sdec 59020366493792216 22); (sdec 3297926355324652 23); (sdec 17498524159268457 26); (sdec 8762245912484253 28); (sdec 4106620648888889 30)]);
  (* 17_u8, line 382 *) ((sdec 35 0), [(sdec 29877251304899308 18); (sdec 1031820424505735 18); (sdec 6104182969716206 21); (sdec 3441486035954272 23); (sdec 1839986307293409 25); (sdec 9270322736636504 28); (sdec 43639844053333335 31)]);
  (* 18_u8, line 387 *) ((sdec 37 0), [(sdec 3196558717859645 17); (sdec 10566560976716574 19); (sdec 6315163319241458 21); (sdec 3592463833952192 23); (sdec 19353584758781173 26); (sdec 9810278385988926 28); (sdec 46381060817777776 31)]);
  (* 19_u8, line 392 *) ((sdec 39 0), [(sdec 3410445055258834 17); (sdec 10823541191350532 19); (sdec 6535435615955393 21); (sdec 37512918348533524 24); (sdec 20362979635817883 26); (sdec 10384187833037281 28); (sdec 4930062526222222 30)]);
  (* 20_u8, line 397 *) ((sdec 41 0), [(sdec 36295603928292425 18); (sdec 11089526167995269 19); (sdec 6765484509551836 21); (sdec 3918429294991359 23); (sdec 21431552202133775 26); (sdec 10994259106646732 28); (sdec 5240994910222222 30)]);
  (* 21_u8, line 402 *) ((sdec 43 0), [(sdec 3854088803884051 17); (sdec 1136491713417542 18); (sdec 7005823064124631 21); (sdec 40943644083718584 24); (sdec 22563034723692883 26); (sdec 11642841011361993 28); (sdec 5572109287111111 30)]);
  (* 22_u8, line 407 *) ((sdec 45 0), [(sdec 4084222595478596 17); (sdec 11650136437945675 19); (sdec 72569945502343 19); (sdec 4279616186185504 23); (sdec 23761401711005023 26); (sdec 12332431172381557 28); (sdec 5924680236444444 30)]);
  (* 23_u8, line 412 *) ((sdec 47 0), [(sdec 4320162743154022 17); (sdec 11945628793917271 19); (sdec 751957435328492 20); (sdec 4474736455396099 23); (sdec 2503088521647295 25); (sdec 13065684400300477 28); (sdec 6300053285333334 30)]);
  (* 24_u8, line 417 *) ((sdec 49 0), [(sdec 4562119351381047 17); (sdec 1225186260806753 18); (sdec 7794172005555192 21); (sdec 4680311983095446 23); (sdec 26375990983978426 26); (sdec 1384542137097712 27); (sdec 66996477404444446 31)]);
  (* 25_u8, line 422 *) ((sdec 51 0), [(sdec 48103121413299865 18); (sdec 12569331386432195 19); (sdec 8081433349636768 21); (sdec 4896966733568202 23); (sdec 27801515481905746 26); (sdec 14674637611609885 28); (sdec 7124958935111111 30)]);
  (* 26_u8, line 427 *) ((sdec 53 0), [(sdec 5064970967698334 17); (sdec 12898555233099055 19); (sdec 838204284145688 20); (sdec 5125364265255184 23); (sdec 29312563849675507 26); (sdec 15556512782814827 28); (sdec 7577560782222223 30)]);
  (* 27_u8, line 432 *) ((sdec 55 0), [(sdec 53263363664388864 18); (sdec 13240082443256975 19); (sdec 8696726001500767 21); (sdec 536621027503968 22); (sdec 309145687866348 24); (sdec 16494420240828494 28); (sdec 8059107964444444 30)]);
  (* 28_u8, line 437 *) ((sdec 57 0), [(sdec 5594660135350001 17); (sdec 1359449119740819 18); (sdec 9026252023301638 21); (sdec 56202552975056696 24); (sdec 3261331041050314 25); (sdec 17491936862246368 28); (sdec 8571338168888888 30)]);
  (* 29_u8, line 442 *) ((sdec 59 0), [(sdec 58702059496154084 18); (sdec 13962391363223647 19); (sdec 9371436548731279 21); (sdec 58882975670265285 24); (sdec 34414937110591756 26); (sdec 1855285310975186 27); (sdec 911607367111111 29)]);
  (* 30_u8, line 447 *) ((sdec 61 0), [(sdec 61532500145144775 18); (sdec 14344426411912014 19); (sdec 9733144620101681 21); (sdec 6171186050734718 23); (sdec 363259874182953 24); (sdec 19681183310134517 28); (sdec 969522384 23)]);
  (* 31_u8, line 452 *) ((sdec 63 0), [(sdec 6444081757665329 17); (sdec 14741275456383132 19); (sdec 10112293819576438 21); (sdec 6469823660593325 23); (sdec 38353412915303665 26); (sdec 2088117611438512 27); (sdec 1031078448 23)]);
  (* 32_u8, line 457 *) ((sdec 65 0), [(sdec 6743004563313039 17); (sdec 1515365541891654 18); (sdec 10509857606888329 21); (sdec 6785170652936334 23); (sdec 4050460219481114 25); (sdec 22157325110542536 28); (sdec 10964842115555555 30)]);
  (* 33_u8, line 462 *) ((sdec 67 0), [(sdec 7050336551333886 17); (sdec 1558232333649571 18); (sdec 1092686886686523 20); (sdec 7118248223961351 23); (sdec 42787405890153386 26); (sdec 2351437952227442 27); (sdec 11659571751111111 30)]);
  (* 34_u8, line 467 *) ((sdec 69 0), [(sdec 736641140379446 16); (sdec 1602807881243882 18); (sdec 11364423678778208 21); (sdec 7470142309742318 23); (sdec 4521016277747649 25); (sdec 2495735500408857 27); (sdec 12397238257777777 30)]);
  (* 35_u8, line 472 *) ((sdec 71 0), [(sdec 7691579242081956 17); (sdec 16491766623447889 19); (sdec 11823685320041301 21); (sdec 7842007599378154 23); (sdec 4778172695691648 25); (sdec 26491544403815725 28); (sdec 13180196462222222 30)]);
  (* 36_u8, line 477 *) ((sdec 73 0), [(sdec 8026207557809462 17); (sdec 16974279491709504 19); (sdec 12305888517309891 21); (sdec 8235071769897904 23); (sdec 5051149610985711 25); (sdec 281225284976269 26); (sdec 14010889635555555 30)]);
  (* 37_u8, line 482 *) ((sdec 75 0), [(sdec 8370682200898036 17); (sdec 17476561032212657 19); (sdec 12812343958540764 21); (sdec 8650639951503644 23); (sdec 5340944082386946 25); (sdec 29856186620887555 28); (sdec 1489185159111111 29)]);
  (* 38_u8, line 487 *) ((sdec 77 0), [(sdec 8725408428446171 17); (sdec 17999608886001962 19); (sdec 13344443080089493 21); (sdec 90900994316429 21); (sdec 5648613497261646 25); (sdec 3169870708003396 27); (sdec 15825697795555556 30)]);
  (* 39_u8, line 492 *) ((sdec 79 0), [(sdec 9090812018217274 17); (sdec 185444780506577 17); (sdec 1390366314342612 20); (sdec 9554924606254991 23); (sdec 5975278712524205 25); (sdec 336565973660991 26); (sdec 16815130613333334 30)]);
  (* 40_u8, line 497 *) ((sdec 81 0), [(sdec 9467340450807549 17); (sdec 19112284419887304 19); (sdec 14491572616545005 21); (sdec 10046682186333614 23); (sdec 63221272959791 23); (sdec 3573669397558913 27); (sdec 1786293159111111 29)]);
  (* 41_u8, line 502 *) ((sdec 83 0), [(sdec 9855464164800445 17); (sdec 19704208544725622 19); (sdec 15109836875625445 21); (sdec 10567036667675984 23); (sdec 6690416864001935 25); (sdec 3794617185082434 27); (sdec 1897195904 23)]);
  (* 42_u8, line 507 *) ((sdec 85 0), [(sdec 1025567788947009 16); (sdec 20321499629472857 19); (sdec 1576022424296218 20); (sdec 11117756071353507 23); (sdec 7081478511009766 25); (sdec 4029255327663256 27); (sdec 20145143075555556 30)]);
  (* 43_u8, line 512 *) ((sdec 87 0), [(sdec 10668502059865094 17); (sdec 2096547977614873 18); (sdec 16444612377624982 21); (sdec 11700717962026153 23); (sdec 7496720325093842 25); (sdec 42783716186085925 28); (sdec 2138547936 23)]);
  (* 44_u8, line 517 *) ((sdec 89 0), [(sdec 11094484319386444 17); (sdec 2163754849190817 18); (sdec 17164995035719656 21); (sdec 12317915750735938 23); (sdec 7937630983149963 25); (sdec 4542790176310636 27); (sdec 22696025653333333 30)]);
  (* 45_u8, line 522 *) ((sdec 91 0), [(sdec 11534201115268805 17); (sdec 2233918747454642 18); (sdec 17923489217504226 21); (sdec 12971465288245997 23); (sdec 8405783418038907 25); (sdec 48233721206418025 28); (sdec 24079890062222222 30)]);
  (* 46_u8, line 527 *) ((sdec 93 0), [(sdec 11988259392684095 17); (sdec 2307196569191869 18); (sdec 18722342718958937 21); (sdec 13663611754337958 23); (sdec 8902838548849328 25); (sdec 5121016156922585 27); (sdec 2554022711111111 29)]);
  (* 47_u8, line 532 *) ((sdec 95 0), [(sdec 12457298393509812 17); (sdec 23837544771809576 19); (sdec 1956394210571161 20); (sdec 1439673684773947 22); (sdec 9430549064645925 25); (sdec 5436659058313422 27); (sdec 2708022592 23)]);
  (* 48_u8, line 537 *) ((sdec 97 0), [(sdec 12941991566142438 17); (sdec 2463768471950886 18); (sdec 2045082112747588 20); (sdec 15173366280523906 23); (sdec 9990763250638903 25); (sdec 5771276031135163 27); (sdec 28703099555555555 30)]);
  (* 49_u8, line 542 *) ((sdec 99 0), [(sdec 13443048593088697 17); (sdec 25474249981080823 19); (sdec 21385669591362916 21); (sdec 15996177579900442 23); (sdec 10585428844575133 25); (sdec 6125880953678788 27); (sdec 3041208014222222 29)]);
  (* 50_u8, line 547 *) ((sdec 101 0), [(sdec 13961217543434562 17); (sdec 26349215871051762 19); (sdec 22371342712572568 21); (sdec 16868008199296823 23); (sdec 11216596910444997 25); (sdec 6501526475309089 27); (sdec 3221039450666667 29)]);
  (* 51_u8, line 552 *) ((sdec 103 0), [(sdec 144972871576738 15); (sdec 2726467538398244 18); (sdec 2341087096105095 20); (sdec 17791863939526378 23); (sdec 11886425714330958 25); (sdec 68993039665054284 28); (sdec 34101266222222225 30)]);
  (* 52_u8, line 557 *) ((sdec 105 0), [(sdec 15052089272774619 17); (sdec 28222846410136237 19); (sdec 24507470422713398 21); (sdec 18770927679626137 23); (sdec 1259718458758337 24); (sdec 7320343304922983 27); (sdec 36087889048888887 30)]);
  (* 53_u8, line 562 *) ((sdec 107 0), [(sdec 1562650139577461 16); (sdec 29226079376196627 19); (sdec 2566455369376845 20); (sdec 19808568415654462 23); (sdec 13351257759815557 25); (sdec 7765812489104676 27); (sdec 3817342003555556 29)]);
  (* 54_u8, line 567 *) ((sdec 109 0), [(sdec 16221449434620738 17); (sdec 30276865332726477 19); (sdec 26885741326534563 21); (sdec 20908350604346383 23); (sdec 1415114814424073 24); (sdec 8236917066597432 27); (sdec 4036095745777778 29)]);
  (* 55_u8, line 572 *) ((sdec 111 0), [(sdec 1683791059541213 16); (sdec 31377844510793083 19); (sdec 28174873844911173 21); (sdec 22074043807045782 23); (sdec 1499948105599609 24); (sdec 8734899366193081 27); (sdec 4265352897777778 29)]);
  (* 56_u8, line 577 *) ((sdec 113 0), [(sdec 1747691645565937 16); (sdec 32531815370903066 19); (sdec 29536024347344365 21); (sdec 23309632627767074 23); (sdec 15899007843582445 25); (sdec 9261037523542736 27); (sdec 45054073102222224 30)]);
  (* 57_u8, line 582 *) ((sdec 115 0), [(sdec 18139556223643702 17); (sdec 33741744168097 16); (sdec 309735117147095 19); (sdec 2461932693759229 22); (sdec 16852609412267751 25); (sdec 981664429428549 26); (sdec 4756541809777778 29)]);
  (* 58_u8, line 587 *) ((sdec 117 0), [(sdec 18826980194443665 17); (sdec 35010775057740316 19); (sdec 3249191444001427 20); (sdec 2600757237588632 22); (sdec 17863299617388377 25); (sdec 10403065638343878 27); (sdec 5019026583111111 29)]);
  (* 59_u8, line 592 *) ((sdec 119 0), [(sdec 19540403413693969 17); (sdec 36342240767211326 19); (sdec 34096085096200906 21); (sdec 27479061117017636 23); (sdec 18934228504790033 25); (sdec 11021679075323599 27); (sdec 5293117173333333 29)]);
  (* 60_u8, line 597 *) ((sdec 121 0), [(sdec 20281109560651886 17); (sdec 377396738593236 17); (sdec 3579116545759241 20); (sdec 29038742889416174 23); (sdec 20068685374849 22); (sdec 11673891799578381 27); (sdec 55790523093333335 30)]);
  (* 61_u8, line 602 *) ((sdec 123 0), [(sdec 21050455062669335 17); (sdec 3920681861392565 18); (sdec 37582602289680105 21); (sdec 30691836231886877 23); (sdec 21270101645763676 25); (sdec 12361138551062899 27); (sdec 5877052016 23)]);
  (* 62_u8, line 607 *) ((sdec 125 0), [(sdec 21849873453703333 17); (sdec 4074764355468959 18); (sdec 3947616382098671 20); (sdec 3244383997013992 22); (sdec 2254205349151868 24); (sdec 13084879235290859 27); (sdec 6187315326222222 29)]);
  (* 63_u8, line 612 *) ((sdec 127 0), [(sdec 2268087999004323 16); (sdec 4236635464862852 18); (sdec 41477956909656896 21); (sdec 3430054489450281 22); (sdec 23888264229264067 25); (sdec 13846596292818514 27); (sdec 6510018375111112 29)]);
  (* 64_u8, line 617 *) ((sdec 129 0), [(sdec 23545076536988704 17); (sdec 4406740920636517 18); (sdec 435944449162247 19); (sdec 36268045617760415 23); (sdec 253126064308532 23); (sdec 14647791812837902 27); (sdec 6845312263111111 29)]);
  (* 65_u8, line 622 *) ((sdec 131 0), [(sdec 24444156740777434 17); (sdec 4585553051160578 18); (sdec 45832466292683086 21); (sdec 3835275259003303 22); (sdec 26819103733055602 25); (sdec 15489984390884758 27); (sdec 7193320636444444 29)]);
  (* 66_u8, line 627 *) ((sdec 133 0), [(sdec 25379911500634267 17); (sdec 4773572320865003 18); (sdec 48199253896534185 21); (sdec 40561404245564733 23); (sdec 28411932320871164 25); (sdec 1637470573645832 26); (sdec 7554137982222222 29)]);
  (* 67_u8, line 632 *) ((sdec 135 0), [(sdec 26354234756393613 17); (sdec 49713289477083785 19); (sdec 5070245503693037 20); (sdec 42901079254268185 23); (sdec 3009542205890048 24); (sdec 1730349702534734 26); (sdec 7927827336888888 29)]);
  (* 68_u8, line 637 *) ((sdec 137 0), [(sdec 27369129607732345 17); (sdec 5179384602305264 18); (sdec 533501522583266 19); (sdec 4537920884886502 22); (sdec 3187405724581438 24); (sdec 1827790501024511 26); (sdec 8314418236444444 29)]);
  (* 69_u8, line 642 *) ((sdec 139 0), [(sdec 28426714781640317 17); (sdec 5398334191669514 18); (sdec 5615088486525581 20); (sdec 4800358919649474 22); (sdec 33752476967570798 25); (sdec 19299477888083468 27); (sdec 8713904913777777 29)]);
  (* 70_u8, line 647 *) ((sdec 141 0), [(sdec 2952923146534852 16); (sdec 56288077305420795 19); (sdec 5911367118991331 20); (sdec 5078239378174484 22); (sdec 35735475025851714 25); (sdec 2036976093701707 26); (sdec 9126244261333333 29)]);
  (* 71_u8, line 652 *) ((sdec 143 0), [(sdec 3067905052252884 16); (sdec 587147230327454 17); (sdec 6224803160219768 20); (sdec 5372418576620094 22); (sdec 3782799941896024 24); (sdec 2149029193044454 26); (sdec 9551353918222223 29)]);
  (* 72_u8, line 657 *) ((sdec 145 0), [(sdec 3187868011117332 16); (sdec 612703411923391 17); (sdec 6556401225970764 20); (sdec 5683793028783774 22); (sdec 4003515135339238 24); (sdec 22662596341239295 27); (sdec 9989110976 23)]);
  (* 73_u8, line 662 *) ((sdec 147 0), [(sdec 33130773722152623 17); (sdec 6396240664679808 18); (sdec 690722095929424 19); (sdec 6013300666188594 22); (sdec 4236218376588347 24); (sdec 23888182347073697 27); (sdec 10439349811555555 29)]);
  (* 74_u8, line 667 *) ((sdec 149 0), [(sdec 34438138658041334 17); (sdec 66798829540414 16); (sdec 7278379551860356 20); (sdec 636192204432288 21); (sdec 4481449933651445 24); (sdec 25168535651285476 27); (sdec 10901861383111111 29)]);
  (* 75_u8, line 672 *) ((sdec 151 0), [(sdec 35803744972380175 17); (sdec 6978797883488269 18); (sdec 7671054337145482 20); (sdec 6730681530891739 22); (sdec 4739764797584523 24); (sdec 2650511414114305 26); (sdec 11376390933333332 29)]);
  (* 76_u8, line 677 *) ((sdec 153 0), [(sdec 37230734890119727 17); (sdec 7293870689646138 18); (sdec 8086485454267072 20); (sdec 7120648471806269 22); (sdec 50117323769745884 25); (sdec 27899342394100073 27); (sdec 11862637614222222 29)]);
  (* 77_u8, line 682 *) ((sdec 155 0), [(sdec 3872243273055545 16); (sdec 762603751625498 17); (sdec 8525978581000461 20); (sdec 7532938330517133 22); (sdec 5297936136838812 24); (sdec 2935260605416409 26); (sdec 12360253370666666 29)]);
  (* 78_u8, line 687 *) ((sdec 157 0), [(sdec 4028235535461694 16); (sdec 7976288091502973 18); (sdec 8990907734243825 20); (sdec 7968713796195619 22); (sdec 55989731807360405 25); (sdec 30866246101464866 27); (sdec 12868841946666668 29)]);
  (* 79_u8, line 692 *) ((sdec 159 0), [(sdec 4191422315891379 16); (sdec 8345668518695046 18); (sdec 9482718135925016 20); (sdec 8429185856178314 22); (sdec 5915453775108349 24); (sdec 3244155303434747 26); (sdec 1338795794311111 28)]);
  (* 80_u8, line 697 *) ((sdec 161 0), [(sdec 43621971639463786 17); (sdec 873528418282895 17); (sdec 100029291420668 18); (sdec 8915614828021988 22); (sdec 624800081507886 23); (sdec 3407976098345888 26); (sdec 13917107176888888 29)]);
  (* 81_u8, line 702 *) ((sdec 163 0), [(sdec 4540976354853433 16); (sdec 9146302775554824 18); (sdec 10553137232446167 20); (sdec 9429311346463863 22); (sdec 6597249231221996 24); (sdec 35782041795476564 27); (sdec 14455745872 23)]);
  (* 82_u8, line 707 *) ((sdec 165 0), [(sdec 4728200166851233 16); (sdec 9579957440886046 18); (sdec 11135019058000067 20); (sdec 9971637300550903 22); (sdec 6963845336995697 24); (sdec 37549499088161346 27); (sdec 1500328071288889 28)]);
  (* 83_u8, line 712 *) ((sdec 167 0), [(sdec 4924334222717984 16); (sdec 10037550043909497 18); (sdec 11750334542845235 20); (sdec 10544006716188967 22); (sdec 7348446116824222 24); (sdec 3938316232643575 26); (sdec 15559069118222223 29)]);
  (* 84_u8, line 717 *) ((sdec 169 0), [(sdec 5129870897920926 16); (sdec 10520454564612427 18); (sdec 12400930037494997 20); (sdec 11147886579371265 22); (sdec 775171845505687 23); (sdec 41283980931872625 27); (sdec 1612241968 22)]);
  (* 85_u8, line 722 *) ((sdec 171 0), [(sdec 5345330797910137 16); (sdec 11030120618800727 18); (sdec 1308874151957227 19); (sdec 11784797595374515 22); (sdec 8174338306304482 24); (sdec 43252818449517084 27); (sdec 1669259264 22)]);
  (* 86_u8, line 727 *) ((sdec 173 0), [(sdec 557126430711693 15); (sdec 11568077107929736 18); (sdec 13815797838036652 20); (sdec 12456314879260905 22); (sdec 8616989807896932 24); (sdec 4529044681153965 26); (sdec 17268801084444443 29)]);
  (* 87_u8, line 732 *) ((sdec 175 0), [(sdec 5808253212251933 16); (sdec 12135935999503878 18); (sdec 1458422399666584 19); (sdec 1316406857309571 21); (sdec 9080364335510602 24); (sdec 4739754071312462 26); (sdec 1785021160888889 28)]);
  (* 88_u8, line 737 *) ((sdec 177 0), [(sdec 6056912402529337 16); (sdec 1273539623952555 17); (sdec 15396244472258864 20); (sdec 13909744385382817 22); (sdec 9565159503230623 24); (sdec 4957467212766904 26); (sdec 18435945564444444 29)]);
  (* 89_u8, line 742 *) ((sdec 179 0), [(sdec 6317891649471572 16); (sdec 13368247798287032 18); (sdec 16254186562762076 20); (sdec 14695084048334055 22); (sdec 10072078109604152 24); (sdec 5182230499568071 26); (sdec 19025081422222223 29)]);
  (* 90_u8, line 747 *) ((sdec 181 0), [(sdec 6591877468972532 16); (sdec 14036375850601992 18); (sdec 17160483760259707 20); (sdec 15521885688723188 22); (sdec 1060182703153528 23); (sdec 5414079010583752 26); (sdec 19616655146666667 29)]);
  (* 91_u8, line 752 *) ((sdec 183 0), [(sdec 6879595068317443 16); (sdec 14741765091365868 18); (sdec 18117679143520433 20); (sdec 16392004108230584 22); (sdec 11155116068018043 24); (sdec 5653036019492569 26); (sdec 20209663662222222 29)]);
  (* 92_u8, line 757 *) ((sdec 185 0), [(sdec 7181810380872997 16); (sdec 15486504187117112 18); (sdec 19128428784550924 20); (sdec 17307350969359975 22); (sdec 11732656736113608 24); (sdec 5899112528756384 26); (sdec 20803065333333334 29)]);
  (* 93_u8, line 762 *) ((sdec 187 0), [(sdec 7499332191172625 16); (sdec 16272790364044783 18); (sdec 20195505163377912 20); (sdec 18269894883203348 22); (sdec 12335161021630225 24); (sdec 6152306831216908 26); (sdec 21395783431111112 29)]);
  (* 94_u8, line 767 *) ((sdec 189 0), [(sdec 7833014353128349 16); (sdec 1710293413265243 17); (sdec 21321800585063328 20); (sdec 19281661395543912 22); (sdec 12963340087354342 24); (sdec 6412604099806635 26); (sdec 21986708942222223 29)]);
  (* 95_u8, line 772 *) ((sdec 191 0), [(sdec 8183758104102381 16); (sdec 17979364149044223 18); (sdec 2251033059275313 19); (sdec 20344732868018175 22); (sdec 1361790294183995 23); (sdec 6679976008397248 26); (sdec 2257470126222222 28)]);
  (* 96_u8, line 777 *) ((sdec 193 0), [(sdec 8552514477568512 16); (sdec 1890463221254756 17); (sdec 23764237370371255 20); (sdec 2146124825130639 21); (sdec 14299555071870523 24); (sdec 6954380386469418 26); (sdec 23158593688888887 29)]);
  (* 97_u8, line 782 *) ((sdec 195 0), [(sdec 8940286817084994 16); (sdec 198814183991272 16); (sdec 25086793128395994 20); (sdec 22633402747585233 22); (sdec 1500899704211653 23); (sdec 7235760907504394 26); (sdec 23737194737777777 29)]);
  (* 98_u8, line 787 *) ((sdec 197 0), [(sdec 9348133394287079 16); (sdec 2091253632978037 17); (sdec 2648140346599848 19); (sdec 23863447359754924 22); (sdec 15746923065472183 24); (sdec 7524046814172015 26); (sdec 24309291271111114 29)]);
  (* 99_u8, line 792 *) ((sdec 199 0), [(sdec 9777170133588503 16); (sdec 2200093857283048 17); (sdec 2795161070268238 19); (sdec 25153688325245316 22); (sdec 1651401954782282 23); (sdec 7819152682936823 26); (sdec 24873652355555557 29)])
].
End Model.
