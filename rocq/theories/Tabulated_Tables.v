(** The tables of the low-energy corrections,
    PROPOSAL/crosssection/parametrization/ParamTables.cxx.  The numbers are copied digit by
    digit: [D m k] stands for m * 10^k / 10^53.  Rounding of the literals to double
    precision is not modelled. *)
From Coq Require Import List PArith NArith ZArith.
From Verif Require Import Weak_Tables.
Import ListNotations.

(** A_energies, ParamTables.cxx:18252-18270: kinetic energies in MeV *)
Definition screening_energies : list decimal :=
  [D 1 50; D 125 48; D 15 49; D 175 48; D 2 50; D 25 49; D 3 50; D 35 49; D 4 50; D 45 49; D 5 50; D 55 49; D 6 50; D 7 50; D 8 50; D 9 50; D 1 51;
   D 125 49; D 15 50; D 175 49; D 2 51; D 25 50; D 3 51; D 35 50; D 4 51; D 45 50; D 5 51; D 55 50; D 6 51; D 7 51; D 8 51; D 9 51; D 1 52; D 125 50;
   D 15 51; D 175 50; D 2 52; D 25 51; D 3 52; D 35 51; D 4 52; D 45 51; D 5 52; D 55 51; D 6 52; D 7 52; D 8 52; D 9 52; D 1 53; D 125 51; D 15 52;
   D 175 51; D 2 53; D 25 52; D 3 53; D 35 52; D 4 53; D 45 52; D 5 53; D 55 52; D 6 53; D 7 53; D 8 53; D 9 53; D 1 54; D 125 52; D 15 53; D 175 52;
   D 2 54; D 25 53; D 3 54; D 35 53; D 4 54; D 45 53; D 49488 50; D 5 54; D 55 53; D 6 54; D 7 54; D 8 54; D 9 54; D 1 55; D 125 53; D 15 54; D 175 53;
   D 2 55; D 25 54; D 3 55; D 35 54; D 4 55; D 45 54; D 5 55; D 55 54; D 6 55; D 7 55; D 8 55; D 9 55; D 1 56; D 125 54; D 15 55; D 175 54; D 2 56;
   D 25 55; D 3 56; D 35 55; D 4 56; D 45 55; D 5 56; D 55 55; D 6 56; D 7 56; D 8 56; D 9 56; D 1 57; D 125 55].
(** A_logZ, 18272-18274, in units of 10^-8 *)
Definition screening_charges : list Z :=
  [0; 69314718; 179175947; 207944154; 256494936; 299573227; 336729583; 368887945; 391202301; 417438727; 430406509; 436944785; 452178858; 460517019]%Z.
(** A_correction, 18276-18517 *)
Definition screening_corrections : list (list decimal) := [
  [D 45687 50; D 36763 50; D 30817 50; D 26574 50; D 23388 50; D 18935 50; D 15963 50; D 13837 50; D 12241 50; D 10995 50; D 99973 49; D 91803 49;
   D 84983 49; D 74237 49; D 66134 49; D 59821 49; D 54741 49; D 45521 49; D 39306 49; D 34809 49; D 31397 49; D 26547 49; D 2325 50; D 20856 49;
   D 19033 49; D 17594 49; D 16431 49; D 15467 49; D 14653 49; D 1336 50; D 12379 49; D 1161 50; D 10993 49; D 98851 48; D 91542 48; D 8644 49;
   D 82723 48; D 77802 48; D 74834 48; D 72977 48; D 71816 48; D 71127 48; D 70735 48; D 70549 48; D 70516 48; D 70732 48; D 71153 48; D 71701 48;
   D 72304 48; D 73867 48; D 7537 49; D 76734 48; D 77942 48; D 79968 48; D 81585 48; D 8289 49; D 83972 48; D 84885 48; D 85672 48; D 86346 48;
   D 86941 48; D 8794 49; D 88731 48; D 89393 48; D 89935 48; D 90994 48; D 91757 48; D 92344 48; D 92809 48; D 93515 48; D 9402 49; D 94407 48;
   D 94712 48; D 94964 48; D 95156 48; D 95173 48; D 95347 48; D 95491 48; D 95731 48; D 95918 48; D 96064 48; D 96188 48; D 96434 48; D 96626 48;
   D 9678 49; D 96924 48; D 97159 48; D 97363 48; D 97532 48; D 97688 48; D 97823 48; D 97945 48; D 98056 48; D 98158 48; D 9834 49; D 98492 48;
   D 98633 48; D 98756 48; D 99015 48; D 99221 48; D 99393 48; D 99539 48; D 99781 48; D 99967 48; D 10012 49; D 10025 49; D 10037 49; D 10046 49;
   D 10054 49; D 10061 49; D 10073 49; D 10082 49; D 10089 49; D 10094 49; D 10094 49];
  [D 63993 50; D 51916 50; D 43741 50; D 37843 50; D 33387 50; D 27089 50; D 22853 50; D 19813 50; D 17519 50; D 15726 50; D 14284 50; D 13102 50;
   D 1211 51; D 10551 50; D 93763 49; D 84598 49; D 77228 49; D 6386 50; D 54861 49; D 48371 49; D 4346 50; D 36489 49; D 31769 49; D 2834 50;
   D 2574 50; D 23688 49; D 22023 49; D 20648 49; D 1949 50; D 17647 49; D 16244 49; D 15143 49; D 14256 49; D 12647 49; D 11571 49; D 10803 49;
   D 10235 49; D 94564 48; D 89633 48; D 86349 48; D 84111 48; D 82553 48; D 81482 48; D 80732 48; D 80221 48; D 79656 48; D 79497 48; D 79571 48;
   D 79807 48; D 80618 48; D 81601 48; D 82562 48; D 8346 49; D 84968 48; D 86183 48; D 87163 48; D 87979 48; D 88651 48; D 89223 48; D 89718 48;
   D 90147 48; D 90864 48; D 91423 48; D 91871 48; D 92241 48; D 92931 48; D 93414 48; D 93771 48; D 9405 49; D 94445 48; D 94715 48; D 94906 48;
   D 9505 49; D 95153 48; D 95231 48; D 95241 48; D 95296 48; D 95344 48; D 95394 48; D 95419 48; D 95424 48; D 95416 48; D 95389 48; D 95351 48;
   D 95317 48; D 95289 48; D 95251 48; D 95223 48; D 95212 48; D 95199 48; D 95197 48; D 95201 48; D 95204 48; D 95208 48; D 95224 48; D 95241 48;
   D 95256 48; D 95269 48; D 95301 48; D 95323 48; D 95341 48; D 95353 48; D 9538 49; D 95395 48; D 95415 48; D 95431 48; D 95445 48; D 95462 48;
   D 95471 48; D 95485 48; D 95501 48; D 95507 48; D 95516 48; D 95516 48; D 95516 48];
  [D 8028 51; D 677 52; D 58565 50; D 51636 50; D 46203 50; D 3823 51; D 3266 51; D 28548 50; D 2539 51; D 22882 50; D 20846 50; D 19155 50; D 17733 50;
   D 15462 50; D 13732 50; D 12369 50; D 1127 51; D 92669 49; D 79143 49; D 69365 49; D 61965 49; D 51502 49; D 44445 49; D 39348 49; D 35481 49;
   D 32457 49; D 30013 49; D 28003 49; D 26317 49; D 2364 50; D 21611 49; D 20022 49; D 18739 49; D 16416 49; D 14847 49; D 13718 49; D 1287 50;
   D 11689 49; D 10923 49; D 10394 49; D 10018 49; D 97442 48; D 95403 48; D 93856 48; D 92665 48; D 91034 48; D 90027 48; D 89424 48; D 89089 48;
   D 88889 48; D 89144 48; D 89553 48; D 90001 48; D 90842 48; D 91556 48; D 92145 48; D 92635 48; D 93054 48; D 93416 48; D 93736 48; D 94013 48;
   D 9449 49; D 94875 48; D 95203 48; D 95478 48; D 96007 48; D 96393 48; D 96673 48; D 96879 48; D 97152 48; D 97305 48; D 97379 48; D 97424 48;
   D 97459 48; D 97475 48; D 9753 49; D 97542 48; D 97548 48; D 97553 48; D 97554 48; D 97554 48; D 97553 48; D 97555 48; D 97561 48; D 97566 48;
   D 97577 48; D 97603 48; D 9763 49; D 97655 48; D 9768 49; D 97704 48; D 9772 49; D 97745 48; D 97758 48; D 97788 48; D 97817 48; D 9784 49;
   D 97859 48; D 97903 48; D 97933 48; D 97964 48; D 97984 48; D 98025 48; D 9805 49; D 98069 48; D 98084 48; D 98098 48; D 98114 48; D 98121 48;
   D 98129 48; D 98142 48; D 98156 48; D 98171 48; D 9818 49; D 9818 49];
  [D 78661 50; D 6717 51; D 5869 51; D 52182 50; D 47016 50; D 39336 50; D 33899 50; D 2983 51; D 26672 50; D 24147 50; D 22081 50; D 20356 50;
   D 18895 50; D 1655 51; D 14747 50; D 13317 50; D 12154 50; D 10025 50; D 8572 50; D 75181 49; D 67168 49; D 55772 49; D 4806 50; D 4248 50;
   D 3826 50; D 34941 49; D 3227 50; D 30068 49; D 28226 49; D 25307 49; D 23097 49; D 21369 49; D 19977 49; D 17449 49; D 15745 49; D 1452 50;
   D 13596 49; D 12309 49; D 11471 49; D 1089 50; D 10474 49; D 10168 49; D 99392 48; D 9765 49; D 96293 48; D 94374 48; D 93148 48; D 92385 48;
   D 91908 48; D 9145 49; D 91533 48; D 91806 48; D 92141 48; D 92821 48; D 93415 48; D 93907 48; D 9432 49; D 94662 48; D 94955 48; D 95219 48;
   D 95451 48; D 95844 48; D 96157 48; D 96426 48; D 9665 49; D 97085 48; D 97391 48; D 9761 49; D 9777 49; D 97961 48; D 98051 48; D 98084 48;
   D 98095 48; D 98093 48; D 98084 48; D 98184 48; D 98171 48; D 98151 48; D 98116 48; D 98084 48; D 9806 49; D 9803 49; D 97983 48; D 97947 48;
   D 97926 48; D 97911 48; D 97892 48; D 97887 48; D 97883 48; D 97888 48; D 97889 48; D 97893 48; D 97897 48; D 97897 48; D 97903 48; D 97911 48;
   D 97916 48; D 9792 49; D 97934 48; D 97948 48; D 97962 48; D 9797 49; D 97986 48; D 98001 48; D 98009 48; D 98018 48; D 98023 48; D 98029 48;
   D 98031 48; D 9804 49; D 98043 48; D 98051 48; D 9806 49; D 98064 48; D 98064 48];
  [D 69212 50; D 60409 50; D 53726 50; D 48452 50; D 44205 50; D 37731 50; D 33026 50; D 29438 50; D 26611 50; D 24316 50; D 22413 50; D 20809 50;
   D 19438 50; D 17212 50; D 1548 51; D 14088 50; D 12943 50; D 1081 51; D 93282 49; D 82381 49; D 73986 49; D 61881 49; D 53563 49; D 47473 49;
   D 42812 49; D 39127 49; D 36146 49; D 33672 49; D 31587 49; D 28266 49; D 25741 49; D 2376 50; D 2216 50; D 19251 49; D 17292 49; D 15891 49;
   D 14839 49; D 13374 49; D 12415 49; D 11749 49; D 11267 49; D 10906 49; D 10631 49; D 10418 49; D 10248 49; D 10001 49; D 98375 48; D 97249 48;
   D 96499 48; D 95527 48; D 95249 48; D 9528 49; D 95421 48; D 95818 48; D 96213 48; D 96542 48; D 96819 48; D 97057 48; D 97252 48; D 97424 48;
   D 97579 48; D 9782 49; D 98001 48; D 98148 48; D 98254 48; D 98447 48; D 98559 48; D 98621 48; D 98654 48; D 98647 48; D 98601 48; D 9854 49;
   D 98473 48; D 98409 48; D 98357 48; D 98631 48; D 98576 48; D 98522 48; D 98439 48; D 98366 48; D 98304 48; D 98254 48; D 98163 48; D 98095 48;
   D 98056 48; D 98024 48; D 97988 48; D 97963 48; D 97951 48; D 97937 48; D 97939 48; D 97936 48; D 97932 48; D 97931 48; D 9793 49; D 97928 48;
   D 97933 48; D 97932 48; D 97932 48; D 97941 48; D 9795 49; D 97955 48; D 97966 48; D 97968 48; D 9798 49; D 97982 48; D 97988 48; D 97992 48;
   D 97999 48; D 97999 48; D 98005 48; D 9801 49; D 98011 48; D 98018 48; D 98018 48];
  [D 57876 50; D 51025 50; D 45913 50; D 41899 50; D 38643 50; D 33626 50; D 29914 50; D 27036 50; D 24729 50; D 2283 51; D 21233 50; D 19874 50;
   D 18697 50; D 16761 50; D 15229 50; D 13983 50; D 12947 50; D 10976 50; D 95794 49; D 85346 49; D 77198 49; D 65268 49; D 56925 49; D 50746 49;
   D 45977 49; D 42173 49; D 39066 49; D 36473 49; D 34276 49; D 30756 49; D 28057 49; D 25922 49; D 2419 50; D 21018 49; D 18864 49; D 17306 49;
   D 1613 50; D 1448 50; D 13391 49; D 12626 49; D 12067 49; D 11648 49; D 11324 49; D 1107 50; D 10868 49; D 10566 49; D 10359 49; D 10214 49;
   D 1011 50; D 99598 48; D 98961 48; D 98696 48; D 9861 49; D 98647 48; D 98775 48; D 98879 48; D 98989 48; D 99069 48; D 99145 48; D 99205 48;
   D 9925 49; D 99333 48; D 99386 48; D 99418 48; D 99444 48; D 99458 48; D 99451 48; D 99418 48; D 99382 48; D 99288 48; D 99193 48; D 99095 48;
   D 99008 48; D 9893 49; D 98877 48; D 99553 48; D 99493 48; D 99439 48; D 99357 48; D 99294 48; D 99247 48; D 99212 48; D 99145 48; D 99114 48;
   D 99092 48; D 99074 48; D 99062 48; D 99058 48; D 99056 48; D 99061 48; D 99064 48; D 99064 48; D 99076 48; D 9908 49; D 99082 48; D 99095 48;
   D 991 50; D 99103 48; D 99121 48; D 99133 48; D 99147 48; D 99154 48; D 99173 48; D 99179 48; D 99189 48; D 99201 48; D 99205 48; D 99213 48;
   D 99214 48; D 99219 48; D 99227 48; D 99228 48; D 99232 48; D 99235 48; D 99235 48];
  [D 47469 50; D 42287 50; D 38497 50; D 35536 50; D 33113 50; D 29331 50; D 26478 50; D 24223 50; D 22383 50; D 20849 50; D 19541 50; D 18417 50;
   D 17431 50; D 15792 50; D 14475 50; D 13393 50; D 12483 50; D 10727 50; D 94573 49; D 84952 49; D 77377 49; D 66149 49; D 58188 49; D 52238 49;
   D 47592 49; D 43871 49; D 40804 49; D 38239 49; D 3605 50; D 32518 49; D 29786 49; D 27614 49; D 25843 49; D 22563 49; D 20309 49; D 18659 49;
   D 17402 49; D 15619 49; D 1442 50; D 13568 49; D 12938 49; D 12458 49; D 12083 49; D 11785 49; D 11543 49; D 11177 49; D 10919 49; D 10732 49;
   D 10592 49; D 10375 49; D 10266 49; D 10203 49; D 10166 49; D 10128 49; D 10107 49; D 10092 49; D 1008 50; D 10069 49; D 1006 50; D 10051 49;
   D 10044 49; D 1003 50; D 10018 49; D 10006 49; D 99949 48; D 99713 48; D 9952 49; D 99344 48; D 99199 48; D 98942 48; D 98728 48; D 98551 48;
   D 98403 48; D 98284 48; D 98199 48; D 99632 48; D 99533 48; D 99448 48; D 99316 48; D 99221 48; D 99136 48; D 99088 48; D 98985 48; D 98925 48;
   D 98881 48; D 98842 48; D 988 50; D 98761 48; D 98739 48; D 98723 48; D 98705 48; D 98696 48; D 98683 48; D 98677 48; D 98665 48; D 9865 49;
   D 98644 48; D 98637 48; D 98625 48; D 98623 48; D 98617 48; D 98616 48; D 98613 48; D 98613 48; D 98617 48; D 98616 48; D 98611 48; D 98608 48;
   D 98609 48; D 98609 48; D 98613 48; D 98612 48; D 98617 48; D 98616 48; D 98616 48];
  [D 38054 50; D 34248 50; D 31592 50; D 29535 50; D 27865 50; D 25194 50; D 23109 50; D 21421 50; D 20002 50; D 18797 50; D 17759 50; D 16846 50;
   D 16038 50; D 14671 50; D 13556 50; D 12625 50; D 11833 50; D 10287 50; D 91485 49; D 82744 49; D 75806 49; D 65423 49; D 57999 49; D 52393 49;
   D 4801 50; D 44479 49; D 41562 49; D 39113 49; D 37017 49; D 33624 49; D 30993 49; D 28879 49; D 27144 49; D 23897 49; D 21621 49; D 19929 49;
   D 18619 49; D 1673 50; D 15442 49; D 14514 49; D 13824 49; D 13295 49; D 1288 50; D 12546 49; D 12272 49; D 11852 49; D 11549 49; D 11321 49;
   D 11145 49; D 10849 49; D 10671 49; D 10552 49; D 10468 49; D 1035 50; D 10273 49; D 10212 49; D 10163 49; D 10121 49; D 10087 49; D 10057 49;
   D 10031 49; D 99877 48; D 99521 48; D 99235 48; D 98989 48; D 98511 48; D 98163 48; D 97909 48; D 9772 49; D 97439 48; D 97245 48; D 97117 48;
   D 97016 48; D 96938 48; D 96888 48; D 99593 48; D 99523 48; D 99461 48; D 99365 48; D 99288 48; D 99225 48; D 99182 48; D 99081 48; D 99024 48;
   D 98979 48; D 98946 48; D 9889 49; D 98856 48; D 98831 48; D 98812 48; D 98798 48; D 98787 48; D 98781 48; D 98776 48; D 98773 48; D 98768 48;
   D 98771 48; D 98762 48; D 98771 48; D 9877 49; D 9877 49; D 9877 49; D 9877 49; D 98769 48; D 98774 48; D 98772 48; D 98775 48; D 98779 48;
   D 98775 48; D 98776 48; D 98779 48; D 9878 49; D 98781 48; D 98777 48; D 98777 48];
  [D 31383 50; D 28583 50; D 26717 50; D 25275 50; D 24085 50; D 22146 50; D 20571 50; D 19256 50; D 18131 50; D 17153 50; D 16295 50; D 15532 50;
   D 14852 50; D 13688 50; D 12721 50; D 11904 50; D 11206 50; D 98247 49; D 87993 49; D 8002 50; D 73657 49; D 64069 49; D 57156 49; D 51917 49;
   D 47807 49; D 44478 49; D 4172 50; D 39396 49; D 37411 49; D 34183 49; D 31658 49; D 2963 50; D 27952 49; D 2479 50; D 2255 50; D 20859 49;
   D 19541 49; D 17615 49; D 16284 49; D 15314 49; D 1458 50; D 14013 49; D 13563 49; D 13196 49; D 12893 49; D 12419 49; D 12067 49; D 11799 49;
   D 11588 49; D 11219 49; D 10985 49; D 10823 49; D 10702 49; D 10529 49; D 10408 49; D 10315 49; D 1024 50; D 10177 49; D 10125 49; D 10079 49;
   D 1004 50; D 99744 48; D 99224 48; D 98804 48; D 98443 48; D 97757 48; D 97279 48; D 96919 48; D 96654 48; D 96271 48; D 9601 49; D 95835 48;
   D 95712 48; D 95614 48; D 95551 48; D 99691 48; D 99603 48; D 99523 48; D 99405 48; D 99321 48; D 9926 49; D 99207 48; D 99123 48; D 99063 48;
   D 99028 48; D 98992 48; D 98942 48; D 98912 48; D 98894 48; D 98874 48; D 98864 48; D 98851 48; D 98842 48; D 98838 48; D 98829 48; D 98829 48;
   D 98827 48; D 98818 48; D 98822 48; D 98818 48; D 98817 48; D 98814 48; D 98818 48; D 98823 48; D 98825 48; D 98818 48; D 98821 48; D 98825 48;
   D 98822 48; D 98826 48; D 98824 48; D 98826 48; D 98824 48; D 98826 48; D 98826 48];
  [D 23837 50; D 21973 50; D 20891 50; D 20116 50; D 19471 50; D 18364 50; D 17393 50; D 16517 50; D 15742 50; D 15038 50; D 14403 50; D 13825 50;
   D 13298 50; D 12377 50; D 11595 50; D 10925 50; D 1034 51; D 91684 49; D 82859 49; D 75882 49; D 70265 49; D 61714 49; D 55515 49; D 50777 49;
   D 47045 49; D 44002 49; D 41484 49; D 39361 49; D 37533 49; D 34563 49; D 3223 50; D 3034 50; D 28769 49; D 25785 49; D 23636 49; D 21998 49;
   D 207 51; D 18776 49; D 17424 49; D 16419 49; D 15644 49; D 15034 49; D 14539 49; D 14129 49; D 13784 49; D 13233 49; D 12812 49; D 12481 49;
   D 12214 49; D 11727 49; D 11401 49; D 11164 49; D 10982 49; D 10717 49; D 10527 49; D 10382 49; D 10267 49; D 10171 49; D 10091 49; D 10024 49;
   D 99652 48; D 98696 48; D 97946 48; D 97334 48; D 96829 48; D 95887 48; D 95235 48; D 94765 48; D 94406 48; D 93918 48; D 93596 48; D 93383 48;
   D 93232 48; D 93129 48; D 93055 48; D 99723 48; D 99611 48; D 99514 48; D 99374 48; D 99272 48; D 99206 48; D 99157 48; D 99071 48; D 99016 48;
   D 98982 48; D 98949 48; D 98907 48; D 98879 48; D 98852 48; D 98832 48; D 98818 48; D 98806 48; D 98796 48; D 98788 48; D 98782 48; D 98775 48;
   D 98765 48; D 98762 48; D 98758 48; D 98759 48; D 98752 48; D 98751 48; D 98759 48; D 98758 48; D 98757 48; D 98755 48; D 98761 48; D 98761 48;
   D 98761 48; D 9876 49; D 98761 48; D 98759 48; D 98758 48; D 98756 48; D 98756 48];
  [D 20645 50; D 19112 50; D 18351 50; D 17817 50; D 17377 50; D 16592 50; D 15864 50; D 15181 50; D 14549 50; D 13966 50; D 1343 51; D 12938 50;
   D 12482 50; D 11675 50; D 10981 50; D 1038 51; D 9854 50; D 87909 49; D 79807 49; D 73388 49; D 68164 49; D 60208 49; D 54407 49; D 49964 49;
   D 46443 49; D 4358 50; D 41199 49; D 39185 49; D 37454 49; D 34636 49; D 32413 49; D 30609 49; D 29108 49; D 26236 49; D 24157 49; D 22558 49;
   D 21288 49; D 19392 49; D 18042 49; D 17028 49; D 16241 49; D 15612 49; D 15097 49; D 14664 49; D 14297 49; D 13704 49; D 13244 49; D 12876 49;
   D 12575 49; D 12018 49; D 11633 49; D 11349 49; D 11129 49; D 10802 49; D 10569 49; D 1039 50; D 10248 49; D 10132 49; D 10035 49; D 99538 48;
   D 98827 48; D 97679 48; D 96781 48; D 96059 48; D 9547 49; D 94359 48; D 93609 48; D 93064 48; D 92657 48; D 92096 48; D 91736 48; D 91498 48;
   D 91336 48; D 91215 48; D 9114 49; D 99457 48; D 99322 48; D 99211 48; D 99046 48; D 9894 49; D 98855 48; D 98793 48; D 98696 48; D 98642 48;
   D 986 50; D 98568 48; D 98514 48; D 98471 48; D 98436 48; D 98413 48; D 98394 48; D 98374 48; D 98365 48; D 98356 48; D 98338 48; D 98324 48;
   D 98318 48; D 98308 48; D 98299 48; D 98292 48; D 98293 48; D 98289 48; D 98286 48; D 98282 48; D 98285 48; D 98279 48; D 98278 48; D 9828 49;
   D 98281 48; D 98281 48; D 98277 48; D 98276 48; D 98276 48; D 98274 48; D 98274 48];
  [D 19217 50; D 17864 50; D 17206 50; D 16775 50; D 16423 50; D 1577 51; D 15137 50; D 14534 50; D 13961 50; D 13428 50; D 12938 50; D 12483 50;
   D 12061 50; D 11307 50; D 10655 50; D 1009 51; D 95925 49; D 85841 49; D 78119 49; D 71992 49; D 66999 49; D 59357 49; D 5377 50; D 49484 49;
   D 46087 49; D 43315 49; D 4101 50; D 39056 49; D 37383 49; D 34639 49; D 32472 49; D 30711 49; D 29246 49; D 26438 49; D 244 51; D 22828 49;
   D 21579 49; D 19705 49; D 18362 49; D 17354 49; D 16563 49; D 15927 49; D 15403 49; D 14962 49; D 14583 49; D 13971 49; D 13489 49; D 13104 49;
   D 12784 49; D 12186 49; D 11767 49; D 11455 49; D 1121 50; D 10846 49; D 10585 49; D 10386 49; D 10229 49; D 10101 49; D 99943 48; D 99044 48;
   D 98279 48; D 97024 48; D 9604 49; D 95262 48; D 94626 48; D 93436 48; D 92635 48; D 92061 48; D 91628 48; D 91044 48; D 90679 48; D 90434 48;
   D 90267 48; D 90155 48; D 90075 48; D 99339 48; D 99198 48; D 99087 48; D 98913 48; D 98804 48; D 98714 48; D 98653 48; D 98561 48; D 98502 48;
   D 98456 48; D 98425 48; D 9837 49; D 98325 48; D 98291 48; D 98266 48; D 98245 48; D 98222 48; D 98207 48; D 982 50; D 98181 48; D 98171 48;
   D 98161 48; D 98152 48; D 9814 49; D 9813 49; D 98133 48; D 98124 48; D 98124 48; D 98121 48; D 98119 48; D 9812 49; D 98114 48; D 98116 48;
   D 98118 48; D 9811 49; D 98114 48; D 98107 48; D 98108 48; D 98107 48; D 98107 48];
  [D 16304 50; D 15422 50; D 15012 50; D 14744 50; D 14513 50; D 14055 50; D 13572 50; D 13095 50; D 12632 50; D 12196 50; D 11791 50; D 11409 50;
   D 11052 50; D 10412 50; D 98551 49; D 93655 49; D 89379 49; D 80571 49; D 73787 49; D 6839 50; D 6395 50; D 57126 49; D 52098 49; D 48214 49;
   D 4512 50; D 42579 49; D 40451 49; D 38648 49; D 37087 49; D 34525 49; D 32497 49; D 30845 49; D 29462 49; D 26805 49; D 24879 49; D 23394 49;
   D 22209 49; D 20426 49; D 19137 49; D 18153 49; D 1737 50; D 1673 50; D 16191 49; D 15732 49; D 15333 49; D 14673 49; D 14143 49; D 13706 49;
   D 13338 49; D 12627 49; D 12109 49; D 11714 49; D 11399 49; D 10929 49; D 10594 49; D 10339 49; D 10142 49; D 99839 48; D 98538 48; D 97457 48;
   D 96534 48; D 95059 48; D 93932 48; D 93041 48; D 92322 48; D 91012 48; D 90151 48; D 89532 48; D 89077 48; D 88454 48; D 88057 48; D 87794 48;
   D 87606 48; D 87477 48; D 87392 48; D 99196 48; D 99025 48; D 98884 48; D 98678 48; D 98539 48; D 98442 48; D 98379 48; D 98274 48; D 98216 48;
   D 98187 48; D 98169 48; D 98136 48; D 98115 48; D 98104 48; D 98082 48; D 98074 48; D 98067 48; D 98061 48; D 98053 48; D 98035 48; D 98025 48;
   D 98023 48; D 98013 48; D 98004 48; D 97993 48; D 97995 48; D 97998 48; D 98004 48; D 98006 48; D 98007 48; D 98004 48; D 97999 48; D 97996 48;
   D 97992 48; D 97993 48; D 97984 48; D 97971 48; D 97958 48; D 9795 49; D 9795 49];
  [D 14735 50; D 14059 50; D 13789 50; D 13619 50; D 13448 50; D 13093 50; D 12693 50; D 12282 50; D 11879 50; D 11488 50; D 11124 50; D 10785 50;
   D 10467 50; D 98885 49; D 93826 49; D 89384 49; D 85467 49; D 77407 49; D 71175 49; D 6619 50; D 62093 49; D 55759 49; D 51062 49; D 47424 49;
   D 44504 49; D 4211 50; D 4009 50; D 38372 49; D 36885 49; D 3443 50; D 32483 49; D 30891 49; D 29558 49; D 26999 49; D 25142 49; D 23718 49;
   D 22578 49; D 2086 50; D 19607 49; D 18642 49; D 17868 49; D 17227 49; D 16685 49; D 16216 49; D 15807 49; D 15118 49; D 14558 49; D 1409 50;
   D 13692 49; D 12908 49; D 12328 49; D 11876 49; D 11515 49; D 10971 49; D 10581 49; D 10287 49; D 10059 49; D 98773 48; D 97281 48; D 96044 48;
   D 94991 48; D 93321 48; D 92051 48; D 91051 48; D 90261 48; D 8884 49; D 87923 48; D 87298 48; D 86842 48; D 86268 48; D 85938 48; D 85736 48;
   D 85621 48; D 85542 48; D 85511 48; D 98872 48; D 98732 48; D 98621 48; D 98468 48; D 98364 48; D 98296 48; D 98245 48; D 98164 48; D 98114 48;
   D 98075 48; D 98044 48; D 97988 48; D 97939 48; D 97898 48; D 97871 48; D 97839 48; D 97826 48; D 97816 48; D 97805 48; D 97793 48; D 97781 48;
   D 97772 48; D 97774 48; D 97771 48; D 97765 48; D 97761 48; D 9776 49; D 97755 48; D 97752 48; D 97754 48; D 97753 48; D 97757 48; D 97754 48;
   D 97759 48; D 97753 48; D 97752 48; D 97756 48; D 9775 49; D 97742 48; D 97742 48]].

(** photopair_KM_energies, 18519-18524: energies in MeV *)
Definition pair_energies : list decimal :=
  [D 10219978922 43; D 150000734 45; D 200000564 45; D 299999313 45; D 399998256 45; D 500001044 45; D 600000318 45; D 799998767 45; D 1000004907 45;
   D 1499999698 45; D 1999995453 45; D 3000007855 45; D 4000002184 45; D 4999984973 45; D 5999972627 45; D 8000026923 45; D 999999814 46].
(** photopair_KM_Z, 18526-18535: 1, 2, ..., 100 *)
Definition pair_charges : list nat := seq 1 100.
(** photopair_KM_cross, from 18537 on: cross sections in barn *)
Definition pair_cross_sections : list (list decimal) := [
  [D 280260456 0; D 442998175 40; D 177000146 41; D 550997658 41; D 994003331 41; D 143000119 42; D 184999933 42; D 26399904 43; D 330999037 42;
   D 460998812 42; D 561002558 42; D 708000971 42; D 813003541 42; D 897995866 42; D 964997456 42; D 107000165 43; D 116000021 43];
  [D 280260456 0; D 177000146 41; D 706999924 41; D 213000703 42; D 364999311 42; D 510997892 42; D 6439979 44; D 887000428 42; D 109000271 43;
   D 146999674 43; D 179000817 43; D 222000664 43; D 253000223 43; D 277000794 43; D 296000272 43; D 326000975 43; D 351001456 43];
  [D 280260456 0; D 397001698 41; D 159000201 42; D 473000036 42; D 797000627 42; D 110000001 43; D 136999924 43; D 186000688 43; D 22700008 44;
   D 302999263 43; D 365001102 43; D 450001255 43; D 50999982 44; D 555001253 43; D 595999824 43; D 653002117 43; D 698000886 43];
  [D 280260456 0; D 709996867 41; D 284000348 42; D 833001518 42; D 139999713 43; D 190999416 43; D 237999928 43; D 3199998 45; D 387998073 43;
   D 518998178 43; D 617000832 43; D 757997716 43; D 857996802 43; D 934003674 43; D 99299971 44; D 108000438 44; D 115000362 44];
  [D 280260456 0; D 110999474 42; D 444000401 42; D 12999947 44; D 215000504 43; D 294000178 43; D 363998728 43; D 487997543 43; D 589998723 43;
   D 787001671 43; D 932995495 43; D 113999639 44; D 128000642 44; D 1400004 46; D 148999847 44; D 161999829 44; D 173000637 44];
  [D 280260456 0; D 160000264 42; D 639998265 42; D 186000688 43; D 308000181 43; D 41899977 44; D 518998178 43; D 693000258 43; D 83600147 44;
   D 110999454 44; D 130999732 44; D 160000234 44; D 179999717 44; D 196000121 44; D 207999417 44; D 226000063 44; D 239999125 44];
  [D 280260456 0; D 219000818 42; D 871003038 42; D 253000223 43; D 417999557 43; D 567000606 43; D 701001742 43; D 931997723 43; D 111999598 44;
   D 148999847 44; D 174999878 44; D 213999842 44; D 239999125 44; D 261001272 44; D 276001218 44; D 301001509 44; D 319001332 44];
  [D 280260456 0; D 286001045 42; D 114000219 43; D 329999247 43; D 543000571 43; D 737001828 43; D 908995708 43; D 121000573 44; D 145000223 44;
   D 191000354 44; D 226998924 44; D 27500115 45; D 307998613 44; D 334001432 44; D 354999109 44; D 385999193 44; D 40900005 45];
  [D 280260456 0; D 364000581 42; D 143999578 43; D 417999557 43; D 686997307 43; D 929001517 43; D 113999639 44; D 152000723 44; D 180999683 44;
   D 239999125 44; D 282999542 44; D 345000297 44; D 388998419 44; D 420000238 44; D 445998362 44; D 484998248 44; D 512000335 44];
  [D 280260456 0; D 449001157 42; D 177999434 43; D 515001788 43; D 843002878 43; D 113999639 44; D 14099935 45; D 184999899 44; D 223999827 44;
   D 29399868 45; D 347000173 44; D 421001029 44; D 472999948 44; D 512000335 44; D 541999608 44; D 58700027 45; D 621002606 44];
  [D 280260456 0; D 545998083 42; D 216000424 43; D 623002401 43; D 102000252 44; D 13800022 45; D 168999419 44; D 223999827 44; D 269001049 44;
   D 353999422 44; D 416000008 44; D 50299754 45; D 564999745 44; D 609997756 44; D 646999343 44; D 702001316 44; D 741003448 44];
  [D 280260456 0; D 652000589 42; D 258000203 43; D 740999812 43; D 121000573 44; D 163999812 44; D 201000075 44; D 264998795 44; D 318001239 44;
   D 418001608 44; D 491000565 44; D 5939976 46; D 665997075 44; D 720002928 44; D 7629979 46; D 827000483 44; D 874004286 44];
  [D 280260456 0; D 767996722 42; D 302999263 43; D 869997529 43; D 141999747 44; D 191000354 44; D 234999945 44; D 310000924 44; D 37200053 45;
   D 489001364 44; D 572999749 44; D 691999532 44; D 77700383 45; D 839003836 44; D 888998261 44; D 963001798 44; D 101999732 45];
  [D 280260456 0; D 893999723 42; D 351999717 43; D 101000481 44; D 163999812 44; D 221999533 44; D 273999225 44; D 359001038 44; D 428999296 44;
   D 562997551 44; D 661000951 44; D 799003462 44; D 895001397 44; D 969999231 44; D 101999732 45; D 110999998 45; D 116999561 45];
  [D 280260456 0; D 103000143 43; D 405001338 43; D 11599943 45; D 188000623 44; D 254000257 44; D 311000736 44; D 411000849 44; D 491000565 44;
   D 643000357 44; D 754998135 44; D 912999451 44; D 101999732 45; D 10999998 46; D 116999561 45; D 125999783 45; D 133000141 45];
  [D 280260456 0; D 117999498 43; D 461997912 43; D 132000443 44; D 214999409 44; D 288001382 44; D 353999422 44; D 464999011 44; D 557000022 44;
   D 729001128 44; D 855003258 44; D 103000123 45; D 115999999 45; D 124999556 45; D 131999771 45; D 142999364 45; D 151000053 45];
  [D 280260456 0; D 134999405 43; D 523999312 43; D 148999847 44; D 243000932 44; D 325000031 44; D 400000293 44; D 524001884 44; D 626003072 44;
   D 821001781 44; D 961000836 44; D 115999999 45; D 129999446 45; D 139999687 45; D 149000578 45; D 159999419 45; D 169000249 45];
  [D 280260456 0; D 151000081 43; D 588002013 43; D 167000245 44; D 27099904 45; D 364000514 44; D 446998518 44; D 585997357 44; D 700003461 44;
   D 916997989 44; D 107000145 45; D 129999446 45; D 144999484 45; D 156000652 45; D 165000777 45; D 177999401 45; D 187999666 45];
  [D 280260456 0; D 16900028 44; D 655999726 43; D 186999376 44; D 301999475 44; D 404999276 44; D 495999679 44; D 65099716 45; D 777999031 44;
   D 101999732 45; D 118999606 45; D 143999552 45; D 160999327 45; D 172999756 45; D 183000738 45; D 196999302 45; D 208000438 45];
  [D 280260456 0; D 187999701 43; D 729996962 43; D 206999273 44; D 334001432 44; D 448000917 44; D 54999835 45; D 720002928 44; D 858996871 44;
   D 113000268 45; D 131999771 45; D 157999234 45; D 17700008 46; D 190999381 45; D 202000503 45; D 217998937 45; D 230000202 45];
  [D 280260456 0; D 208999189 43; D 81100188 44; D 229999073 44; D 371001193 44; D 495999679 44; D 60899818 45; D 795002516 44; D 945000332 44;
   D 123999829 45; D 144999484 45; D 175000737 45; D 195000122 45; D 210000558 45; D 222000623 45; D 238999196 45; D 252000277 45];
  [D 280260456 0; D 232000696 43; D 89400411 44; D 25199904 45; D 40600086 45; D 542997806 44; D 66699682 45; D 871002876 44; D 103999926 45;
   D 13499938 46; D 157999234 45; D 190999381 45; D 212999578 45; D 228999584 45; D 242999694 45; D 261998869 45; D 275999812 45];
  [D 280260456 0; D 254999191 43; D 979997844 43; D 276001218 44; D 444000318 44; D 590999564 44; D 72800308 45; D 94899666 45; D 113000268 45;
   D 146999647 45; D 171999262 45; D 208000438 45; D 232000653 45; D 248999325 45; D 264000286 45; D 283998849 45; D 299999313 45];
  [D 280260456 0; D 280000215 43; D 10699962 45; D 301001509 44; D 48400018 45; D 645003201 44; D 792003079 44; D 103000123 45; D 122999487 45;
   D 159999419 45; D 187000293 45; D 224999951 45; D 252000277 45; D 27100037 46; D 285999535 45; D 308999663 45; D 326000914 45];
  [D 280260456 0; D 307000806 43; D 117000157 44; D 3269984 46; D 524001884 44; D 697997331 44; D 858001012 44; D 112000147 45; D 133000141 45;
   D 17400085 46; D 203000854 45; D 245000484 45; D 271999489 45; D 29299929 46; D 310999152 45; D 33399973 46; D 353000752 45];
  [D 280260456 0; D 331998474 43; D 126000425 44; D 350999668 44; D 564999745 44; D 754002195 44; D 920995619 44; D 119999813 45; D 142999364 45;
   D 187000293 45; D 218999662 45; D 262998988 45; D 294000123 45; D 315999359 45; D 332999233 45; D 361000804 45; D 379001509 45];
  [D 280260456 0; D 36199861 44; D 137000596 44; D 380998439 44; D 610998973 44; D 814003999 44; D 1 53; D 128999714 45; D 153999628 45; D 200999051 45;
   D 235001098 45; D 283998849 45; D 315999359 45; D 340001553 45; D 359998616 45; D 38800188 46; D 408001229 45];
  [D 280260456 0; D 391999425 43; D 148000445 44; D 409999229 44; D 65900115 45; D 876998497 44; D 107000145 45; D 138999479 45; D 165000777 45;
   D 215000464 45; D 252000277 45; D 304999515 45; D 339000027 45; D 36399866 46; D 384998788 45; D 416002049 45; D 438000559 45];
  [D 280260456 0; D 422999236 43; D 158000039 44; D 438998185 44; D 702998866 44; D 937001871 44; D 114000198 45; D 147999691 45; D 17700008 46;
   D 230000202 45; D 269999521 45; D 323998921 45; D 361998543 45; D 390001344 45; D 411998697 45; D 443998057 45; D 467000434 45];
  [D 280260456 0; D 45699862 44; D 171000295 44; D 470998674 44; D 754998135 44; D 1 53; D 123999829 45; D 159999419 45; D 189000599 45; D 245999668 45;
   D 287999915 45; D 346000488 45; D 38800188 46; D 416002049 45; D 440997932 45; D 474001358 45; D 499002041 45];
  [D 280260456 0; D 493000591 43; D 18299984 45; D 50199757 45; D 806001238 44; D 107000145 45; D 131999771 45; D 170000297 45; D 202000503 45;
   D 261998869 45; D 305998496 45; D 369998957 45; D 411998697 45; D 443998057 45; D 468998789 45; D 506001779 45; D 531998243 45];
  [D 280260456 0; D 530001784 43; D 196000121 44; D 536000599 44; D 858001012 44; D 114000198 45; D 139999687 45; D 181000571 45; D 214000893 45;
   D 277999742 45; D 325001626 45; D 391001027 45; D 439000339 45; D 472000567 45; D 498000054 45; D 53500184 46; D 563000314 45];
  [D 280260456 0; D 568999965 43; D 209999527 44; D 570997756 44; D 912999451 44; D 120999956 45; D 147999691 45; D 190999381 45; D 227000038 45;
   D 296000217 45; D 346000488 45; D 416002049 45; D 463997974 45; D 500001044 45; D 52599946 46; D 565997797 45; D 597001834 45];
  [D 280260456 0; D 609001281 43; D 223000782 44; D 605997148 44; D 969999231 44; D 12799999 46; D 157000688 45; D 203000854 45; D 240000303 45;
   D 31299906 46; D 365998848 45; D 440997932 45; D 492000723 45; D 529000928 45; D 558000683 45; D 598999154 45; D 630000231 45];
  [D 280260456 0; D 649998706 43; D 238001096 44; D 643000357 44; D 103000123 45; D 13499938 46; D 166000398 45; D 214000893 45; D 253998963 45;
   D 329999185 45; D 386001087 45; D 465001293 45; D 520000715 45; D 557002755 45; D 588001904 45; D 634996944 45; D 667000093 45];
  [D 280260456 0; D 696000495 43; D 252998935 44; D 681002025 44; D 109000251 45; D 142999364 45; D 175000737 45; D 225998912 45; D 268000859 45;
   D 348999394 45; D 406998779 45; D 490998065 45; D 547000757 45; D 586000232 45; D 620999444 45; D 667000093 45; D 701001612 45];
  [D 280260456 0; D 740000137 43; D 267999544 44; D 720997218 44; D 114999777 45; D 151000053 45; D 185000807 45; D 237999884 45; D 283000931 45;
   D 36699939 46; D 429001402 45; D 516001765 45; D 575000083 45; D 620000439 45; D 655999604 45; D 706003494 45; D 739001674 45];
  [D 280260456 0; D 789997967 43; D 284000296 44; D 7629979 46; D 120999956 45; D 158999361 45; D 195000122 45; D 249999817 45; D 29699942 46;
   D 386998256 45; D 450001171 45; D 544000511 45; D 603997577 45; D 653001996 45; D 686997179 45; D 74 52; D 775998189 45];
  [D 280260456 0; D 839998723 43; D 301001509 44; D 805002416 44; D 12799999 46; D 167999363 45; D 205000042 45; D 264000286 45; D 313999121 45;
   D 405998793 45; D 472000567 45; D 572000683 45; D 634996944 45; D 685000923 45; D 721996424 45; D 77899933 46; D 815001689 45];
  [D 280260456 0; D 889999029 43; D 319001332 44; D 84999909 45; D 134000052 45; D 17700008 46; D 216000384 45; D 277000742 45; D 329000801 45;
   D 426998366 45; D 498000054 45; D 59799966 46; D 666000343 45; D 717003116 45; D 756997678 45; D 815996598 45; D 853000545 45];
  [D 280260456 0; D 943003856 43; D 336001384 44; D 895001397 44; D 141000042 45; D 186000653 45; D 225998912 45; D 290999103 45; D 34499854 46;
   D 447998635 45; D 520000715 45; D 628000012 45; D 698000756 45; D 749997735 45; D 791001755 45; D 852003118 45; D 893003219 45];
  [D 280260456 0; D 998995598 43; D 353999422 44; D 942000004 44; D 147999691 45; D 195000122 45; D 235999618 45; D 304999515 45; D 359998616 45;
   D 467000434 45; D 546000661 45; D 655999604 45; D 729996826 45; D 786002667 45; D 827997542 45; D 892003616 45; D 935003419 45];
  [D 280260456 0; D 105999596 44; D 372998829 44; D 992002154 44; D 156000652 45; D 204000039 45; D 248000357 45; D 317999619 45; D 376000392 45;
   D 488002333 45; D 57000218 46; D 682996808 45; D 763001644 45; D 818996808 45; D 862996112 45; D 93199755 46; D 975997657 45];
  [D 280260456 0; D 111999598 44; D 392998297 44; D 103000123 45; D 162999998 45; D 212999578 45; D 258000155 45; D 331998412 45; D 393999715 45;
   D 509001104 45; D 594999274 45; D 713998018 45; D 796996419 45; D 853999139 45; D 90100444 46; D 973998911 45; D 102000233 46];
  [D 280260456 0; D 118000077 44; D 412999044 44; D 107999888 45; D 170000297 45; D 222999646 45; D 268999679 45; D 346000488 45; D 410001241 45;
   D 530999025 45; D 620000439 45; D 744996996 45; D 831000325 45; D 889998864 45; D 93900442 46; D 102000233 46; D 105999576 46];
  [D 280260456 0; D 125000193 44; D 434999673 44; D 114000198 45; D 177999401 45; D 233000404 45; D 282000878 45; D 361000804 45; D 426998366 45;
   D 552001181 45; D 647002518 45; D 775998189 45; D 86599591 46; D 927998565 45; D 979997662 45; D 105000498 46; D 11000052 47];
  [D 280260456 0; D 132000443 44; D 456001126 44; D 118999606 45; D 186000653 45; D 244000478 45; D 294000123 45; D 374001641 45; D 444998177 45;
   D 577997871 45; D 673003268 45; D 80699719 46; D 90100444 46; D 965996476 45; D 102000233 46; D 11000052 47; D 115000341 46];
  [D 280260456 0; D 139000187 44; D 479002242 44; D 124999556 45; D 194000393 45; D 254999143 45; D 305998496 45; D 390001344 45; D 463997974 45;
   D 598999154 45; D 698000756 45; D 839998567 45; D 936997099 45; D 100000491 46; D 105000498 46; D 113999617 46; D 120000402 46];
  [D 280260456 0; D 145999804 44; D 500999588 44; D 129999446 45; D 202000503 45; D 265000095 45; D 318999708 45; D 405001263 45; D 481998107 45;
   D 620999444 45; D 727002696 45; D 873999834 45; D 972004259 45; D 105000498 46; D 11000052 47; D 11900019 47; D 125000169 46];
  [D 280260456 0; D 152999596 44; D 523001995 44; D 13499938 46; D 211000433 45; D 275999812 45; D 331998412 45; D 425000432 45; D 501002047 45;
   D 647002518 45; D 7559991 47; D 906997946 45; D 101000462 46; D 108999696 46; D 113999617 46; D 123000091 46; D 130000084 46];
  [D 280260456 0; D 161999829 44; D 548998264 44; D 141000042 45; D 217998937 45; D 286999417 45; D 343999494 45; D 442000134 45; D 518998081 45;
   D 670001657 45; D 782998035 45; D 93900442 46; D 105000498 46; D 112999692 46; D 11900019 47; D 126999747 46; D 135000042 46];
  [D 280260456 0; D 169999463 44; D 571997877 44; D 146999647 45; D 228001039 45; D 297999016 45; D 355999806 45; D 456998535 45; D 538000875 45;
   D 693000129 45; D 812999249 45; D 975002647 45; D 108999696 46; D 117000136 46; D 123000091 46; D 132000418 46; D 140000374 46];
  [D 280260456 0; D 178000308 44; D 598002706 44; D 153000346 45; D 237000011 45; D 309999345 45; D 371998635 45; D 474997806 45; D 558000683 45;
   D 719999261 45; D 84099876 46; D 101000462 46; D 112999692 46; D 12100055 47; D 126999747 46; D 137000571 46; D 144000258 46];
  [D 280260456 0; D 186999376 44; D 626999209 44; D 159999419 45; D 245999668 45; D 321999562 45; D 384998788 45; D 490998065 45; D 5769988 47;
   D 743003077 45; D 868997446 45; D 105000498 46; D 116000569 46; D 125000169 46; D 132000418 46; D 143000066 46; D 14999997 47];
  [D 280260456 0; D 196000121 44; D 653998645 44; D 166999394 45; D 256000702 45; D 332999233 45; D 397999276 45; D 507999359 45; D 597001834 45;
   D 768000348 45; D 898997439 45; D 108999696 46; D 120000402 46; D 129000347 46; D 136000028 46; D 148000417 46; D 154000384 46];
  [D 280260456 0; D 205999817 44; D 681997014 44; D 172999756 45; D 266001031 45; D 346000488 45; D 413001071 45; D 52599946 46; D 617000717 45;
   D 793997399 45; D 929001344 45; D 111999577 46; D 124000437 46; D 133999369 46; D 140000374 46; D 152999567 46; D 159000142 46];
  [D 280260456 0; D 214999409 44; D 711002026 44; D 1800006 47; D 274999749 45; D 357998997 45; D 426998366 45; D 544000511 45; D 637000338 45;
   D 819996594 45; D 959997025 45; D 115000341 46; D 129000347 46; D 138000194 46; D 145000196 46; D 158000009 46; D 164999937 46];
  [D 280260456 0; D 225001097 44; D 741997059 44; D 187000293 45; D 285000287 45; D 370999304 45; D 440997932 45; D 560999596 45; D 656997482 45;
   D 849000849 45; D 98999529 46; D 11900019 47; D 132000418 46; D 141999721 46; D 14999997 47; D 163000797 46; D 169999432 46];
  [D 280260456 0; D 234999945 44; D 772000563 44; D 194000393 45; D 295001425 45; D 38299816 46; D 455998804 45; D 577997871 45; D 676999264 45;
   D 873004042 45; D 102000233 46; D 123000091 46; D 137000571 46; D 145999777 46; D 154000384 46; D 168000187 46; D 174999846 46];
  [D 280260456 0; D 246000921 44; D 803000454 44; D 200999051 45; D 304999515 45; D 395998406 45; D 471000985 45; D 597001834 45; D 698999611 45;
   D 90100444 46; D 104000436 46; D 126999747 46; D 140999324 46; D 150999284 46; D 160000204 46; D 173000605 46; D 180999649 46];
  [D 280260456 0; D 255999446 44; D 837001012 44; D 208000438 45; D 314999227 45; D 410001241 45; D 485000628 45; D 616001985 45; D 721000756 45;
   D 927998565 45; D 108000418 46; D 130000084 46; D 145000196 46; D 154999996 46; D 164999937 46; D 178000275 46; D 185999706 46];
  [D 280260456 0; D 267999544 44; D 870001799 44; D 217000615 45; D 327000005 45; D 422002056 45; D 502000033 45; D 634000781 45; D 7420007 47;
   D 953996675 45; D 111000543 46; D 133999369 46; D 14999997 47; D 160000204 46; D 169999432 46; D 182999806 46; D 191999946 46];
  [D 280260456 0; D 279998789 44; D 90399631 45; D 224000926 45; D 33800145 46; D 435999103 45; D 516001765 45; D 654001854 45; D 764001831 45;
   D 98400422 46; D 113999617 46; D 139000161 46; D 154000384 46; D 164999937 46; D 174999846 46; D 188999637 46; D 197999616 46];
  [D 280260456 0; D 290001263 44; D 93799562 45; D 232000653 45; D 348999394 45; D 450001171 45; D 53299934 46; D 673003268 45; D 787001525 45;
   D 101000462 46; D 118000055 46; D 143000066 46; D 159000142 46; D 168999388 46; D 179999684 46; D 193999405 46; D 20299982 47];
  [D 280260456 0; D 301999475 44; D 974997863 44; D 240000303 45; D 359998616 45; D 463997974 45; D 547000757 45; D 693998768 45; D 811001729 45;
   D 104000436 46; D 12100055 47; D 147000368 46; D 163000797 46; D 174999846 46; D 184999865 46; D 199999545 46; D 207999379 46];
  [D 280260456 0; D 315000832 44; D 100999967 45; D 248000357 45; D 370999304 45; D 477999739 45; D 565002517 45; D 71299912 46; D 834998715 45;
   D 1069996 48; D 125000169 46; D 14999997 47; D 167000214 46; D 179999684 46; D 190000194 46; D 204998998 46; D 213999803 46];
  [D 280260456 0; D 328000548 44; D 104999983 45; D 256000702 45; D 38299816 46; D 492000723 45; D 580999668 45; D 73400085 46; D 857996642 45;
   D 108999696 46; D 129000347 46; D 154000384 46; D 172000106 46; D 184999865 46; D 194999129 46; D 210999358 46; D 21999946 47];
  [D 280260456 0; D 341000955 44; D 107999888 45; D 262998988 45; D 393999715 45; D 506999585 45; D 598999154 45; D 7559991 47; D 884002761 45;
   D 112999692 46; D 132000418 46; D 159000142 46; D 176999179 46; D 190000194 46; D 201000037 46; D 216999509 46; D 226000021 46];
  [D 280260456 0; D 354999109 44; D 112000147 45; D 271999489 45; D 405998793 45; D 522001356 45; D 613997088 45; D 775998189 45; D 907996193 45;
   D 115000341 46; D 136000028 46; D 163000797 46; D 18199971 47; D 194999129 46; D 205999778 46; D 221999492 46; D 230999395 46];
  [D 280260456 0; D 368999496 44; D 115999999 45; D 28099874 46; D 419998099 45; D 537001123 45; D 634000781 45; D 796000796 45; D 931000846 45;
   D 118000055 46; D 139000161 46; D 167000214 46; D 185999706 46; D 199999545 46; D 210999358 46; D 227999878 46; D 237001174 46];
  [D 280260456 0; D 382001784 44; D 119999813 45; D 289999786 45; D 431000903 45; D 552001181 45; D 651000354 45; D 815996598 45; D 954998897 45;
   D 12100055 47; D 143000066 46; D 171000263 46; D 191000318 46; D 204998998 46; D 215999284 46; D 232999217 46; D 243000887 46];
  [D 280260456 0; D 396999602 44; D 123999829 45; D 298998987 45; D 443000184 45; D 5679993 47; D 668001344 45; D 839998567 45; D 979997662 45;
   D 124000437 46; D 145999777 46; D 174999846 46; D 194999129 46; D 209999488 46; D 221999492 46; D 239000368 46; D 250001044 46];
  [D 280260456 0; D 411000849 44; D 12799999 46; D 308000124 45; D 456998535 45; D 583001749 45; D 686001755 45; D 859001086 45; D 101000462 46;
   D 128000618 46; D 148999819 46; D 179999684 46; D 201000037 46; D 214999369 46; D 226998882 46; D 244999236 46; D 256999745 46];
  [D 280260456 0; D 428000892 44; D 131999771 45; D 314999227 45; D 468000885 45; D 59799966 46; D 706003494 45; D 881998351 45; D 102999599 46;
   D 130999708 46; D 152999567 46; D 183999878 46; D 205999778 46; D 221000529 46; D 232999217 46; D 250001044 46; D 263000279 46];
  [D 280260456 0; D 444000318 44; D 136999899 45; D 326000914 45; D 483997715 45; D 61499872 46; D 723999127 45; D 904000746 45; D 105000498 46;
   D 133999369 46; D 156999888 46; D 188999637 46; D 209999488 46; D 226000021 46; D 239000368 46; D 256999745 46; D 269000999 46];
  [D 280260456 0; D 459999443 44; D 142000444 45; D 334999884 45; D 497000079 45; D 6320005 47; D 743003077 45; D 925996251 45; D 108000418 46;
   D 137000571 46; D 160000204 46; D 192999016 46; D 215999284 46; D 230999395 46; D 243999236 46; D 263000279 46; D 275001099 46];
  [D 280260456 0; D 475000226 44; D 14600052 46; D 34499854 46; D 511000304 45; D 647002518 45; D 760997586 45; D 949998291 45; D 11000052 47;
   D 140000374 46; D 163999781 46; D 197000269 46; D 21999946 47; D 236000776 46; D 250001044 46; D 269000999 46; D 281999442 46];
  [D 280260456 0; D 49299808 45; D 151000053 45; D 355000851 45; D 522999332 45; D 662996815 45; D 780996123 45; D 972004259 45; D 112999692 46;
   D 143000066 46; D 168000187 46; D 201999474 46; D 226000021 46; D 240999556 46; D 255000395 46; D 276001167 46; D 287000826 46];
  [D 280260456 0; D 510002322 44; D 156000652 45; D 365001034 45; D 538000875 45; D 682996808 45; D 799998767 45; D 996999418 45; D 115000341 46;
   D 145999777 46; D 172000106 46; D 206999234 46; D 22999903 47; D 246999199 46; D 262000154 46; D 281999442 46; D 293998626 46];
  [D 280260456 0; D 529999084 44; D 160999327 45; D 37500156 46; D 550997453 45; D 699999896 45; D 8209976 47; D 102000233 46; D 118000055 46;
   D 148999819 46; D 174999846 46; D 211999749 46; D 236000776 46; D 252998888 46; D 266999048 46; D 288001329 46; D 300000786 46];
  [D 280260456 0; D 545997982 44; D 165000777 45; D 384998788 45; D 563997707 45; D 718000443 45; D 838999563 45; D 104000436 46; D 120000402 46;
   D 152999567 46; D 178999872 46; D 215999284 46; D 239999081 46; D 257998841 46; D 2730009 48; D 293998626 46; D 306999185 46];
  [D 280260456 0; D 56600068 45; D 170000297 45; D 393999715 45; D 577997871 45; D 733003287 45; D 857996642 45; D 105999576 46; D 123000091 46;
   D 155999857 46; D 182999806 46; D 21999946 47; D 246000875 46; D 263998941 46; D 278001106 46; D 300000786 46; D 314000662 46];
  [D 280260456 0; D 582998888 44; D 17599933 46; D 406998779 45; D 594999274 45; D 753003734 45; D 879998485 45; D 108999696 46; D 126000401 46;
   D 159000142 46; D 186999341 46; D 225001055 46; D 251000541 46; D 269000999 46; D 284000243 46; D 306999185 46; D 320001311 46];
  [D 280260456 0; D 601998696 44; D 181000571 45; D 417999479 45; D 609001168 45; D 771001397 45; D 90100444 46; D 111000543 46; D 128000618 46;
   D 163000797 46; D 191000318 46; D 22999903 47; D 256999745 46; D 275001099 46; D 291000531 46; D 314000662 46; D 32700161 47];
  [D 280260456 0; D 622999228 44; D 187000293 45; D 429001402 45; D 624999085 45; D 78999782 46; D 923998258 45; D 112999692 46; D 130999708 46;
   D 167000214 46; D 194999129 46; D 234999901 46; D 262000154 46; D 281000119 46; D 295998709 46; D 320001311 46; D 334001369 46];
  [D 280260456 0; D 64399778 45; D 192000924 45; D 439998002 45; D 641000467 45; D 80699719 46; D 945997746 45; D 116000569 46; D 133999369 46;
   D 169999432 46; D 199000053 46; D 239999081 46; D 265999677 46; D 286000939 46; D 303000693 46; D 325999254 46; D 341000892 46];
  [D 280260456 0; D 664998828 44; D 196999302 45; D 451001284 45; D 654001854 45; D 826996271 45; D 963998931 45; D 118000055 46; D 136000028 46;
   D 173999964 46; D 20299982 47; D 244999236 46; D 272000823 46; D 293000728 46; D 310000867 46; D 334001369 46; D 348000909 46];
  [D 280260456 0; D 684997562 44; D 203000854 45; D 46300145 46; D 671000704 45; D 846000699 45; D 987000145 45; D 12100055 47; D 139000161 46;
   D 176999179 46; D 206999234 46; D 250001044 46; D 278001106 46; D 298000479 46; D 31600091 47; D 339999822 46; D 353999356 46];
  [D 280260456 0; D 707003261 44; D 20899915 46; D 47600111 46; D 686001755 45; D 862996112 45; D 100000491 46; D 124000437 46; D 141999721 46;
   D 179999684 46; D 210999358 46; D 255000395 46; D 282999489 46; D 303999207 46; D 323000895 46; D 345998726 46; D 360998966 46];
  [D 280260456 0; D 730000544 44; D 214000893 45; D 486000759 45; D 701001612 45; D 882995572 45; D 102000233 46; D 126000401 46; D 144000258 46;
   D 182999806 46; D 214999369 46; D 2600009 48; D 288001329 46; D 309001179 46; D 328000487 46; D 352998954 46; D 368999428 46];
  [D 280260456 0; D 751999214 44; D 220999444 45; D 498000054 45; D 718999158 45; D 902997862 45; D 104000436 46; D 128000618 46; D 147000368 46;
   D 185999706 46; D 218000007 46; D 264998746 46; D 293000728 46; D 315000773 46; D 334001369 46; D 358000754 46; D 37499965 47];
  [D 280260456 0; D 77700383 45; D 225998912 45; D 509001104 45; D 73400085 46; D 919003734 45; D 105999576 46; D 130999708 46; D 14999997 47;
   D 190000194 46; D 221999492 46; D 269000999 46; D 299000454 46; D 321001274 46; D 339999822 46; D 364999175 46; D 380998369 46];
  [D 280260456 0; D 80199733 45; D 233000404 45; D 522999332 45; D 749997735 45; D 943003681 45; D 108999696 46; D 133999369 46; D 152999567 46;
   D 193999405 46; D 226998882 46; D 273999174 46; D 303999207 46; D 32700161 47; D 347000109 46; D 372000461 46; D 388998347 46];
  [D 280260456 0; D 826000418 44; D 241000784 45; D 535997869 45; D 76599848 46; D 962996894 45; D 111999577 46; D 137000571 46; D 155999857 46;
   D 197000269 46; D 230999395 46; D 279000924 46; D 310000867 46; D 334001369 46; D 353999356 46; D 378999579 46; D 396000349 46];
  [D 280260456 0; D 84999909 45; D 245999668 45; D 549000958 45; D 784000914 45; D 983001048 45; D 113999617 46; D 139000161 46; D 159000142 46;
   D 201000037 46; D 234999901 46; D 284000243 46; D 315000773 46; D 339999822 46; D 360000382 46; D 385000677 46; D 4049992 48];
  [D 280260456 0; D 876998497 44; D 253000176 45; D 560001905 45; D 799998767 45; D 100000491 46; D 116000569 46; D 143000066 46; D 161000117 46;
   D 203999 49; D 239000368 46; D 288999539 46; D 321001274 46; D 345998726 46; D 366000644 46; D 392001275 46; D 412998968 46];
  [D 280260456 0; D 905000303 44; D 259999624 45; D 574000453 45; D 817000891 45; D 102000233 46; D 118000055 46; D 145000196 46; D 163999781 46;
   D 207999379 46; D 243000887 46; D 293998626 46; D 325999254 46; D 352001379 46; D 372000461 46; D 398001229 46; D 419001749 46];
  [D 280260456 0; D 930000644 44; D 266001031 45; D 58699728 46; D 834998715 45; D 104000436 46; D 12100055 47; D 148000417 46; D 167000214 46;
   D 210999358 46; D 246999199 46; D 299000454 46; D 330998914 46; D 358000754 46; D 378999579 46; D 404000087 46; D 425998188 46];
  [D 280260456 0; D 960001915 44; D 27400057 46; D 600000318 45; D 852003118 45; D 105999576 46; D 123000091 46; D 150999284 46; D 169999432 46;
   D 214999369 46; D 251000541 46; D 303999207 46; D 337000729 46; D 364000446 46; D 385000677 46; D 412998968 46; D 434000243 46];
  [D 280260456 0; D 985003583 44; D 280000163 45; D 61499872 46; D 869997368 45; D 108000418 46; D 126000401 46; D 154000384 46; D 173000605 46;
   D 218000007 46; D 255000395 46; D 309001179 46; D 34200149 47; D 370000772 46; D 389999358 46; D 42000016 47; D 441000096 46]].
