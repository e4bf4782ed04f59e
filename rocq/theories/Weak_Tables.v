(** The tables of the weak interaction, PROPOSAL/crosssection/parametrization/ParamTables.cxx.
    The numbers are copied digit by digit: [D m k] stands for m * 10^k / 10^18.  Rounding
    of the literals to double precision is not modelled. *)
From Coq Require Import List PArith NArith.
Import ListNotations.

Inductive decimal := D (m : positive) (k : N).

(** y_nu_p, ParamTables.cxx:21-2299, and y_nubar_p, 4597-6875, which is the same *)
Definition y_proton : list (list decimal) := [
  [D 5244 13; D 540251 11; D 556581 11; D 573405 11; D 590737 11; D 608592 11; D 626988 11; D 64594 12; D 665464 11; D 685579 11; D 706301 11;
   D 72765 12; D 749645 11; D 772304 11; D 795648 11; D 819697 11; D 844474 11; D 869999 11; D 896296 11; D 923388 11; D 951299 11; D 980053 11;
   D 100968 12; D 10402 13; D 107164 12; D 110403 12; D 11374 13; D 117178 12; D 12072 13; D 124369 12; D 128128 12; D 132001 12; D 135991 12;
   D 140101 12; D 144336 12; D 148699 12; D 153193 12; D 157824 12; D 162594 12; D 167509 12; D 172572 12; D 177788 12; D 183162 12; D 188699 12;
   D 194402 12; D 200279 12; D 206332 12; D 212569 12; D 218994 12; D 225614 12; D 232433 12; D 239459 12; D 246697 12; D 254153 12; D 261836 12;
   D 26975 13; D 277904 12; D 286304 12; D 294958 12; D 303873 12; D 313058 12; D 322521 12; D 332269 12; D 342313 12; D 35266 13; D 363319 12;
   D 374301 12; D 385615 12; D 397271 12; D 409279 12; D 42165 13; D 434395 12; D 447525 12; D 461052 12; D 474988 12; D 489345 12; D 504136 12;
   D 519375 12; D 535073 12; D 551247 12; D 567909 12; D 585075 12; D 60276 13; D 620979 12; D 639749 12; D 659086 12; D 679008 12; D 699532 12;
   D 720676 12; D 74246 13; D 764902 12; D 788022 12; D 811841 12; D 83638 13; D 861661 12; D 887706 12; D 914538 12; D 942182 12; D 97066 13; D 1 18];
  [D 421351 11; D 435047 11; D 449189 11; D 46379 12; D 478866 11; D 494432 11; D 510504 11; D 527098 11; D 544232 11; D 561923 11; D 580188 11;
   D 599048 11; D 61852 12; D 638626 11; D 659385 11; D 680818 11; D 702949 11; D 725799 11; D 749392 11; D 773751 11; D 798902 11; D 824871 11;
   D 851684 11; D 879369 11; D 907954 11; D 937467 11; D 967941 11; D 999404 11; D 103189 12; D 106543 12; D 110007 12; D 113582 12; D 117274 12;
   D 121087 12; D 125023 12; D 129087 12; D 133283 12; D 137615 12; D 142088 12; D 146707 12; D 151476 12; D 1564 14; D 161484 12; D 166733 12;
   D 172153 12; D 177748 12; D 183526 12; D 189492 12; D 195652 12; D 202011 12; D 208578 12; D 215358 12; D 222358 12; D 229586 12; D 237049 12;
   D 244755 12; D 25271 13; D 260925 12; D 269407 12; D 278164 12; D 287206 12; D 296542 12; D 306181 12; D 316134 12; D 32641 13; D 33702 13;
   D 347975 12; D 359286 12; D 370965 12; D 383024 12; D 395474 12; D 408329 12; D 421602 12; D 435307 12; D 449457 12; D 464067 12; D 479152 12;
   D 494727 12; D 510808 12; D 527412 12; D 544556 12; D 562258 12; D 580534 12; D 599405 12; D 618889 12; D 639006 12; D 659778 12; D 681224 12;
   D 703368 12; D 726232 12; D 749838 12; D 774212 12; D 799379 12; D 825363 12; D 852192 12; D 879893 12; D 908495 12; D 938026 12; D 968518 12;
   D 1 18];
  [D 337935 11; D 349698 11; D 361871 11; D 374467 11; D 387502 11; D 400991 11; D 414949 11; D 429393 11; D 44434 12; D 459807 11; D 475812 11;
   D 492375 11; D 509514 11; D 52725 12; D 545603 11; D 564595 11; D 584248 11; D 604585 11; D 62563 12; D 647408 11; D 669944 11; D 693264 11;
   D 717396 11; D 742368 11; D 768209 11; D 79495 12; D 822621 11; D 851256 11; D 880888 11; D 911551 11; D 943281 11; D 976116 11; D 101009 12;
   D 104525 12; D 108164 12; D 111929 12; D 115825 12; D 119857 12; D 124029 12; D 128346 12; D 132814 12; D 137437 12; D 142221 12; D 147172 12;
   D 152295 12; D 157596 12; D 163082 12; D 168759 12; D 174633 12; D 180712 12; D 187002 12; D 193512 12; D 200247 12; D 207218 12; D 214431 12;
   D 221895 12; D 229619 12; D 237612 12; D 245883 12; D 254442 12; D 263299 12; D 272464 12; D 281949 12; D 291763 12; D 301919 12; D 312429 12;
   D 323304 12; D 334558 12; D 346204 12; D 358255 12; D 370725 12; D 38363 13; D 396984 12; D 410802 12; D 425102 12; D 439899 12; D 455212 12;
   D 471058 12; D 487455 12; D 504423 12; D 521981 12; D 540151 12; D 558953 12; D 57841 13; D 598544 12; D 619379 12; D 640939 12; D 663249 12;
   D 686336 12; D 710227 12; D 73495 13; D 760533 12; D 787006 12; D 814401 12; D 84275 13; D 872085 12; D 902442 12; D 933855 12; D 966362 12; D 1 18];
  [D 270634 11; D 280684 11; D 291106 11; D 301916 11; D 313127 11; D 324755 11; D 336814 11; D 349321 11; D 362292 11; D 375745 11; D 389698 11;
   D 404168 11; D 419176 11; D 434742 11; D 450885 11; D 467628 11; D 484992 11; D 503002 11; D 52168 12; D 541051 11; D 561142 11; D 581979 11;
   D 60359 12; D 626003 11; D 649249 11; D 673357 11; D 698361 11; D 724294 11; D 751189 11; D 779083 11; D 808013 11; D 838017 11; D 869135 11;
   D 901409 11; D 934881 11; D 969596 11; D 10056 13; D 104294 12; D 108167 12; D 112183 12; D 116349 12; D 12067 13; D 12515 13; D 129798 12;
   D 134617 12; D 139616 12; D 144801 12; D 150178 12; D 155754 12; D 161538 12; D 167536 12; D 173757 12; D 180209 12; D 186901 12; D 193841 12;
   D 201039 12; D 208505 12; D 216247 12; D 224277 12; D 232605 12; D 241242 12; D 250201 12; D 259491 12; D 269127 12; D 279121 12; D 289485 12;
   D 300235 12; D 311383 12; D 322946 12; D 334938 12; D 347375 12; D 360274 12; D 373653 12; D 387527 12; D 401918 12; D 416842 12; D 432321 12;
   D 448374 12; D 465024 12; D 482292 12; D 500201 12; D 518775 12; D 538038 12; D 558017 12; D 578738 12; D 600229 12; D 622517 12; D 645633 12;
   D 669607 12; D 694472 12; D 72026 13; D 747006 12; D 774744 12; D 803513 12; D 83335 13; D 864295 12; D 896389 12; D 929675 12; D 964196 12; D 1 18];
  [D 216481 11; D 225026 11; D 233909 11; D 243142 11; D 25274 12; D 262717 11; D 273088 11; D 283868 11; D 295074 11; D 306722 11; D 318829 11;
   D 331415 11; D 344498 11; D 358097 11; D 372232 11; D 386926 11; D 4022 13; D 418077 11; D 43458 12; D 451735 11; D 469567 11; D 488103 11;
   D 507371 11; D 5274 13; D 548218 11; D 569859 11; D 592354 11; D 615737 11; D 640043 11; D 665309 11; D 691572 11; D 718872 11; D 747249 11;
   D 776746 11; D 807408 11; D 83928 12; D 872411 11; D 906849 11; D 942647 11; D 979858 11; D 101854 12; D 105874 12; D 110054 12; D 114398 12;
   D 118914 12; D 123608 12; D 128487 12; D 133559 12; D 138832 12; D 144312 12; D 150009 12; D 15593 13; D 162086 12; D 168484 12; D 175135 12;
   D 182048 12; D 189234 12; D 196704 12; D 204469 12; D 212541 12; D 220931 12; D 229652 12; D 238717 12; D 248141 12; D 257936 12; D 268118 12;
   D 278702 12; D 289703 12; D 301139 12; D 313027 12; D 325383 12; D 338228 12; D 351579 12; D 365458 12; D 379884 12; D 39488 13; D 410468 12;
   D 426671 12; D 443514 12; D 461021 12; D 47922 13; D 498137 12; D 517801 12; D 538241 12; D 559488 12; D 581574 12; D 604531 12; D 628395 12;
   D 653201 12; D 678985 12; D 705788 12; D 733649 12; D 76261 13; D 792714 12; D 824006 12; D 856533 12; D 890345 12; D 925491 12; D 962024 12; D 1 18];
  [D 172999 11; D 180236 11; D 187775 11; D 19563 12; D 203814 11; D 21234 12; D 221222 11; D 230476 11; D 240117 11; D 250162 11; D 260627 11;
   D 271529 11; D 282887 11; D 294721 11; D 30705 12; D 319894 11; D 333276 11; D 347217 11; D 361742 11; D 376874 11; D 39264 12; D 409064 11;
   D 426176 11; D 444004 11; D 462577 11; D 481928 11; D 502087 11; D 523091 11; D 544972 11; D 567769 11; D 59152 12; D 616264 11; D 642044 11;
   D 668901 11; D 696883 11; D 726034 11; D 756406 11; D 788047 11; D 821013 11; D 855357 11; D 891138 11; D 928416 11; D 967253 11; D 100771 12;
   D 104987 12; D 109379 12; D 113954 12; D 118721 12; D 123687 12; D 128861 12; D 134252 12; D 139868 12; D 145719 12; D 151814 12; D 158165 12;
   D 164781 12; D 171674 12; D 178856 12; D 186338 12; D 194133 12; D 202253 12; D 210714 12; D 219528 12; D 228712 12; D 238279 12; D 248247 12;
   D 258631 12; D 26945 13; D 280722 12; D 292465 12; D 304699 12; D 317445 12; D 330724 12; D 344559 12; D 358973 12; D 373989 12; D 389634 12;
   D 405933 12; D 422914 12; D 440605 12; D 459036 12; D 478238 12; D 498244 12; D 519086 12; D 5408 14; D 563423 12; D 586992 12; D 611546 12;
   D 637128 12; D 663781 12; D 691548 12; D 720476 12; D 750615 12; D 782014 12; D 814727 12; D 848809 12; D 884316 12; D 921308 12; D 959848 12;
   D 1 18];
  [D 138146 11; D 144252 11; D 150628 11; D 157286 11; D 164239 11; D 171498 11; D 179079 11; D 186995 11; D 19526 12; D 203891 11; D 212903 11;
   D 222314 11; D 232141 11; D 242402 11; D 253116 11; D 264305 11; D 275987 11; D 288187 11; D 300925 11; D 314226 11; D 328116 11; D 342619 11;
   D 357764 11; D 373577 11; D 39009 12; D 407333 11; D 425338 11; D 444139 11; D 46377 12; D 48427 12; D 505675 11; D 528027 11; D 551367 11;
   D 575738 11; D 601187 11; D 627761 11; D 655509 11; D 684484 11; D 714739 11; D 746332 11; D 779321 11; D 813769 11; D 849739 11; D 887299 11;
   D 926519 11; D 967473 11; D 101024 12; D 105489 12; D 110152 12; D 115021 12; D 120105 12; D 125414 12; D 130957 12; D 136746 12; D 14279 13;
   D 149102 12; D 155693 12; D 162574 12; D 169761 12; D 177264 12; D 1851 14; D 193281 12; D 201825 12; D 210746 12; D 220061 12; D 229788 12;
   D 239946 12; D 250552 12; D 261626 12; D 273191 12; D 285266 12; D 297876 12; D 311042 12; D 324791 12; D 339147 12; D 354138 12; D 369792 12;
   D 386137 12; D 403205 12; D 421028 12; D 439638 12; D 459071 12; D 479363 12; D 500551 12; D 522677 12; D 54578 13; D 569904 12; D 595095 12;
   D 621399 12; D 648866 12; D 677548 12; D 707496 12; D 738769 12; D 771424 12; D 805522 12; D 841128 12; D 878308 12; D 91713 13; D 957669 12; D 1 18];
  [D 110248 11; D 115383 11; D 120758 11; D 126384 11; D 132271 11; D 138433 11; D 144882 11; D 151631 11; D 158694 11; D 166087 11; D 173824 11;
   D 181921 11; D 190396 11; D 199265 11; D 208548 11; D 218263 11; D 22843 12; D 239072 11; D 250208 11; D 261864 11; D 274063 11; D 28683 12;
   D 300191 11; D 314175 11; D 328811 11; D 344128 11; D 360159 11; D 376937 11; D 394496 11; D 412873 11; D 432106 11; D 452235 11; D 473302 11;
   D 495351 11; D 518426 11; D 542576 11; D 567852 11; D 594304 11; D 621989 11; D 650964 11; D 681288 11; D 713026 11; D 746241 11; D 781004 11;
   D 817386 11; D 855463 11; D 895314 11; D 937021 11; D 980671 11; D 102635 12; D 107417 12; D 112421 12; D 117658 12; D 123138 12; D 128875 12;
   D 134878 12; D 141161 12; D 147737 12; D 154619 12; D 161822 12; D 16936 13; D 17725 13; D 185507 12; D 194149 12; D 203193 12; D 212658 12;
   D 222565 12; D 232933 12; D 243784 12; D 25514 13; D 267025 12; D 279464 12; D 292483 12; D 306108 12; D 320368 12; D 335292 12; D 350911 12;
   D 367258 12; D 384366 12; D 402271 12; D 421011 12; D 440623 12; D 461149 12; D 482631 12; D 505114 12; D 528644 12; D 55327 13; D 579044 12;
   D 606018 12; D 634249 12; D 663794 12; D 694716 12; D 727079 12; D 760949 12; D 796397 12; D 833497 12; D 872324 12; D 91296 13; D 95549 13; D 1 18];
  [D 879407 10; D 922477 10; D 967657 10; D 101505 11; D 106476 11; D 111691 11; D 117161 11; D 1229 13; D 128919 11; D 135233 11; D 141856 11;
   D 148804 11; D 156091 11; D 163736 11; D 171755 11; D 180167 11; D 188991 11; D 198248 11; D 207957 11; D 218142 11; D 228826 11; D 240033 11;
   D 251789 11; D 264121 11; D 277056 11; D 290626 11; D 304859 11; D 31979 12; D 335453 11; D 351882 11; D 369116 11; D 387194 11; D 406157 11;
   D 426049 11; D 446916 11; D 468804 11; D 491764 11; D 515849 11; D 541114 11; D 567616 11; D 595416 11; D 624577 11; D 655167 11; D 687254 11;
   D 720914 11; D 756221 11; D 793259 11; D 83211 12; D 872863 11; D 915613 11; D 960457 11; D 10075 13; D 105684 12; D 11086 13; D 11629 13;
   D 121985 12; D 127959 12; D 134226 12; D 1408 14; D 147696 12; D 15493 13; D 162518 12; D 170477 12; D 178827 12; D 187585 12; D 196772 12;
   D 20641 13; D 216519 12; D 227123 12; D 238247 12; D 249915 12; D 262155 12; D 274995 12; D 288463 12; D 302591 12; D 317411 12; D 332957 12;
   D 349264 12; D 366369 12; D 384313 12; D 403135 12; D 422879 12; D 44359 13; D 465316 12; D 488105 12; D 512011 12; D 537088 12; D 563392 12;
   D 590985 12; D 61993 13; D 650292 12; D 682141 12; D 71555 13; D 750595 12; D 787356 12; D 825918 12; D 866369 12; D 9088 14; D 95331 13; D 1 18];
  [D 701202 10; D 737229 10; D 775106 10; D 81493 11; D 8568 12; D 900822 10; D 947105 10; D 995766 10; D 104693 11; D 110072 11; D 115727 11;
   D 121673 11; D 127924 11; D 134497 11; D 141407 11; D 148672 11; D 156311 11; D 164342 11; D 172786 11; D 181663 11; D 190997 11; D 20081 12;
   D 211127 11; D 221975 11; D 23338 12; D 24537 12; D 257977 11; D 271232 11; D 285167 11; D 299819 11; D 315223 11; D 331419 11; D 348447 11;
   D 366349 11; D 385172 11; D 404961 11; D 425768 11; D 447643 11; D 470642 11; D 494823 11; D 520247 11; D 546976 11; D 575079 11; D 604626 11;
   D 635691 11; D 668352 11; D 702691 11; D 738794 11; D 776753 11; D 816661 11; D 85862 12; D 902735 11; D 949116 11; D 997881 11; D 104915 12;
   D 110305 12; D 115973 12; D 121931 12; D 128196 12; D 134783 12; D 141707 12; D 148988 12; D 156643 12; D 164691 12; D 173153 12; D 182049 12;
   D 191403 12; D 201237 12; D 211576 12; D 222446 12; D 233875 12; D 245891 12; D 258525 12; D 271808 12; D 285773 12; D 300455 12; D 315892 12;
   D 332123 12; D 349187 12; D 367127 12; D 38599 13; D 405822 12; D 426672 12; D 448594 12; D 471642 12; D 495874 12; D 521352 12; D 548138 12;
   D 576301 12; D 60591 13; D 637041 12; D 669772 12; D 704184 12; D 740364 12; D 778402 12; D 818396 12; D 860444 12; D 904652 12; D 951132 12; D 1 18];
  [D 558937 10; D 589002 10; D 620684 10; D 65407 11; D 689252 10; D 726327 10; D 765396 10; D 806566 10; D 849951 10; D 895669 10; D 943847 10;
   D 994616 10; D 104812 11; D 110449 11; D 11639 12; D 122651 11; D 129248 11; D 136201 11; D 143527 11; D 151247 11; D 159383 11; D 167956 11;
   D 17699 12; D 18651 12; D 196542 11; D 207114 11; D 218255 11; D 229995 11; D 242366 11; D 255403 11; D 269141 11; D 283618 11; D 298874 11;
   D 31495 12; D 331891 11; D 349743 11; D 368556 11; D 38838 12; D 409271 11; D 431286 11; D 454484 11; D 478931 11; D 504693 11; D 53184 12;
   D 560447 11; D 590593 11; D 622361 11; D 655838 11; D 691115 11; D 72829 12; D 767464 11; D 808746 11; D 852248 11; D 89809 12; D 946398 11;
   D 997304 11; D 105095 12; D 110748 12; D 116705 12; D 122983 12; D 129598 12; D 136569 12; D 143915 12; D 151656 12; D 159813 12; D 16841 13;
   D 177468 12; D 187014 12; D 197074 12; D 207674 12; D 218845 12; D 230617 12; D 243021 12; D 256093 12; D 269868 12; D 284385 12; D 299682 12;
   D 315801 12; D 332788 12; D 350689 12; D 369552 12; D 38943 13; D 410377 12; D 432451 12; D 455713 12; D 480225 12; D 506057 12; D 533277 12;
   D 561962 12; D 59219 13; D 624043 12; D 65761 13; D 692983 12; D 730258 12; D 769539 12; D 810932 12; D 854552 12; D 900518 12; D 948956 12; D 1 18];
  [D 445426 10; D 470463 10; D 496907 10; D 524837 10; D 554338 10; D 585497 10; D 618407 10; D 653166 10; D 68988 11; D 728657 10; D 769614 10;
   D 812873 10; D 858564 10; D 906822 10; D 957794 10; D 101163 11; D 106849 11; D 112855 11; D 119199 11; D 125899 11; D 132975 11; D 140449 11;
   D 148344 11; D 156682 11; D 165489 11; D 174791 11; D 184616 11; D 194993 11; D 205953 11; D 217529 11; D 229757 11; D 242671 11; D 256311 11;
   D 270718 11; D 285935 11; D 302007 11; D 318982 11; D 336912 11; D 355849 11; D 375851 11; D 396977 11; D 41929 12; D 442858 11; D 467751 11;
   D 494042 11; D 521812 11; D 551142 11; D 582121 11; D 614842 11; D 649401 11; D 685903 11; D 724457 11; D 765177 11; D 808187 11; D 853614 11;
   D 901595 11; D 952272 11; D 10058 13; D 106233 12; D 112205 12; D 118511 12; D 125173 12; D 132209 12; D 13964 13; D 147489 12; D 155779 12;
   D 164535 12; D 173783 12; D 183552 12; D 193869 12; D 204766 12; D 216275 12; D 228432 12; D 241272 12; D 254833 12; D 269157 12; D 284286 12;
   D 300266 12; D 317143 12; D 334969 12; D 353798 12; D 373684 12; D 394688 12; D 416873 12; D 440305 12; D 465054 12; D 491194 12; D 518804 12;
   D 547965 12; D 578765 12; D 611297 12; D 645657 12; D 681949 12; D 72028 13; D 760766 12; D 803528 12; D 848693 12; D 896397 12; D 946783 12; D 1 18];
  [D 354898 10; D 375708 10; D 397738 10; D 421059 10; D 445748 10; D 471885 10; D 499554 10; D 528846 10; D 559855 10; D 592682 10; D 627434 10;
   D 664224 10; D 703171 10; D 744402 10; D 78805 11; D 834258 10; D 883175 10; D 93496 11; D 989782 10; D 104782 11; D 110926 11; D 11743 12;
   D 124316 11; D 131605 11; D 139322 11; D 147491 11; D 156139 11; D 165294 11; D 174986 11; D 185247 11; D 196109 11; D 207608 11; D 219781 11;
   D 232668 11; D 24631 12; D 260753 11; D 276042 11; D 292228 11; D 309363 11; D 327502 11; D 346706 11; D 367035 11; D 388556 11; D 411339 11;
   D 435458 11; D 460992 11; D 488022 11; D 516638 11; D 546931 11; D 579 14; D 61295 12; D 648891 11; D 686939 11; D 727218 11; D 769859 11; D 815 14;
   D 862787 11; D 913377 11; D 966934 11; D 102363 12; D 108365 12; D 114719 12; D 121446 12; D 128567 12; D 136105 12; D 144086 12; D 152534 12;
   D 161478 12; D 170947 12; D 18097 13; D 191582 12; D 202815 12; D 214707 12; D 227297 12; D 240624 12; D 254733 12; D 26967 13; D 285482 12;
   D 302221 12; D 319942 12; D 338702 12; D 358562 12; D 379587 12; D 401844 12; D 425406 12; D 45035 13; D 476756 12; D 504711 12; D 534305 12;
   D 565634 12; D 598801 12; D 633911 12; D 671081 12; D 71043 13; D 752087 12; D 796186 12; D 84287 13; D 892292 12; D 944612 12; D 1 18];
  [D 282726 10; D 299991 10; D 318312 10; D 337751 10; D 358377 10; D 380263 10; D 403485 10; D 428126 10; D 454271 10; D 482013 10; D 51145 11;
   D 542684 10; D 575825 10; D 61099 11; D 648303 10; D 687895 10; D 729904 10; D 774479 10; D 821776 10; D 871961 10; D 925211 10; D 981713 10;
   D 104167 11; D 110528 11; D 117278 11; D 12444 12; D 132039 11; D 140103 11; D 148659 11; D 157737 11; D 16737 12; D 177592 11; D 188437 11;
   D 199945 11; D 212155 11; D 225111 11; D 238859 11; D 253446 11; D 268924 11; D 285347 11; D 302773 11; D 321263 11; D 340882 11; D 3617 13;
   D 383788 11; D 407226 11; D 432095 11; D 458483 11; D 486482 11; D 516191 11; D 547715 11; D 581163 11; D 616655 11; D 654313 11; D 694272 11;
   D 736671 11; D 781659 11; D 829394 11; D 880045 11; D 933789 11; D 990814 11; D 105132 12; D 111553 12; D 118365 12; D 125594 12; D 133264 12;
   D 141402 12; D 150037 12; D 1592 14; D 168922 12; D 179238 12; D 190184 12; D 201798 12; D 214122 12; D 227198 12; D 241073 12; D 255796 12;
   D 271417 12; D 287992 12; D 30558 13; D 324241 12; D 344042 12; D 365053 12; D 387346 12; D 411001 12; D 436101 12; D 462733 12; D 490992 12;
   D 520977 12; D 552792 12; D 586551 12; D 622372 12; D 660379 12; D 700708 12; D 7435 14; D 788905 12; D 837083 12; D 888203 12; D 942445 12; D 1 18];
  [D 225202 10; D 239505 10; D 254716 10; D 270893 10; D 288097 10; D 306395 10; D 325854 10; D 346549 10; D 368558 10; D 391965 10; D 416859 10;
   D 443334 10; D 47149 11; D 501435 10; D 533281 10; D 56715 11; D 60317 11; D 641477 10; D 682218 10; D 725546 10; D 771625 10; D 820631 10;
   D 87275 11; D 928178 10; D 987127 10; D 104982 11; D 111649 11; D 11874 12; D 126282 11; D 134302 11; D 142831 11; D 151903 11; D 16155 12;
   D 17181 12; D 182722 11; D 194326 11; D 206668 11; D 219794 11; D 233753 11; D 248599 11; D 264387 11; D 281178 11; D 299036 11; D 318028 11;
   D 338226 11; D 359707 11; D 382552 11; D 406848 11; D 432687 11; D 460167 11; D 489392 11; D 520474 11; D 553529 11; D 588684 11; D 626071 11;
   D 665833 11; D 708121 11; D 753094 11; D 800923 11; D 85179 12; D 905887 11; D 96342 12; D 102461 12; D 108968 12; D 115889 12; D 123249 12;
   D 131076 12; D 139401 12; D 148254 12; D 15767 13; D 167684 12; D 178333 12; D 189659 12; D 201705 12; D 214515 12; D 228139 12; D 242628 12;
   D 258037 12; D 274426 12; D 291854 12; D 31039 13; D 330103 12; D 351068 12; D 373364 12; D 397077 12; D 422295 12; D 449115 12; D 477639 12;
   D 507974 12; D 540235 12; D 574546 12; D 611036 12; D 649843 12; D 691114 12; D 735007 12; D 781688 12; D 831333 12; D 884131 12; D 940282 12;
   D 1 18];
  [D 179365 10; D 191195 10; D 203806 10; D 217249 10; D 231578 10; D 246853 10; D 263134 10; D 28049 11; D 298991 10; D 318711 10; D 339733 10;
   D 362141 10; D 386027 10; D 411489 10; D 438629 10; D 467561 10; D 4984 12; D 531273 10; D 566315 10; D 603668 10; D 643484 10; D 685927 10;
   D 731169 10; D 779396 10; D 830803 10; D 885601 10; D 944013 10; D 100628 11; D 107265 11; D 11434 12; D 121882 11; D 129921 11; D 13849 12;
   D 147624 11; D 157361 11; D 167741 11; D 178804 11; D 190598 11; D 203169 11; D 21657 12; D 230855 11; D 246081 11; D 262312 11; D 279614 11;
   D 298056 11; D 317716 11; D 338671 11; D 36101 12; D 384821 11; D 410203 11; D 437259 11; D 4661 13; D 496843 11; D 529613 11; D 564545 11;
   D 601782 11; D 641474 11; D 683784 11; D 728885 11; D 776961 11; D 828207 11; D 882834 11; D 941064 11; D 100313 12; D 10693 13; D 113983 12;
   D 121501 12; D 129515 12; D 138057 12; D 147163 12; D 15687 13; D 167217 12; D 178246 12; D 190003 12; D 202535 12; D 215893 12; D 230133 12;
   D 245312 12; D 261493 12; D 27874 13; D 297125 12; D 316723 12; D 337613 12; D 359882 12; D 383619 12; D 408921 12; D 435893 12; D 464643 12;
   D 49529 13; D 527958 12; D 562781 12; D 599901 12; D 639469 12; D 681647 12; D 726607 12; D 774533 12; D 825619 12; D 880076 12; D 938123 12; D 1 18];
  [D 142846 10; D 152618 10; D 163059 10; D 174215 10; D 186133 10; D 198867 10; D 212471 10; D 227007 10; D 242537 10; D 259129 10; D 276857 10;
   D 295797 10; D 316033 10; D 337654 10; D 360753 10; D 385433 10; D 411801 10; D 439973 10; D 470073 10; D 502231 10; D 53659 11; D 573299 10;
   D 612519 10; D 654423 10; D 699193 10; D 747027 10; D 798132 10; D 852734 10; D 911071 10; D 973399 10; D 103999 11; D 111114 11; D 118715 11;
   D 126837 11; D 135514 11; D 144785 11; D 15469 12; D 165272 11; D 176579 11; D 188659 11; D 201566 11; D 215355 11; D 230088 11; D 245829 11;
   D 262646 11; D 280614 11; D 299812 11; D 320323 11; D 342236 11; D 365649 11; D 390664 11; D 41739 12; D 445945 11; D 476453 11; D 509048 11;
   D 543872 11; D 58108 12; D 620833 11; D 663305 11; D 708683 11; D 757165 11; D 808964 11; D 864307 11; D 923436 11; D 98661 12; D 105411 12;
   D 112622 12; D 120327 12; D 128558 12; D 137353 12; D 14675 13; D 156789 12; D 167516 12; D 178976 12; D 19122 13; D 204301 12; D 218278 12;
   D 233211 12; D 249165 12; D 266211 12; D 284423 12; D 303881 12; D 32467 13; D 346881 12; D 370612 12; D 395966 12; D 423055 12; D 451997 12;
   D 482919 12; D 515956 12; D 551254 12; D 588966 12; D 629258 12; D 672307 12; D 718301 12; D 767441 12; D 819943 12; D 876037 12; D 935969 12;
   D 1 18];
  [D 113756 10; D 121818 10; D 130451 10; D 139696 10; D 149597 10; D 160199 10; D 171553 10; D 183711 10; D 196731 10; D 210674 10; D 225605 10;
   D 241594 10; D 258717 10; D 277052 10; D 296688 10; D 317715 10; D 340232 10; D 364345 10; D 390167 10; D 417819 10; D 44743 11; D 479141 10;
   D 513099 10; D 549463 10; D 588405 10; D 630106 10; D 674763 10; D 722585 10; D 773797 10; D 828637 10; D 887365 10; D 950254 10; D 10176 12;
   D 108972 11; D 116695 11; D 124966 11; D 133822 11; D 143306 11; D 153463 11; D 164339 11; D 175986 11; D 188459 11; D 201815 11; D 216118 11;
   D 231435 11; D 247837 11; D 265402 11; D 284212 11; D 304355 11; D 325925 11; D 349024 11; D 37376 12; D 400249 11; D 428616 11; D 458993 11;
   D 491522 11; D 526358 11; D 563662 11; D 60361 12; D 646389 11; D 6922 13; D 741258 11; D 793792 11; D 85005 12; D 910295 11; D 97481 12; D 10439 13;
   D 111788 12; D 119711 12; D 128195 12; D 13728 13; D 14701 13; D 157429 12; D 168586 12; D 180534 12; D 193329 12; D 20703 13; D 221703 12;
   D 237416 12; D 254242 12; D 27226 13; D 291556 12; D 312219 12; D 334347 12; D 358043 12; D 383418 12; D 410592 12; D 439692 12; D 470854 12;
   D 504224 12; D 539959 12; D 578228 12; D 619208 12; D 663092 12; D 710087 12; D 760413 12; D 814305 12; D 872016 12; D 933818 12; D 1 18];
  [D 905848 9; D 972282 9; D 104359 10; D 112012 10; D 120227 10; D 129044 10; D 138508 10; D 148666 10; D 159569 10; D 171272 10; D 183833 10;
   D 197315 10; D 211786 10; D 227318 10; D 243989 10; D 261883 10; D 281089 10; D 301704 10; D 323831 10; D 34758 11; D 373071 10; D 400432 10;
   D 429799 10; D 46132 11; D 495152 10; D 531466 10; D 570443 10; D 612279 10; D 657183 10; D 70538 11; D 757111 10; D 812637 10; D 872235 10;
   D 936203 10; D 100486 11; D 107856 11; D 115766 11; D 124256 11; D 133369 11; D 14315 12; D 153648 11; D 164917 11; D 177012 11; D 189993 11;
   D 203927 11; D 218883 11; D 234936 11; D 252165 11; D 270659 11; D 290509 11; D 311814 11; D 334682 11; D 359228 11; D 385573 11; D 41385 12;
   D 444202 11; D 476779 11; D 511745 11; D 549276 11; D 589559 11; D 632797 11; D 679205 11; D 729017 11; D 782483 11; D 839869 11; D 901464 11;
   D 967576 11; D 103854 12; D 11147 13; D 119645 12; D 12842 13; D 137838 12; D 147947 12; D 158797 12; D 170443 12; D 182943 12; D 19636 13;
   D 210761 12; D 226218 12; D 242808 12; D 260616 12; D 279729 12; D 300244 12; D 322263 12; D 345898 12; D 371265 12; D 398494 12; D 427719 12;
   D 459087 12; D 492756 12; D 528894 12; D 567682 12; D 609316 12; D 654002 12; D 701966 12; D 753447 12; D 808704 12; D 868013 12; D 931672 12;
   D 1 18];
  [D 721308 9; D 775992 9; D 834821 9; D 89811 10; D 966197 9; D 103945 10; D 111825 10; D 120302 10; D 129423 10; D 139234 10; D 14979 11; D 161146 10;
   D 173362 10; D 186505 10; D 200644 10; D 215856 10; D 23222 11; D 249825 10; D 268764 10; D 28914 11; D 31106 11; D 334642 10; D 360011 10;
   D 387304 10; D 416667 10; D 448255 10; D 482237 10; D 518797 10; D 558127 10; D 60044 11; D 64596 11; D 694931 10; D 747615 10; D 804292 10;
   D 865267 10; D 930864 10; D 100143 11; D 107735 11; D 115903 11; D 12469 12; D 134143 11; D 144312 11; D 155253 11; D 167023 11; D 179685 11;
   D 193307 11; D 207962 11; D 223728 11; D 240689 11; D 258936 11; D 278566 11; D 299685 11; D 322404 11; D 346846 11; D 373141 11; D 40143 12;
   D 431862 11; D 464603 11; D 499825 11; D 537717 11; D 578482 11; D 622338 11; D 669518 11; D 720275 11; D 77488 12; D 833625 11; D 896824 11;
   D 964813 11; D 103796 12; D 111665 12; D 12013 13; D 129237 12; D 139035 12; D 149575 12; D 160915 12; D 173114 12; D 186238 12; D 200357 12;
   D 215546 12; D 231887 12; D 249467 12; D 268379 12; D 288726 12; D 310614 12; D 334163 12; D 359496 12; D 38675 13; D 41607 13; D 447613 12;
   D 481547 12; D 518054 12; D 557328 12; D 59958 13; D 645035 12; D 693936 12; D 746544 12; D 803141 12; D 864028 12; D 929531 12; D 1 18];
  [D 574345 9; D 619311 9; D 667797 9; D 720079 9; D 776454 9; D 837243 9; D 90279 10; D 97347 10; D 104968 10; D 113186 10; D 122048 10; D 131603 10;
   D 141906 10; D 153016 10; D 164995 10; D 177913 10; D 191842 10; D 206861 10; D 223056 10; D 240519 10; D 25935 11; D 279654 10; D 301548 10;
   D 325157 10; D 350613 10; D 378063 10; D 407661 10; D 439577 10; D 473992 10; D 5111 12; D 551115 10; D 594261 10; D 640786 10; D 690953 10;
   D 745048 10; D 803378 10; D 866275 10; D 934095 10; D 100723 11; D 108608 11; D 117111 11; D 12628 12; D 136166 11; D 146827 11; D 158322 11;
   D 170717 11; D 184082 11; D 198494 11; D 214034 11; D 230791 11; D 24886 12; D 268343 11; D 289351 11; D 312005 11; D 336432 11; D 362771 11;
   D 391172 11; D 421797 11; D 45482 12; D 490428 11; D 528823 11; D 570225 11; D 614868 11; D 663006 11; D 714913 11; D 770884 11; D 831236 11;
   D 896314 11; D 966486 11; D 104215 12; D 112374 12; D 121172 12; D 130659 12; D 140888 12; D 151918 12; D 163812 12; D 176637 12; D 190465 12;
   D 205377 12; D 221456 12; D 238794 12; D 257489 12; D 277648 12; D 299385 12; D 322824 12; D 348098 12; D 37535 13; D 404737 12; D 436424 12;
   D 470591 12; D 507434 12; D 547161 12; D 589998 12; D 636189 12; D 685996 12; D 739703 12; D 797615 12; D 86006 13; D 927394 12; D 1 18];
  [D 457314 9; D 494254 9; D 534177 9; D 577325 9; D 623958 9; D 674358 9; D 728829 9; D 7877 11; D 851327 9; D 920092 9; D 994413 9; D 107474 10;
   D 116155 10; D 125537 10; D 135677 10; D 146637 10; D 158481 10; D 171283 10; D 185118 10; D 200071 10; D 216231 10; D 233697 10; D 252574 10;
   D 272976 10; D 295026 10; D 318856 10; D 344612 10; D 372448 10; D 402532 10; D 435046 10; D 470187 10; D 508166 10; D 549214 10; D 593576 10;
   D 641522 10; D 693341 10; D 749345 10; D 809874 10; D 875291 10; D 945992 10; D 10224 12; D 110499 11; D 119424 11; D 129071 11; D 139497 11;
   D 150764 11; D 162942 11; D 176104 11; D 190329 11; D 205703 11; D 222318 11; D 240276 11; D 259684 11; D 28066 12; D 30333 12; D 327832 11;
   D 354312 11; D 382932 11; D 413863 11; D 447293 11; D 483423 11; D 522471 11; D 564673 11; D 610285 11; D 65958 12; D 712858 11; D 770439 11;
   D 832671 11; D 89993 12; D 972621 11; D 105118 12; D 113609 12; D 122786 12; D 132704 12; D 143423 12; D 155008 12; D 167529 12; D 181061 12;
   D 195686 12; D 211493 12; D 228576 12; D 247039 12; D 266994 12; D 28856 13; D 311869 12; D 33706 13; D 364286 12; D 393711 12; D 425513 12;
   D 459884 12; D 497031 12; D 537178 12; D 580569 12; D 627464 12; D 678147 12; D 732924 12; D 792126 12; D 85611 13; D 925262 12; D 1 18];
  [D 364123 9; D 394441 9; D 427285 9; D 462863 9; D 501403 9; D 543153 9; D 588379 9; D 63737 10; D 690441 9; D 747931 9; D 810208 9; D 87767 10;
   D 950749 9; D 102991 10; D 111567 10; D 120857 10; D 13092 11; D 141821 10; D 15363 11; D 166422 10; D 180279 10; D 19529 11; D 211551 10;
   D 229166 10; D 248247 10; D 268918 10; D 291309 10; D 315565 10; D 341841 10; D 370304 10; D 401138 10; D 434539 10; D 470721 10; D 509916 10;
   D 552374 10; D 598368 10; D 648191 10; D 702163 10; D 760629 10; D 823963 10; D 89257 11; D 966891 10; D 10474 12; D 113461 11; D 122909 11;
   D 133143 11; D 144229 11; D 156238 11; D 169247 11; D 18334 12; D 198605 11; D 215142 11; D 233056 11; D 252462 11; D 273483 11; D 296255 11;
   D 320923 11; D 347644 11; D 376591 11; D 407948 11; D 441916 11; D 478713 11; D 518573 11; D 561752 11; D 608526 11; D 659196 11; D 714084 11;
   D 773542 11; D 837952 11; D 907724 11; D 983306 11; D 106518 12; D 115387 12; D 124995 12; D 135403 12; D 146677 12; D 15889 13; D 172121 12;
   D 186452 12; D 201977 12; D 218795 12; D 237013 12; D 256748 12; D 278126 12; D 301285 12; D 326371 12; D 353547 12; D 382985 12; D 414874 12;
   D 449419 12; D 48684 13; D 527377 12; D 571289 12; D 618858 12; D 670387 12; D 726207 12; D 786675 12; D 852178 12; D 923135 12; D 1 18];
  [D 289917 9; D 314781 9; D 341777 9; D 371089 9; D 402914 9; D 437469 9; D 474987 9; D 515722 9; D 559952 9; D 607974 9; D 660115 9; D 716728 9;
   D 778196 9; D 844936 9; D 917399 9; D 996077 9; D 10815 11; D 117425 10; D 127496 10; D 13843 11; D 150302 10; D 163193 10; D 177188 10; D 192384 10;
   D 208884 10; D 226798 10; D 246248 10; D 267367 10; D 290297 10; D 315194 10; D 342225 10; D 371575 10; D 403442 10; D 438042 10; D 475609 10;
   D 516399 10; D 560686 10; D 608771 10; D 660981 10; D 717668 10; D 779216 10; D 846044 10; D 918602 10; D 997383 10; D 108292 11; D 117579 11;
   D 127663 11; D 138612 11; D 150499 11; D 163407 11; D 177421 11; D 192637 11; D 209157 11; D 227095 11; D 246571 11; D 267718 11; D 290678 11;
   D 315607 11; D 342674 11; D 372062 11; D 403971 11; D 438616 11; D 476233 11; D 517076 11; D 561421 11; D 60957 12; D 661847 11; D 718609 11;
   D 780238 11; D 847153 11; D 919806 11; D 998691 11; D 108434 12; D 117734 12; D 127831 12; D 138794 12; D 150697 12; D 163621 12; D 177653 12;
   D 192889 12; D 209432 12; D 227393 12; D 246895 12; D 268069 12; D 291059 12; D 316021 12; D 343123 12; D 37255 13; D 404501 12; D 439191 12;
   D 476857 12; D 517754 12; D 562157 12; D 610369 12; D 662715 12; D 719551 12; D 781261 12; D 848264 12; D 921012 12; D 1 18];
  [D 230831 9; D 251205 9; D 273378 9; D 297507 9; D 323767 9; D 352344 9; D 383443 9; D 417287 9; D 454119 9; D 494202 9; D 537822 9; D 585292 9;
   D 636953 9; D 693173 9; D 754356 9; D 820938 9; D 893398 9; D 972253 9; D 105807 10; D 115146 10; D 125309 10; D 136369 10; D 148406 10; D 161505 10;
   D 17576 11; D 191273 10; D 208156 10; D 226529 10; D 246523 10; D 268282 10; D 291962 10; D 317732 10; D 345776 10; D 376296 10; D 40951 11;
   D 445655 10; D 48499 11; D 527797 10; D 574383 10; D 625081 10; D 680253 10; D 740295 10; D 805637 10; D 876746 10; D 954131 10; D 103835 11;
   D 113 14; D 122973 11; D 133828 11; D 14564 12; D 158495 11; D 172484 11; D 187708 11; D 204276 11; D 222306 11; D 241928 11; D 263282 11;
   D 28652 12; D 31181 12; D 339331 11; D 369282 11; D 401877 11; D 437348 11; D 47595 12; D 51796 12; D 563677 11; D 61343 12; D 667574 11;
   D 726497 11; D 79062 12; D 860404 11; D 936347 11; D 101899 12; D 110893 12; D 120681 12; D 131333 12; D 142925 12; D 15554 13; D 169269 12;
   D 18421 13; D 200469 12; D 218163 12; D 237419 12; D 258374 12; D 28118 13; D 305998 12; D 333007 12; D 362399 12; D 394386 12; D 429196 12;
   D 467079 12; D 508306 12; D 553171 12; D 601996 12; D 655131 12; D 712955 12; D 775884 12; D 844367 12; D 918894 12; D 1 18];
  [D 183785 9; D 200468 9; D 218665 9; D 238514 9; D 260164 9; D 28378 10; D 30954 10; D 337637 9; D 368286 9; D 401716 9; D 438181 9; D 477956 9;
   D 521341 9; D 568664 9; D 620284 9; D 676588 9; D 738004 9; D 804995 9; D 878066 9; D 95777 10; D 104471 10; D 113954 10; D 124298 10; D 135581 10;
   D 147888 10; D 161312 10; D 175955 10; D 191927 10; D 209348 10; D 228351 10; D 24908 11; D 271689 10; D 296351 10; D 323252 10; D 352594 10;
   D 3846 12; D 419511 10; D 457591 10; D 499128 10; D 544435 10; D 593855 10; D 647761 10; D 70656 11; D 770696 10; D 840654 10; D 916962 10;
   D 10002 12; D 109099 11; D 119002 11; D 129804 11; D 141587 11; D 154439 11; D 168458 11; D 183749 11; D 200429 11; D 218622 11; D 238467 11;
   D 260113 11; D 283724 11; D 309479 11; D 337571 11; D 368213 11; D 401637 11; D 438094 11; D 477861 11; D 521238 11; D 568552 11; D 620161 11;
   D 676455 11; D 737858 11; D 804836 11; D 877893 11; D 957581 11; D 10445 13; D 113932 12; D 124273 12; D 135554 12; D 147859 12; D 16128 13;
   D 17592 13; D 191889 12; D 209307 12; D 228306 12; D 24903 13; D 271635 12; D 296293 12; D 323188 12; D 352524 12; D 384524 12; D 419428 12;
   D 457501 12; D 499029 12; D 544328 12; D 593738 12; D 647633 12; D 70642 13; D 770544 12; D 840488 12; D 916781 12; D 1 18];
  [D 146327 9; D 159977 9; D 174901 9; D 191217 9; D 209055 9; D 228557 9; D 249878 9; D 273189 9; D 298674 9; D 326536 9; D 356997 9; D 390301 9;
   D 426711 9; D 466517 9; D 510037 9; D 557617 9; D 609635 9; D 666506 9; D 728682 9; D 796658 9; D 870976 9; D 952226 9; D 104106 10; D 113817 10;
   D 124435 10; D 136043 10; D 148734 10; D 162609 10; D 177778 10; D 194363 10; D 212494 10; D 232317 10; D 253989 10; D 277683 10; D 303587 10;
   D 331908 10; D 362871 10; D 396722 10; D 43373 11; D 474192 10; D 518428 10; D 56679 11; D 619664 10; D 677471 10; D 74067 11; D 809764 10;
   D 885305 10; D 967892 10; D 105818 11; D 11569 12; D 126482 11; D 138281 11; D 151181 11; D 165284 11; D 180703 11; D 19756 12; D 21599 12;
   D 236139 11; D 258168 11; D 282251 11; D 308582 11; D 337368 11; D 36884 12; D 403248 11; D 440866 11; D 481993 11; D 526956 11; D 576115 11;
   D 629858 11; D 688616 11; D 752855 11; D 823086 11; D 899869 11; D 983815 11; D 107559 12; D 117593 12; D 128563 12; D 140556 12; D 153668 12;
   D 168003 12; D 183676 12; D 20081 13; D 219543 12; D 240024 12; D 262415 12; D 286895 12; D 313658 12; D 342918 12; D 374908 12; D 409882 12;
   D 448119 12; D 489922 12; D 535626 12; D 585592 12; D 64022 13; D 699944 12; D 76524 13; D 836627 12; D 914673 12; D 1 18];
  [D 116502 9; D 127664 9; D 139895 9; D 153298 9; D 167985 9; D 184079 9; D 201715 9; D 221041 9; D 242218 9; D 265424 9; D 290854 9; D 318719 9;
   D 349255 9; D 382716 9; D 419383 9; D 459562 9; D 503592 9; D 551839 9; D 604709 9; D 662644 9; D 72613 10; D 795698 9; D 871932 9; D 955469 9;
   D 104701 10; D 114732 10; D 125724 10; D 137769 10; D 150969 10; D 165432 10; D 181282 10; D 19865 11; D 217682 10; D 238537 10; D 261391 10;
   D 286434 10; D 313876 10; D 343948 10; D 3769 12; D 41301 11; D 452579 10; D 495939 10; D 543453 10; D 59552 11; D 652575 10; D 715096 10;
   D 783607 10; D 858682 10; D 940949 10; D 10311 12; D 112989 11; D 123814 11; D 135676 11; D 148674 11; D 162918 11; D 178527 11; D 195631 11;
   D 214374 11; D 234913 11; D 257419 11; D 282081 11; D 309107 11; D 338721 11; D 371173 11; D 406734 11; D 445702 11; D 488403 11; D 535195 11;
   D 586471 11; D 642658 11; D 704229 11; D 771699 11; D 845633 11; D 926651 11; D 101543 12; D 111272 12; D 121932 12; D 133614 12; D 146415 12;
   D 160443 12; D 175814 12; D 192658 12; D 211116 12; D 231343 12; D 253507 12; D 277795 12; D 304409 12; D 333574 12; D 365533 12; D 400553 12;
   D 438929 12; D 480981 12; D 527062 12; D 577559 12; D 632893 12; D 693528 12; D 759973 12; D 832783 12; D 91257 13; D 1 18];
  [D 927562 8; D 101877 9; D 111895 9; D 122898 9; D 134983 9; D 148256 9; D 162834 9; D 178846 9; D 196433 9; D 215749 9; D 236964 9; D 260265 9;
   D 285858 9; D 313967 9; D 34484 10; D 378749 9; D 415992 9; D 456898 9; D 501826 9; D 551172 9; D 60537 10; D 664898 9; D 730279 9; D 802089 9;
   D 880961 9; D 967588 9; D 106273 10; D 116724 10; D 128201 10; D 140808 10; D 154654 10; D 169861 10; D 186564 10; D 204909 10; D 225059 10;
   D 247189 10; D 271496 10; D 298193 10; D 327515 10; D 359721 10; D 395093 10; D 433944 10; D 476614 10; D 523481 10; D 574956 10; D 631493 10;
   D 69359 11; D 761792 10; D 836702 10; D 918977 10; D 100934 11; D 110859 11; D 12176 12; D 133733 11; D 146884 11; D 161327 11; D 177191 11;
   D 194615 11; D 213752 11; D 234771 11; D 257856 11; D 283212 11; D 311061 11; D 341648 11; D 375243 11; D 412142 11; D 452669 11; D 497181 11;
   D 546071 11; D 599767 11; D 658744 11; D 72352 12; D 794666 11; D 872807 11; D 958633 11; D 10529 13; D 115643 12; D 127015 12; D 139504 12;
   D 153222 12; D 168289 12; D 184837 12; D 203013 12; D 222976 12; D 244901 12; D 268983 12; D 295433 12; D 324484 12; D 356391 12; D 391436 12;
   D 429927 12; D 472203 12; D 518636 12; D 569635 12; D 625649 12; D 68717 13; D 754742 12; D 828957 12; D 910471 12; D 1 18];
  [D 738498 8; D 812986 8; D 894988 8; D 98526 9; D 108464 9; D 119404 9; D 131448 9; D 144706 9; D 159302 9; D 175369 9; D 193058 9; D 212531 9;
   D 233968 9; D 257567 9; D 283546 9; D 312146 9; D 34363 10; D 37829 10; D 416446 9; D 458451 9; D 504692 9; D 555597 9; D 611637 9; D 67333 10;
   D 741245 9; D 81601 10; D 898317 9; D 988925 9; D 108867 10; D 119848 10; D 131936 10; D 145244 10; D 159894 10; D 176022 10; D 193776 10;
   D 213321 10; D 234838 10; D 258524 10; D 2846 12; D 313306 10; D 344908 10; D 379697 10; D 417995 10; D 460156 10; D 506569 10; D 557664 10;
   D 613912 10; D 675834 10; D 744002 10; D 819045 10; D 901658 10; D 992603 10; D 109272 11; D 120294 11; D 132427 11; D 145784 11; D 160489 11;
   D 176676 11; D 194497 11; D 214115 11; D 235711 11; D 259486 11; D 285659 11; D 314472 11; D 346191 11; D 381109 11; D 419549 11; D 461867 11;
   D 508453 11; D 559738 11; D 616195 11; D 678348 11; D 746769 11; D 822091 11; D 905011 11; D 996295 11; D 109679 12; D 120741 12; D 13292 13;
   D 146327 12; D 161086 12; D 177334 12; D 19522 13; D 214911 12; D 236588 12; D 260451 12; D 286721 12; D 315641 12; D 347478 12; D 382527 12;
   D 42111 13; D 463585 12; D 510344 12; D 56182 13; D 618487 12; D 680871 12; D 749546 12; D 825149 12; D 908377 12; D 1 18];
  [D 587969 8; D 648767 8; D 71585 9; D 789871 8; D 871545 8; D 961665 8; D 10611 10; D 117082 9; D 129189 9; D 142547 9; D 157287 9; D 173551 9;
   D 191496 9; D 211297 9; D 233146 9; D 257254 9; D 283854 9; D 313205 9; D 345591 9; D 381326 9; D 420756 9; D 464263 9; D 512269 9; D 565239 9;
   D 623686 9; D 688176 9; D 759335 9; D 837851 9; D 924487 9; D 102008 10; D 112556 10; D 124194 10; D 137036 10; D 151206 10; D 166841 10;
   D 184093 10; D 203129 10; D 224133 10; D 247308 10; D 272881 10; D 301097 10; D 332231 10; D 366584 10; D 40449 11; D 446315 10; D 492465 10;
   D 543387 10; D 599574 10; D 661571 10; D 729979 10; D 80546 11; D 888747 10; D 980645 10; D 108205 11; D 119393 11; D 131739 11; D 145361 11;
   D 160391 11; D 176976 11; D 195276 11; D 215468 11; D 237747 11; D 262331 11; D 289457 11; D 319387 11; D 352412 11; D 388852 11; D 429061 11;
   D 473426 11; D 52238 12; D 576395 11; D 635995 11; D 701758 11; D 774322 11; D 854388 11; D 942734 11; D 104021 12; D 114777 12; D 126646 12;
   D 139741 12; D 154191 12; D 170134 12; D 187726 12; D 207138 12; D 228556 12; D 252189 12; D 278266 12; D 30704 13; D 338788 12; D 37382 13;
   D 412473 12; D 455124 12; D 502185 12; D 554112 12; D 611408 12; D 674629 12; D 744387 12; D 821358 12; D 906288 12; D 1 18];
  [D 468122 8; D 517717 8; D 572567 8; D 633228 8; D 700316 8; D 774511 8; D 856567 8; D 947316 8; D 104768 9; D 115868 9; D 128143 9; D 14172 10;
   D 156734 9; D 17334 10; D 191704 9; D 212014 9; D 234476 9; D 259318 9; D 286792 9; D 317176 9; D 350779 9; D 387943 9; D 429043 9; D 474499 9;
   D 52477 10; D 580367 9; D 641854 9; D 709856 9; D 785062 9; D 868236 9; D 960221 9; D 106195 10; D 117446 10; D 129889 10; D 14365 11; D 158869 10;
   D 175701 10; D 194316 10; D 214902 10; D 23767 11; D 26285 11; D 290698 10; D 321497 10; D 355558 10; D 393227 10; D 434888 10; D 480963 10;
   D 531918 10; D 588273 10; D 650598 10; D 719526 10; D 795756 10; D 880063 10; D 973302 10; D 107642 11; D 119046 11; D 131658 11; D 145607 11;
   D 161034 11; D 178094 11; D 196963 11; D 21783 12; D 240908 11; D 266431 11; D 294658 11; D 325876 11; D 360401 11; D 398584 11; D 440812 11;
   D 487514 11; D 539164 11; D 596287 11; D 65946 12; D 729327 11; D 806596 11; D 892052 11; D 986561 11; D 109108 12; D 120668 12; D 133452 12;
   D 147591 12; D 163227 12; D 18052 13; D 199646 12; D 220797 12; D 24419 13; D 270061 12; D 298672 12; D 330315 12; D 365311 12; D 404014 12;
   D 446817 12; D 494156 12; D 546509 12; D 604409 12; D 668444 12; D 739263 12; D 817584 12; D 904204 12; D 1 18];
  [D 372702 8; D 413139 8; D 457962 8; D 507649 8; D 562726 8; D 623779 8; D 691456 8; D 766475 8; D 849634 8; D 941815 8; D 1044 11; D 115727 9;
   D 128282 9; D 1422 11; D 157628 9; D 17473 10; D 193687 9; D 214702 9; D 237996 9; D 263817 9; D 29244 10; D 324168 9; D 359339 9; D 398325 9;
   D 441541 9; D 489446 9; D 542549 9; D 601412 9; D 666663 9; D 738992 9; D 819169 9; D 908045 9; D 100656 10; D 111577 10; D 123683 10; D 137101 10;
   D 151976 10; D 168465 10; D 186743 10; D 207003 10; D 229462 10; D 254357 10; D 281954 10; D 312545 10; D 346454 10; D 384043 10; D 425709 10;
   D 471897 10; D 523095 10; D 579848 10; D 642759 10; D 712495 10; D 789797 10; D 875486 10; D 970471 10; D 107576 11; D 119248 11; D 132186 11;
   D 146527 11; D 162424 11; D 180047 11; D 199581 11; D 221234 11; D 245237 11; D 271844 11; D 301338 11; D 334031 11; D 370272 11; D 410445 11;
   D 454976 11; D 504339 11; D 559057 11; D 619712 11; D 686947 11; D 761478 11; D 844094 11; D 935674 11; D 103719 12; D 114972 12; D 127446 12;
   D 141273 12; D 1566 14; D 173591 12; D 192425 12; D 213302 12; D 236444 12; D 262097 12; D 290533 12; D 322054 12; D 356996 12; D 395728 12;
   D 438662 12; D 486255 12; D 539011 12; D 597491 12; D 662316 12; D 734174 12; D 813828 12; D 902124 12; D 1 18];
  [D 296732 8; D 329684 8; D 366296 8; D 406973 8; D 452168 8; D 502381 8; D 55817 9; D 620155 8; D 689024 8; D 76554 9; D 850553 8; D 945008 8;
   D 104995 9; D 116655 9; D 129609 9; D 144003 9; D 159994 9; D 177761 9; D 197502 9; D 219434 9; D 243803 9; D 270877 9; D 300958 9; D 334379 9;
   D 371512 9; D 412769 9; D 458607 9; D 509535 9; D 566119 9; D 628987 9; D 698836 9; D 776442 9; D 862666 9; D 958465 9; D 10649 11; D 118316 10;
   D 131455 10; D 146053 10; D 162273 10; D 180293 10; D 200314 10; D 222559 10; D 247275 10; D 274735 10; D 305244 10; D 339141 10; D 376803 10;
   D 418647 10; D 465138 10; D 516792 10; D 574182 10; D 637944 10; D 708788 10; D 787499 10; D 874951 10; D 972115 10; D 108007 11; D 120001 11;
   D 133327 11; D 148133 11; D 164583 11; D 18286 12; D 203167 11; D 225729 11; D 250796 11; D 278647 11; D 309591 11; D 343971 11; D 382169 11;
   D 424609 11; D 471762 11; D 524151 11; D 582358 11; D 647029 11; D 718882 11; D 798714 11; D 887412 11; D 985959 11; D 109545 12; D 12171 13;
   D 135226 12; D 150243 12; D 166927 12; D 185465 12; D 20606 13; D 228944 12; D 254368 12; D 282615 12; D 314 15; D 34887 13; D 387612 12;
   D 430656 12; D 47848 13; D 531616 12; D 590652 12; D 656244 12; D 72912 13; D 810089 12; D 900049 12; D 1 18];
  [D 236247 8; D 263088 8; D 292977 8; D 326263 8; D 36333 9; D 404609 8; D 450577 8; D 501767 8; D 558774 8; D 622257 8; D 692953 8; D 77168 9;
   D 859351 8; D 956984 8; D 106571 9; D 118678 9; D 132162 9; D 147177 9; D 163898 9; D 182518 9; D 203255 9; D 226347 9; D 252062 9; D 280699 9;
   D 31259 10; D 348104 9; D 387652 9; D 431694 9; D 480739 9; D 535357 9; D 596179 9; D 663912 9; D 73934 10; D 823337 9; D 916878 9; D 102105 10;
   D 113705 10; D 126623 10; D 141009 10; D 157029 10; D 174869 10; D 194736 10; D 216861 10; D 241499 10; D 268936 10; D 29949 11; D 333515 10;
   D 371406 10; D 413602 10; D 460592 10; D 512921 10; D 571194 10; D 636089 10; D 708355 10; D 788833 10; D 878453 10; D 978255 10; D 10894 12;
   D 121316 11; D 135099 11; D 150448 11; D 167541 11; D 186575 11; D 207772 11; D 231378 11; D 257665 11; D 286939 11; D 319538 11; D 355841 11;
   D 396269 11; D 44129 12; D 491425 11; D 547257 11; D 609431 11; D 678669 11; D 755774 11; D 841639 11; D 937258 11; D 104374 12; D 116232 12;
   D 129438 12; D 144143 12; D 160519 12; D 178756 12; D 199065 12; D 221681 12; D 246867 12; D 274913 12; D 306147 12; D 340929 12; D 379662 12;
   D 422796 12; D 47083 13; D 524322 12; D 583891 12; D 650227 12; D 724101 12; D 806367 12; D 897979 12; D 1 18];
  [D 188091 8; D 209943 8; D 234334 8; D 261559 8; D 291946 8; D 325864 8; D 363723 8; D 405979 8; D 453145 8; D 505791 8; D 564553 8; D 630142 8;
   D 703351 8; D 785066 8; D 876273 8; D 978077 8; D 109171 9; D 121854 9; D 136011 9; D 151813 9; D 16945 10; D 189136 9; D 21111 10; D 235636 9;
   D 263012 9; D 293569 9; D 327675 9; D 365744 9; D 408235 9; D 455664 9; D 508602 9; D 567691 9; D 633644 9; D 70726 10; D 789428 9; D 881143 9;
   D 983513 9; D 109778 10; D 122531 10; D 136767 10; D 152656 10; D 170392 10; D 190187 10; D 212283 10; D 236946 10; D 264474 10; D 2952 12;
   D 329496 10; D 367776 10; D 410504 10; D 458196 10; D 511428 10; D 570845 10; D 637165 10; D 71119 11; D 793815 10; D 886039 10; D 988978 10;
   D 110388 11; D 123212 11; D 137527 11; D 153505 11; D 171338 11; D 191244 11; D 213463 11; D 238263 11; D 265944 11; D 29684 12; D 331327 11;
   D 36982 12; D 412785 11; D 460742 11; D 51427 12; D 574017 11; D 640706 11; D 715142 11; D 798226 11; D 890963 11; D 994474 11; D 111001 12;
   D 123897 12; D 138291 12; D 154358 12; D 172291 12; D 192307 12; D 214649 12; D 239587 12; D 267421 12; D 29849 13; D 333168 12; D 371875 12;
   D 415079 12; D 463302 12; D 517128 12; D 577207 12; D 644266 12; D 719116 12; D 802662 12; D 895914 12; D 1 18];
  [D 149751 8; D 167534 8; D 187429 8; D 209687 8; D 234587 8; D 262445 8; D 293611 8; D 328477 8; D 367484 8; D 411124 8; D 459945 8; D 514564 8;
   D 57567 9; D 644031 8; D 720511 8; D 806073 8; D 901795 8; D 100888 9; D 112869 9; D 126273 9; D 141268 9; D 158043 9; D 176811 9; D 197808 9;
   D 221298 9; D 247577 9; D 276977 9; D 309869 9; D 346666 9; D 387833 9; D 433889 9; D 485414 9; D 543058 9; D 607547 9; D 679694 9; D 760409 9;
   D 850708 9; D 951731 9; D 106475 10; D 119119 10; D 133265 10; D 14909 11; D 166795 10; D 186602 10; D 208761 10; D 233552 10; D 261287 10;
   D 292315 10; D 327028 10; D 365863 10; D 409309 10; D 457915 10; D 512294 10; D 573129 10; D 641189 10; D 717331 10; D 802516 10; D 897816 10;
   D 100443 11; D 112371 11; D 125715 11; D 140644 11; D 157346 11; D 176031 11; D 196935 11; D 220321 11; D 246485 11; D 275755 11; D 308501 11;
   D 345136 11; D 386122 11; D 431975 11; D 483272 11; D 540661 11; D 604866 11; D 676695 11; D 757053 11; D 846954 11; D 947531 11; D 106005 12;
   D 118593 12; D 132677 12; D 148432 12; D 166059 12; D 185778 12; D 20784 13; D 232521 12; D 260134 12; D 291025 12; D 325584 12; D 364248 12;
   D 407503 12; D 455895 12; D 510033 12; D 5706 14; D 63836 13; D 714166 12; D 798974 12; D 893854 12; D 1 18];
  [D 119226 8; D 133692 8; D 149913 8; D 168102 8; D 188497 8; D 211368 8; D 237013 8; D 26577 9; D 298016 8; D 334175 8; D 37472 9; D 420185 8;
   D 471166 8; D 528333 8; D 592436 8; D 664317 8; D 744919 8; D 8353 10; D 936647 8; D 105029 9; D 117772 9; D 132062 9; D 148085 9; D 166052 9;
   D 186199 9; D 208791 9; D 234124 9; D 26253 10; D 294383 9; D 3301 11; D 370152 9; D 415062 9; D 465422 9; D 521892 9; D 585213 9; D 656217 9;
   D 735837 9; D 825116 9; D 925228 9; D 103749 10; D 116336 10; D 130452 10; D 146279 10; D 164028 10; D 183929 10; D 206245 10; D 231269 10;
   D 259329 10; D 290794 10; D 326076 10; D 365639 10; D 410002 10; D 459748 10; D 515529 10; D 578078 10; D 648217 10; D 726865 10; D 815056 10;
   D 913947 10; D 102484 11; D 114918 11; D 128861 11; D 144496 11; D 162028 11; D 181687 11; D 203731 11; D 22845 12; D 256167 11; D 287248 11;
   D 3221 13; D 361181 11; D 405003 11; D 454142 11; D 509244 11; D 57103 12; D 640314 11; D 718003 11; D 805119 11; D 902805 11; D 101234 12;
   D 113517 12; D 12729 13; D 142734 12; D 160052 12; D 179472 12; D 201247 12; D 225664 12; D 253044 12; D 283746 12; D 318173 12; D 356777 12;
   D 400065 12; D 448606 12; D 503035 12; D 564069 12; D 632507 12; D 70925 13; D 795303 12; D 891798 12; D 1 18];
  [D 94923 8; D 106685 8; D 119905 8; D 134764 8; D 151463 8; D 170231 8; D 191326 8; D 215034 8; D 24168 9; D 271628 8; D 305287 8; D 343116 8;
   D 385634 8; D 43342 9; D 487127 8; D 54749 9; D 615332 8; D 691581 8; D 777279 8; D 873596 8; D 981847 8; D 110351 9; D 124026 9; D 139394 9;
   D 156667 9; D 176081 9; D 1979 11; D 222423 9; D 249984 9; D 280961 9; D 315777 9; D 354906 9; D 398885 9; D 448313 9; D 503866 9; D 566302 9;
   D 636476 9; D 715345 9; D 803987 9; D 903614 9; D 101559 10; D 114143 10; D 128287 10; D 144184 10; D 162051 10; D 182131 10; D 2047 12; D 230066 10;
   D 258574 10; D 290616 10; D 326627 10; D 367102 10; D 412591 10; D 463718 10; D 521179 10; D 585761 10; D 658346 10; D 739925 10; D 831614 10;
   D 934663 10; D 105048 11; D 118065 11; D 132695 11; D 149138 11; D 167619 11; D 18839 12; D 211734 11; D 237971 11; D 267459 11; D 300602 11;
   D 337851 11; D 379716 11; D 426768 11; D 479652 11; D 539088 11; D 605889 11; D 680968 11; D 76535 12; D 860189 11; D 96678 12; D 108658 12;
   D 122122 12; D 137255 12; D 154263 12; D 173379 12; D 194863 12; D 219009 12; D 246148 12; D 27665 13; D 310931 12; D 34946 13; D 392763 12;
   D 441433 12; D 496133 12; D 557612 12; D 626708 12; D 704367 12; D 791649 12; D 889747 12; D 1 18];
  [D 75574 8; D 851346 7; D 959046 7; D 108037 8; D 121705 8; D 137101 8; D 154445 8; D 173983 8; D 195993 8; D 220788 8; D 248719 8; D 280183 8;
   D 315628 8; D 355557 8; D 400537 8; D 451208 8; D 508288 8; D 57259 9; D 645026 8; D 726626 8; D 818549 8; D 9221 10; D 103875 9; D 117016 9;
   D 131819 9; D 148495 9; D 167281 9; D 188443 9; D 212282 9; D 239137 9; D 26939 10; D 303469 9; D 34186 10; D 385107 9; D 433826 9; D 488707 9;
   D 550532 9; D 620177 9; D 698634 9; D 787015 9; D 886578 9; D 998735 9; D 112508 10; D 126741 10; D 142775 10; D 160837 10; D 181183 10; D 204104 10;
   D 229925 10; D 259012 10; D 291778 10; D 32869 11; D 370271 10; D 417113 10; D 46988 11; D 529323 10; D 596286 10; D 67172 11; D 756697 10;
   D 852424 10; D 960261 10; D 108174 11; D 121859 11; D 137275 11; D 154641 11; D 174204 11; D 196241 11; D 221067 11; D 249034 11; D 280538 11;
   D 316028 11; D 356007 11; D 401044 11; D 451779 11; D 508932 11; D 573315 11; D 645843 11; D 727546 11; D 819585 11; D 923268 11; D 104007 12;
   D 117164 12; D 131986 12; D 148683 12; D 167493 12; D 188682 12; D 212551 12; D 23944 13; D 269731 12; D 303853 12; D 342293 12; D 385595 12;
   D 434375 12; D 489326 12; D 551229 12; D 620963 12; D 699518 12; D 788012 12; D 8877 14; D 1 18];
  [D 60169 8; D 67937 8; D 767079 7; D 866111 7; D 977929 7; D 110418 8; D 124674 8; D 140769 8; D 158943 8; D 179463 8; D 202632 8; D 228793 8;
   D 258331 8; D 291682 8; D 329339 8; D 371858 8; D 419866 8; D 474072 8; D 535276 8; D 604382 8; D 682409 8; D 770511 8; D 869986 8; D 982304 8;
   D 110912 9; D 125231 9; D 141399 9; D 159654 9; D 180266 9; D 203539 9; D 229816 9; D 259486 9; D 292987 9; D 330812 9; D 373521 9; D 421744 9;
   D 476193 9; D 537671 9; D 607086 9; D 685462 9; D 773958 9; D 873878 9; D 986698 9; D 111408 10; D 125792 10; D 142032 10; D 160368 10; D 181072 10;
   D 204449 10; D 230845 10; D 260647 10; D 294298 10; D 332292 10; D 375192 10; D 423631 10; D 478323 10; D 540076 10; D 609801 10; D 688529 10;
   D 77742 11; D 877787 10; D 991112 10; D 111907 11; D 126354 11; D 142667 11; D 161086 11; D 181883 11; D 205364 11; D 231877 11; D 261813 11;
   D 295614 11; D 333779 11; D 376871 11; D 425526 11; D 480463 11; D 542492 11; D 61253 12; D 691609 11; D 780898 11; D 881714 11; D 995546 11;
   D 112407 12; D 12692 13; D 143305 12; D 161806 12; D 182696 12; D 206283 12; D 232915 12; D 262985 12; D 296937 12; D 335272 12; D 378557 12;
   D 42743 13; D 482612 12; D 544919 12; D 61527 13; D 694703 12; D 784391 12; D 885659 12; D 1 18];
  [D 479042 7; D 542134 7; D 613537 7; D 694343 7; D 785792 7; D 889286 7; D 100641 8; D 113896 8; D 128897 8; D 145873 8; D 165086 8; D 186828 8;
   D 211435 8; D 239282 8; D 270797 8; D 306462 8; D 346825 8; D 392504 8; D 4442 10; D 502703 8; D 568912 8; D 643841 8; D 728639 8; D 824605 8;
   D 933211 8; D 105612 9; D 119522 9; D 135263 9; D 153078 9; D 17324 10; D 196057 9; D 221878 9; D 251101 9; D 284173 9; D 3216 11; D 363956 9;
   D 411892 9; D 46614 10; D 527534 9; D 597013 9; D 675643 9; D 764629 9; D 865336 9; D 979305 9; D 110829 10; D 125425 10; D 141945 10; D 16064 11;
   D 181797 10; D 205741 10; D 232838 10; D 263504 10; D 298209 10; D 337485 10; D 381934 10; D 432236 10; D 489165 10; D 553591 10; D 626502 10;
   D 709016 10; D 802397 10; D 908078 10; D 102768 11; D 116303 11; D 131621 11; D 148956 11; D 168574 11; D 190776 11; D 215903 11; D 244338 11;
   D 276519 11; D 312939 11; D 354154 11; D 400799 11; D 453586 11; D 513326 11; D 580934 11; D 657447 11; D 744037 11; D 842031 11; D 952931 11;
   D 107844 12; D 122047 12; D 138122 12; D 156313 12; D 176901 12; D 2002 14; D 226567 12; D 256407 12; D 290178 12; D 328396 12; D 371647 12;
   D 420596 12; D 475991 12; D 538681 12; D 609629 12; D 689921 12; D 780787 12; D 883622 12; D 1 18];
  [D 381394 7; D 432621 7; D 490728 7; D 55664 8; D 631405 7; D 716212 7; D 81241 8; D 921528 7; D 10453 9; D 11857 9; D 134496 8; D 152561 8;
   D 173052 8; D 196296 8; D 222661 8; D 252568 8; D 286491 8; D 324971 8; D 36862 9; D 418131 8; D 474292 8; D 537996 8; D 610257 8; D 692224 8;
   D 785199 8; D 890663 8; D 101029 9; D 114599 9; D 129991 9; D 147451 9; D 167256 9; D 189721 9; D 215203 9; D 244108 9; D 276896 9; D 314087 9;
   D 356273 9; D 404126 9; D 458406 9; D 519977 9; D 589817 9; D 669039 9; D 7589 11; D 860832 9; D 976454 9; D 110761 10; D 125637 10; D 142512 10;
   D 161654 10; D 183366 10; D 207995 10; D 235932 10; D 267621 10; D 303567 10; D 34434 11; D 39059 11; D 443052 10; D 502561 10; D 570062 10;
   D 64663 11; D 733482 10; D 832 13; D 94375 11; D 107051 11; D 121429 11; D 137739 11; D 15624 12; D 177225 11; D 201029 11; D 22803 12; D 258658 11;
   D 293399 11; D 332807 11; D 377508 11; D 428213 11; D 485729 11; D 550969 11; D 624972 11; D 708915 11; D 804133 11; D 91214 12; D 103465 12;
   D 117362 12; D 133126 12; D 151007 12; D 171289 12; D 194296 12; D 220392 12; D 249994 12; D 283572 12; D 32166 13; D 364864 12; D 413871 12;
   D 46946 13; D 532515 12; D 60404 13; D 685171 12; D 7772 14; D 881589 12; D 1 18];
  [D 30365 8; D 345229 7; D 392501 7; D 446246 7; D 507351 7; D 576822 7; D 655806 7; D 745605 7; D 847701 7; D 963776 7; D 109575 8; D 124579 8;
   D 141637 8; D 161031 8; D 183081 8; D 208151 8; D 236653 8; D 269057 8; D 305899 8; D 347786 8; D 395408 8; D 449551 8; D 511108 8; D 581094 8;
   D 660663 8; D 751128 8; D 853979 8; D 970914 8; D 110386 9; D 125501 9; D 142686 9; D 162224 9; D 184437 9; D 209692 9; D 238405 9; D 27105 10;
   D 308165 9; D 350362 9; D 398337 9; D 452881 9; D 514894 9; D 585398 9; D 665556 9; D 756691 9; D 860304 9; D 978106 9; D 111204 10; D 126431 10;
   D 143743 10; D 163426 10; D 185803 10; D 211245 10; D 240171 10; D 273058 10; D 310447 10; D 352957 10; D 401287 10; D 456235 10; D 518707 10;
   D 589734 10; D 670486 10; D 762295 10; D 866676 10; D 98535 11; D 112027 11; D 127367 11; D 144808 11; D 164636 11; D 18718 12; D 21281 12;
   D 24195 12; D 27508 12; D 312747 11; D 355571 11; D 404259 11; D 459614 11; D 522549 11; D 594102 11; D 675452 11; D 767941 11; D 873095 11;
   D 992648 11; D 112857 12; D 128311 12; D 14588 13; D 165855 12; D 188566 12; D 214386 12; D 243742 12; D 277118 12; D 315063 12; D 358205 12;
   D 407253 12; D 463019 12; D 52642 13; D 598502 12; D 680455 12; D 773629 12; D 879562 12; D 1 18];
  [D 241754 7; D 275491 7; D 313936 7; D 357746 7; D 40767 8; D 46456 8; D 52939 8; D 603266 7; D 687453 7; D 783387 7; D 892709 7; D 101729 8;
   D 115925 8; D 132102 8; D 150537 8; D 171545 8; D 195484 8; D 222764 8; D 253851 8; D 289276 8; D 329645 8; D 375647 8; D 428068 8; D 487806 8;
   D 555879 8; D 633452 8; D 721851 8; D 822586 8; D 937378 8; D 106819 9; D 121726 9; D 138712 9; D 15807 10; D 180129 9; D 205266 9; D 233911 9;
   D 266553 9; D 303751 9; D 346139 9; D 394443 9; D 449488 9; D 512214 9; D 583694 9; D 665149 9; D 75797 10; D 863746 9; D 984282 9; D 112164 10;
   D 127816 10; D 145653 10; D 165979 10; D 189142 10; D 215537 10; D 245615 10; D 279891 10; D 318949 10; D 363459 10; D 41418 11; D 471979 10;
   D 537844 10; D 6129 12; D 698431 10; D 795897 10; D 906965 10; D 103353 11; D 117776 11; D 134212 11; D 152941 11; D 174284 11; D 198606 11;
   D 226321 11; D 257905 11; D 293895 11; D 334909 11; D 381645 11; D 434904 11; D 495595 11; D 564756 11; D 643568 11; D 733378 11; D 835722 11;
   D 952347 11; D 108525 12; D 123669 12; D 140928 12; D 160594 12; D 183005 12; D 208544 12; D 237646 12; D 27081 13; D 308601 12; D 351667 12;
   D 400742 12; D 456666 12; D 520394 12; D 593015 12; D 67577 13; D 770075 12; D 877539 12; D 1 18];
  [D 192475 7; D 219841 7; D 251097 7; D 286797 7; D 327573 7; D 374147 7; D 427342 7; D 488101 7; D 557498 7; D 636761 7; D 727294 7; D 830699 7;
   D 948806 7; D 10837 9; D 123778 8; D 141377 8; D 161477 8; D 184436 8; D 210658 8; D 240609 8; D 274819 8; D 313892 8; D 35852 9; D 409493 8;
   D 467714 8; D 534212 8; D 610165 8; D 696917 8; D 796003 8; D 909177 8; D 103844 9; D 118608 9; D 135472 9; D 154733 9; D 176732 9; D 20186 10;
   D 23056 10; D 26334 10; D 300781 9; D 343546 9; D 39239 10; D 448179 9; D 5119 11; D 584681 9; D 667809 9; D 762757 9; D 871203 9; D 995069 9;
   D 113655 10; D 129814 10; D 14827 11; D 169351 10; D 193429 10; D 22093 11; D 252341 10; D 288219 10; D 329197 10; D 376001 10; D 42946 11;
   D 490519 10; D 56026 11; D 639917 10; D 730898 10; D 834816 10; D 953508 10; D 108908 11; D 124392 11; D 142077 11; D 162278 11; D 18535 12;
   D 211702 11; D 241802 11; D 27618 12; D 315447 11; D 360297 11; D 411523 11; D 470032 11; D 53686 12; D 613189 11; D 700371 11; D 799948 11;
   D 913683 11; D 104359 12; D 119196 12; D 136143 12; D 1555 14; D 177608 12; D 20286 13; D 231702 12; D 264645 12; D 302272 12; D 345248 12;
   D 394335 12; D 4504 14; D 514437 12; D 587578 12; D 671119 12; D 766536 12; D 875521 12; D 1 18];
  [D 153241 7; D 175432 7; D 200836 7; D 229919 7; D 263214 7; D 30133 8; D 344966 7; D 39492 8; D 452109 7; D 517579 7; D 59253 8; D 678334 7;
   D 776564 7; D 889019 7; D 101776 8; D 116514 8; D 133386 8; D 152702 8; D 174815 8; D 20013 9; D 229111 8; D 262289 8; D 300271 8; D 343753 8;
   D 393532 8; D 45052 9; D 51576 9; D 590448 8; D 675951 8; D 773835 8; D 885895 8; D 101418 9; D 116105 9; D 132918 9; D 152166 9; D 174201 9;
   D 199427 9; D 228306 9; D 261367 9; D 299216 9; D 342545 9; D 392149 9; D 448937 9; D 513948 9; D 588373 9; D 673575 9; D 771116 9; D 882781 9;
   D 101062 10; D 115697 10; D 132451 10; D 151631 10; D 173589 10; D 198726 10; D 227504 10; D 260449 10; D 298164 10; D 341342 10; D 390771 10;
   D 447359 10; D 512141 10; D 586305 10; D 671208 10; D 768406 10; D 879679 10; D 100707 11; D 11529 12; D 131985 11; D 151098 11; D 172979 11;
   D 198028 11; D 226704 11; D 259533 11; D 297116 11; D 340142 11; D 389398 11; D 445787 11; D 510342 11; D 584244 11; D 668849 11; D 765705 11;
   D 876588 11; D 100353 12; D 114885 12; D 131521 12; D 150567 12; D 172371 12; D 197332 12; D 225907 12; D 258621 12; D 296072 12; D 338947 12;
   D 38803 13; D 44422 13; D 508548 12; D 582191 12; D 666499 12; D 763015 12; D 873507 12; D 1 18];
  [D 122004 7; D 139994 7; D 160636 7; D 184321 7; D 211499 7; D 242685 7; D 278468 7; D 319528 7; D 366643 7; D 420704 7; D 482737 7; D 553916 7;
   D 635591 7; D 729308 7; D 836844 7; D 960237 7; D 110182 8; D 126429 8; D 14507 9; D 166461 8; D 191006 8; D 219169 8; D 251486 8; D 288567 8;
   D 331116 8; D 379939 8; D 435961 8; D 500243 8; D 574004 8; D 658641 8; D 755757 8; D 867193 8; D 99506 9; D 114178 9; D 131014 9; D 150332 9;
   D 172498 9; D 197933 9; D 227118 9; D 260606 9; D 299032 9; D 343124 9; D 393718 9; D 451772 9; D 518385 9; D 594821 9; D 682527 9; D 783165 9;
   D 898642 9; D 103115 10; D 118319 10; D 135765 10; D 155783 10; D 178754 10; D 205111 10; D 235354 10; D 270057 10; D 309877 10; D 355568 10;
   D 407996 10; D 468155 10; D 537185 10; D 616392 10; D 707279 10; D 811567 10; D 931232 10; D 106854 11; D 12261 12; D 140689 11; D 161433 11;
   D 185236 11; D 212549 11; D 243889 11; D 279851 11; D 321115 11; D 368463 11; D 422793 11; D 485133 11; D 556666 11; D 638746 11; D 732929 11;
   D 840999 11; D 965004 11; D 110729 12; D 127056 12; D 145791 12; D 167287 12; D 191954 12; D 220257 12; D 252734 12; D 29 16; D 33276 13;
   D 381825 12; D 438125 12; D 502727 12; D 576854 12; D 66191 13; D 759509 12; D 871498 12; D 1 18];
  [D 971347 6; D 111714 7; D 128482 7; D 147766 7; D 169945 7; D 195453 7; D 22479 8; D 258529 7; D 297333 7; D 341961 7; D 393288 7; D 452318 7;
   D 520209 7; D 598289 7; D 688089 7; D 791368 7; D 910148 7; D 104676 8; D 120387 8; D 138456 8; D 159238 8; D 183139 8; D 210627 8; D 242241 8;
   D 2786 10; D 320416 8; D 368509 8; D 42382 9; D 487433 8; D 560594 8; D 644736 8; D 741508 8; D 852804 8; D 980806 8; D 112802 9; D 129733 9;
   D 149205 9; D 1716 11; D 197356 9; D 226978 9; D 261047 9; D 300228 9; D 345291 9; D 397117 9; D 456723 9; D 525274 9; D 604115 9; D 69479 10;
   D 799074 9; D 91901 10; D 105695 10; D 121559 10; D 139805 10; D 160788 10; D 184922 10; D 212678 10; D 2446 12; D 281313 10; D 323536 10;
   D 372097 10; D 427947 10; D 49218 11; D 566053 10; D 651015 10; D 748728 10; D 861109 10; D 990356 10; D 1139 13; D 130996 11; D 150658 11;
   D 173271 11; D 199278 11; D 229189 11; D 263589 11; D 303152 11; D 348653 11; D 400984 11; D 46117 12; D 530389 11; D 609998 11; D 701555 11;
   D 806855 11; D 927959 11; D 106724 12; D 122743 12; D 141166 12; D 162354 12; D 186723 12; D 214749 12; D 246981 12; D 284052 12; D 326687 12;
   D 37572 13; D 432114 12; D 496972 12; D 571565 12; D 657354 12; D 756019 12; D 869494 12; D 1 18];
  [D 773347 6; D 891473 6; D 102764 7; D 118461 7; D 136555 7; D 157414 7; D 181458 7; D 209175 7; D 241126 7; D 277957 7; D 320413 7; D 369355 7;
   D 425773 7; D 490808 7; D 565776 7; D 652196 7; D 751817 7; D 866654 7; D 999032 7; D 115163 8; D 132754 8; D 153031 8; D 176406 8; D 203351 8;
   D 234412 8; D 270218 8; D 311493 8; D 359072 8; D 413919 8; D 477143 8; D 550025 8; D 634039 8; D 730886 8; D 842525 8; D 971218 8; D 111957 9;
   D 129058 9; D 148771 9; D 171495 9; D 19769 10; D 227886 9; D 262695 9; D 302821 9; D 349075 9; D 402395 9; D 463859 9; D 534712 9; D 616387 9;
   D 710537 9; D 819069 9; D 944178 9; D 10884 11; D 125465 10; D 144629 10; D 16672 11; D 192186 10; D 221542 10; D 255381 10; D 29439 11; D 339357 10;
   D 391192 10; D 450945 10; D 519825 10; D 599226 10; D 690755 10; D 796266 10; D 917892 10; D 10581 12; D 121972 11; D 140602 11; D 162079 11;
   D 186836 11; D 215374 11; D 248271 11; D 286194 11; D 329909 11; D 380301 11; D 43839 12; D 505353 11; D 582543 11; D 671524 11; D 774097 11;
   D 892337 11; D 102864 12; D 118576 12; D 136688 12; D 157566 12; D 181634 12; D 209378 12; D 241359 12; D 278226 12; D 320724 12; D 369713 12;
   D 426185 12; D 491283 12; D 566325 12; D 652829 12; D 752546 12; D 867494 12; D 1 18];
  [D 615708 6; D 711391 6; D 821943 6; D 949676 6; D 109726 7; D 126778 7; D 146479 7; D 169243 7; D 195543 7; D 225932 7; D 261042 7; D 301609 7;
   D 34848 8; D 402635 7; D 465206 7; D 5375 9; D 621029 7; D 717539 7; D 829047 7; D 957884 7; D 110674 8; D 127873 8; D 147745 8; D 170705 8;
   D 197234 8; D 227884 8; D 263298 8; D 304216 8; D 351492 8; D 406115 8; D 469226 8; D 542146 8; D 626397 8; D 723741 8; D 836213 8; D 966163 8;
   D 111631 9; D 128979 9; D 149022 9; D 172181 9; D 198938 9; D 229854 9; D 265574 9; D 306845 9; D 35453 10; D 409625 9; D 473282 9; D 546831 9;
   D 631811 9; D 729996 9; D 84344 10; D 974513 9; D 112596 10; D 130093 10; D 15031 11; D 173669 10; D 200658 10; D 23184 11; D 267869 10; D 309497 10;
   D 357594 10; D 413165 10; D 477372 10; D 551557 10; D 637271 10; D 736305 10; D 85073 11; D 982936 10; D 113569 11; D 131218 11; D 151609 11;
   D 17517 12; D 202392 11; D 233844 11; D 270184 11; D 312172 11; D 360684 11; D 416736 11; D 481498 11; D 556325 11; D 642779 11; D 742669 11;
   D 858082 11; D 991431 11; D 11455 13; D 132352 12; D 15292 13; D 176684 12; D 204141 12; D 235865 12; D 27252 13; D 31487 13; D 363802 12;
   D 420338 12; D 48566 13; D 561133 12; D 648335 12; D 749088 12; D 865499 12; D 1 18];
  [D 490202 6; D 567686 6; D 657418 6; D 761334 6; D 881676 6; D 102104 7; D 118243 7; D 136934 7; D 158578 7; D 183644 7; D 212672 7; D 246289 7;
   D 285219 7; D 330302 7; D 382512 7; D 442974 7; D 512994 7; D 594081 7; D 687985 7; D 796733 7; D 92267 8; D 106851 8; D 123741 8; D 1433 10;
   D 165951 8; D 192183 8; D 22256 9; D 25774 9; D 29848 9; D 34566 9; D 400297 8; D 463571 8; D 536846 8; D 621703 8; D 719974 8; D 833778 8;
   D 96557 9; D 111819 9; D 129494 9; D 149963 9; D 173667 9; D 201118 9; D 232909 9; D 269724 9; D 312358 9; D 361731 9; D 418909 9; D 485125 9;
   D 561807 9; D 65061 10; D 753449 9; D 872545 9; D 101047 10; D 117019 10; D 135515 10; D 156936 10; D 181742 10; D 21047 11; D 243738 10;
   D 282265 10; D 326881 10; D 37855 11; D 438387 10; D 507681 10; D 587928 10; D 68086 11; D 788482 10; D 913114 10; D 105745 11; D 122459 11;
   D 141816 11; D 164233 11; D 190192 11; D 220255 11; D 255071 11; D 295389 11; D 34208 12; D 396151 11; D 45877 12; D 531286 11; D 615264 11;
   D 712517 11; D 825143 11; D 95557 12; D 110661 12; D 128153 12; D 14841 13; D 171869 12; D 199035 12; D 230496 12; D 26693 13; D 309123 12;
   D 357985 12; D 414571 12; D 4801 14; D 555988 12; D 643872 12; D 745646 12; D 863508 12; D 1 18];
  [D 390279 6; D 453011 6; D 525826 6; D 610345 6; D 70845 7; D 822323 6; D 954501 6; D 110792 7; D 128601 7; D 149272 7; D 173265 7; D 201115 7;
   D 233441 7; D 270964 7; D 314518 7; D 365072 7; D 423752 7; D 491865 7; D 570925 7; D 662694 7; D 769213 7; D 892853 7; D 103637 8; D 120295 8;
   D 139631 8; D 162074 8; D 188126 8; D 218364 8; D 253463 8; D 294204 8; D 341493 8; D 396384 8; D 460097 8; D 534051 8; D 619893 8; D 719532 8;
   D 835187 8; D 969432 8; D 112526 9; D 130612 9; D 151607 9; D 175975 9; D 204261 9; D 237093 9; D 275203 9; D 319438 9; D 370783 9; D 430381 9;
   D 499559 9; D 579857 9; D 673061 9; D 781246 9; D 90682 10; D 105258 10; D 122177 10; D 141815 10; D 16461 11; D 191069 10; D 22178 11; D 257428 10;
   D 298806 10; D 346836 10; D 402585 10; D 467295 10; D 542406 10; D 62959 11; D 730788 10; D 848253 10; D 984598 10; D 114286 11; D 132656 11;
   D 153978 11; D 178728 11; D 207456 11; D 240802 11; D 279508 11; D 324435 11; D 376583 11; D 437114 11; D 507374 11; D 588927 11; D 68359 12;
   D 793467 11; D 921006 11; D 106905 12; D 124088 12; D 144033 12; D 167185 12; D 194058 12; D 22525 13; D 261455 12; D 303481 12; D 352261 12;
   D 408882 12; D 474605 12; D 550891 12; D 639439 12; D 74222 13; D 861522 12; D 1 18];
  [D 310724 6; D 3615 8; D 420574 6; D 4893 8; D 569258 6; D 662282 6; D 770506 6; D 896417 6; D 10429 8; D 121332 7; D 14116 8; D 164227 7; D 191064 7;
   D 222286 7; D 25861 8; D 30087 8; D 350036 7; D 407236 7; D 473783 7; D 551205 7; D 641278 7; D 746071 7; D 867988 7; D 100983 8; D 117485 8;
   D 136683 8; D 159019 8; D 185004 8; D 215236 8; D 250408 8; D 291328 8; D 338935 8; D 394321 8; D 458757 8; D 533724 8; D 620941 8; D 72241 9;
   D 840461 8; D 977802 8; D 113759 9; D 132348 9; D 153976 9; D 179137 9; D 20841 10; D 242467 9; D 282089 9; D 328186 9; D 381815 9; D 444209 9;
   D 516798 9; D 601249 9; D 6995 11; D 813807 9; D 946793 9; D 110151 10; D 128151 10; D 149092 10; D 173456 10; D 201801 10; D 234777 10; D 273143 10;
   D 317778 10; D 369707 10; D 430121 10; D 500408 10; D 582181 10; D 677316 10; D 787998 10; D 916767 10; D 106658 11; D 124087 11; D 144364 11;
   D 167955 11; D 195401 11; D 227332 11; D 264481 11; D 3077 13; D 357982 11; D 41648 12; D 484538 11; D 563718 11; D 655836 11; D 763008 11;
   D 887693 11; D 103275 12; D 120152 12; D 139786 12; D 162629 12; D 189204 12; D 220122 12; D 256093 12; D 297942 12; D 346629 12; D 403272 12;
   D 469172 12; D 54584 13; D 635037 12; D 73881 13; D 859541 12; D 1 18];
  [D 247386 6; D 288475 6; D 336389 6; D 392261 6; D 457414 6; D 533387 6; D 62198 7; D 725287 6; D 845753 6; D 986227 6; D 115003 7; D 134105 7;
   D 156379 7; D 182352 7; D 21264 8; D 247958 7; D 289143 7; D 337168 7; D 393169 7; D 458472 7; D 534622 7; D 623419 7; D 726965 7; D 84771 8;
   D 98851 8; D 11527 9; D 134415 8; D 156741 8; D 182774 8; D 213132 8; D 248532 8; D 289812 8; D 337948 8; D 394079 8; D 459533 8; D 535859 8;
   D 624862 8; D 728648 8; D 849672 8; D 990797 8; D 115536 9; D 134726 9; D 157103 9; D 183197 9; D 213625 9; D 249107 9; D 290482 9; D 33873 10;
   D 394991 9; D 460596 9; D 537099 9; D 626308 9; D 730334 9; D 851638 9; D 99309 10; D 115804 10; D 135038 10; D 157467 10; D 183621 10; D 21412 11;
   D 249684 10; D 291155 10; D 339514 10; D 395905 10; D 461662 10; D 538342 10; D 627757 10; D 732024 10; D 853609 10; D 995388 10; D 116072 11;
   D 13535 12; D 157831 11; D 184046 11; D 214615 11; D 250261 11; D 291828 11; D 340299 11; D 396821 11; D 462731 11; D 539587 11; D 62921 12;
   D 733718 11; D 855584 11; D 997691 11; D 11634 13; D 135664 12; D 158197 12; D 184472 12; D 215112 12; D 250841 12; D 292504 12; D 341087 12;
   D 397739 12; D 463801 12; D 540836 12; D 630666 12; D 735416 12; D 857564 12; D 1 18];
  [D 196959 6; D 230202 6; D 269056 6; D 314467 6; D 367544 6; D 429579 6; D 502084 6; D 586827 6; D 685873 6; D 801636 6; D 936938 6; D 109508 7;
   D 127991 7; D 149593 7; D 174842 7; D 204352 7; D 238843 7; D 279155 7; D 326272 7; D 381341 7; D 445704 7; D 520931 7; D 608855 7; D 711619 7;
   D 831727 7; D 972108 7; D 113618 8; D 132795 8; D 155208 8; D 181405 8; D 212023 8; D 247808 8; D 289634 8; D 338519 8; D 395655 8; D 462435 8;
   D 540485 8; D 63171 9; D 738331 8; D 862948 8; D 10086 10; D 117883 9; D 13778 10; D 161035 9; D 188214 9; D 219982 9; D 257111 9; D 300506 9;
   D 351226 9; D 410507 9; D 479793 9; D 560774 9; D 655423 9; D 766046 9; D 895341 9; D 104646 10; D 122308 10; D 142952 10; D 167079 10; D 195279 10;
   D 228239 10; D 266762 10; D 311786 10; D 36441 11; D 425916 10; D 497804 10; D 581824 10; D 680025 10; D 794802 10; D 92895 11; D 108574 11;
   D 126899 11; D 148318 11; D 173351 11; D 20261 12; D 236807 11; D 276775 11; D 32349 12; D 37809 12; D 441904 11; D 51649 12; D 603664 11;
   D 705552 11; D 824637 11; D 963821 11; D 11265 13; D 131663 12; D 153885 12; D 179858 12; D 210215 12; D 245696 12; D 287165 12; D 335633 12;
   D 392282 12; D 458492 12; D 535878 12; D 626324 12; D 732037 12; D 855591 12; D 1 18];
  [D 15681 7; D 1837 8; D 2152 8; D 252102 6; D 295331 6; D 345973 6; D 4053 8; D 474799 6; D 556216 6; D 651594 6; D 763327 6; D 89422 7; D 104756 7;
   D 122719 7; D 143762 7; D 168414 7; D 197293 7; D 231124 7; D 270757 7; D 317185 7; D 371575 7; D 435291 7; D 509934 7; D 597375 7; D 699811 7;
   D 819812 7; D 960391 7; D 112508 8; D 1318 10; D 154401 8; D 180877 8; D 211893 8; D 248227 8; D 290792 8; D 340657 8; D 399071 8; D 467503 8;
   D 547668 8; D 64158 9; D 751596 8; D 880478 8; D 103146 9; D 120833 9; D 141553 9; D 165826 9; D 194261 9; D 227573 9; D 266596 9; D 312311 9;
   D 365865 9; D 428602 9; D 502097 9; D 588195 9; D 689057 9; D 807214 9; D 945632 9; D 110779 10; D 129774 10; D 152028 10; D 178097 10; D 208636 10;
   D 244413 10; D 286324 10; D 335421 10; D 392938 10; D 460318 10; D 539252 10; D 631721 10; D 740046 10; D 866947 10; D 101561 11; D 118976 11;
   D 139378 11; D 163278 11; D 191276 11; D 224075 11; D 262499 11; D 307511 11; D 360242 11; D 422015 11; D 494381 11; D 579156 11; D 678467 11;
   D 794809 11; D 9311 13; D 109076 12; D 12778 13; D 149691 12; D 17536 13; D 20543 13; D 240657 12; D 281924 12; D 330267 12; D 3869 14; D 453244 12;
   D 530965 12; D 622013 12; D 728673 12; D 853624 12; D 1 18];
  [D 124846 6; D 146591 6; D 172124 6; D 202104 6; D 237306 6; D 27864 7; D 327172 6; D 384158 6; D 45107 7; D 529635 6; D 621886 6; D 730204 6;
   D 857389 6; D 100673 7; D 118207 7; D 138797 7; D 162972 7; D 191358 7; D 224688 7; D 263823 7; D 309775 7; D 363731 7; D 427084 7; D 501473 7;
   D 588818 7; D 691376 7; D 811798 7; D 953195 7; D 111922 8; D 131416 8; D 154306 8; D 181182 8; D 21274 9; D 249795 8; D 293303 8; D 34439 9;
   D 404375 8; D 474807 8; D 557508 8; D 654613 8; D 768632 8; D 90251 9; D 105971 9; D 124428 9; D 146101 9; D 171548 9; D 201428 9; D 236512 9;
   D 277707 9; D 326077 9; D 382873 9; D 44956 10; D 527863 9; D 619805 9; D 727761 9; D 85452 10; D 100336 10; D 117812 10; D 138332 10; D 162426 10;
   D 190717 10; D 223936 10; D 26294 11; D 308739 10; D 362514 10; D 425655 10; D 499795 10; D 586847 10; D 689063 10; D 809082 10; D 950005 10;
   D 111547 11; D 130976 11; D 15379 12; D 180576 11; D 212028 11; D 248959 11; D 292322 11; D 343237 11; D 403022 11; D 473219 11; D 555642 11;
   D 652423 11; D 76606 12; D 89949 12; D 105616 12; D 124012 12; D 145612 12; D 170974 12; D 200754 12; D 235721 12; D 276778 12; D 324986 12;
   D 381591 12; D 448056 12; D 526097 12; D 617731 12; D 725325 12; D 85166 13; D 1 18];
  [D 993973 5; D 116979 6; D 137671 6; D 162023 6; D 190682 6; D 22441 7; D 264105 6; D 310821 6; D 3658 8; D 430504 6; D 506653 6; D 596272 6;
   D 701743 6; D 82587 7; D 971952 6; D 114388 7; D 134621 7; D 158433 7; D 186457 7; D 219439 7; D 258254 7; D 303935 7; D 357696 7; D 420966 7;
   D 495428 7; D 583062 7; D 686196 7; D 807573 7; D 950419 7; D 111853 8; D 131638 8; D 154923 8; D 182326 8; D 214577 8; D 252532 8; D 297201 8;
   D 349771 8; D 41164 9; D 484452 8; D 570144 8; D 670994 8; D 789681 8; D 929363 8; D 109375 9; D 128722 9; D 151491 9; D 178287 9; D 209823 9;
   D 246937 9; D 290617 9; D 342022 9; D 40252 10; D 47372 10; D 557513 9; D 656128 9; D 772186 9; D 908774 9; D 106952 10; D 12587 11; D 148135 10;
   D 174337 10; D 205175 10; D 241467 10; D 284178 10; D 334445 10; D 393603 10; D 463225 10; D 545162 10; D 641592 10; D 755079 10; D 88864 11;
   D 104583 11; D 123082 11; D 144853 11; D 170475 11; D 200629 11; D 236117 11; D 277882 11; D 327035 11; D 384883 11; D 452962 11; D 533084 11;
   D 627378 11; D 738351 11; D 868953 11; D 102266 12; D 120355 12; D 141644 12; D 166698 12; D 196184 12; D 230886 12; D 271726 12; D 31979 13;
   D 376356 12; D 442927 12; D 521274 12; D 613478 12; D 721993 12; D 849702 12; D 1 18];
  [D 791361 5; D 933487 5; D 110114 6; D 12989 7; D 153218 6; D 180735 6; D 213195 6; D 251484 6; D 296649 6; D 349927 6; D 412772 6; D 486905 6;
   D 574352 6; D 677503 6; D 799181 6; D 942711 6; D 111202 7; D 131173 7; D 154732 7; D 182521 7; D 215301 7; D 253969 7; D 299581 7; D 353384 7;
   D 416851 7; D 491716 7; D 580027 7; D 684198 7; D 807078 7; D 952026 7; D 112301 8; D 13247 9; D 156261 8; D 184325 8; D 217429 8; D 256478 8;
   D 302541 8; D 356876 8; D 42097 9; D 496575 8; D 585758 8; D 690958 8; D 815052 8; D 961433 8; D 11341 10; D 133778 9; D 157805 9; D 186146 9;
   D 219577 9; D 259012 9; D 30553 10; D 360402 9; D 42513 10; D 501482 9; D 591546 9; D 697786 9; D 823106 9; D 970933 9; D 114531 10; D 1351 12;
   D 159364 10; D 187985 10; D 221747 10; D 261572 10; D 308549 10; D 363964 10; D 42933 11; D 506437 10; D 597391 10; D 704681 10; D 831239 10;
   D 980527 10; D 115663 11; D 136435 11; D 160939 11; D 189843 11; D 223938 11; D 264156 11; D 311598 11; D 36756 12; D 433573 11; D 511441 11;
   D 603294 11; D 711644 11; D 839453 11; D 990216 11; D 116806 12; D 137783 12; D 162529 12; D 191719 12; D 226151 12; D 266767 12; D 314677 12;
   D 371192 12; D 437857 12; D 516494 12; D 609255 12; D 718675 12; D 847747 12; D 1 18];
  [D 63005 6; D 744918 5; D 880728 5; D 10413 7; D 123114 6; D 14556 7; D 172098 6; D 203474 6; D 240571 6; D 284431 6; D 336287 6; D 397598 6;
   D 470087 6; D 555791 6; D 657121 6; D 776924 6; D 91857 7; D 108604 7; D 128404 7; D 151814 7; D 179493 7; D 212217 7; D 250908 7; D 296652 7;
   D 350736 7; D 414681 7; D 490284 7; D 579671 7; D 685354 7; D 810306 7; D 958037 7; D 11327 9; D 133921 8; D 158337 8; D 187205 8; D 221335 8;
   D 261688 8; D 309398 8; D 365806 8; D 432499 8; D 51135 9; D 604577 8; D 714802 8; D 845121 8; D 999201 8; D 118137 9; D 139675 9; D 16514 10;
   D 195248 9; D 230845 9; D 272932 9; D 322692 9; D 381524 9; D 451081 9; D 533321 9; D 630554 9; D 745514 9; D 881433 9; D 104213 10; D 123213 10;
   D 145677 10; D 172236 10; D 203637 10; D 240764 10; D 284659 10; D 336557 10; D 397916 10; D 470463 10; D 556236 10; D 657646 10; D 777546 10;
   D 919305 10; D 108691 11; D 128507 11; D 151936 11; D 179636 11; D 212387 11; D 251108 11; D 296889 11; D 351017 11; D 415013 11; D 490677 11;
   D 580135 11; D 685903 11; D 810954 11; D 958804 11; D 113361 12; D 134028 12; D 158464 12; D 187354 12; D 221512 12; D 261897 12; D 309646 12;
   D 366099 12; D 432845 12; D 511759 12; D 605061 12; D 715373 12; D 845798 12; D 1 18];
  [D 50162 6; D 594441 5; D 704437 5; D 834787 5; D 989257 5; D 117231 6; D 138924 6; D 16463 7; D 195094 6; D 231194 6; D 273975 6; D 324672 6;
   D 384749 6; D 455944 6; D 540313 6; D 640293 6; D 758774 6; D 899178 6; D 106556 7; D 126274 7; D 14964 8; D 177329 7; D 210142 7; D 249028 7;
   D 295108 7; D 349715 7; D 414427 7; D 491113 7; D 58199 8; D 689682 7; D 817302 7; D 968537 7; D 114776 8; D 136014 8; D 161182 8; D 191007 8;
   D 226352 8; D 268236 8; D 317871 8; D 376691 8; D 446394 8; D 528995 8; D 626882 8; D 742881 8; D 880345 8; D 104324 9; D 123629 9; D 146505 9;
   D 173615 9; D 205741 9; D 243812 9; D 288927 9; D 34239 10; D 405747 9; D 480827 9; D 5698 11; D 675236 9; D 800183 9; D 94825 10; D 112372 10;
   D 133165 10; D 157806 10; D 187007 10; D 221611 10; D 262618 10; D 311213 10; D 368801 10; D 437044 10; D 517915 10; D 613751 10; D 727321 10;
   D 861905 10; D 102139 11; D 121039 11; D 143437 11; D 169978 11; D 201432 11; D 238705 11; D 282875 11; D 335219 11; D 397248 11; D 470756 11;
   D 557865 11; D 661093 11; D 783423 11; D 928389 11; D 110018 12; D 130376 12; D 154501 12; D 18309 13; D 216969 12; D 257117 12; D 304695 12;
   D 361076 12; D 42789 13; D 507067 12; D 600896 12; D 712087 12; D 843852 12; D 1 18];
  [D 399369 5; D 47436 6; D 563433 5; D 66923 6; D 794894 5; D 944154 5; D 112144 6; D 133202 6; D 158213 6; D 187922 6; D 223208 6; D 265121 6;
   D 314904 6; D 374034 6; D 444268 6; D 52769 7; D 626776 6; D 744468 6; D 884259 6; D 10503 8; D 124752 7; D 148177 7; D 176 10; D 209049 7;
   D 248302 7; D 294927 7; D 350306 7; D 416085 7; D 494214 7; D 587015 7; D 69724 8; D 828163 7; D 98367 8; D 116838 8; D 138777 8; D 164835 8;
   D 195787 8; D 232551 8; D 276217 8; D 328084 8; D 389689 8; D 462862 8; D 549776 8; D 653009 8; D 775627 8; D 921269 8; D 109426 9; D 129973 9;
   D 154379 9; D 183367 9; D 217798 9; D 258695 9; D 307271 9; D 364968 9; D 433499 9; D 514899 9; D 611583 9; D 726423 9; D 862825 9; D 102484 10;
   D 121728 10; D 144585 10; D 171734 10; D 203982 10; D 242284 10; D 287778 10; D 341815 10; D 405999 10; D 482235 10; D 572786 10; D 68034 11;
   D 80809 11; D 959827 10; D 114006 11; D 135413 11; D 16084 12; D 191041 11; D 226914 11; D 269522 11; D 320131 11; D 380244 11; D 451643 11;
   D 53645 12; D 637181 11; D 756826 11; D 898938 11; D 106773 12; D 126823 12; D 150637 12; D 178922 12; D 212519 12; D 252424 12; D 299823 12;
   D 356122 12; D 422992 12; D 502419 12; D 596759 12; D 708815 12; D 841911 12; D 1 18];
  [D 317962 5; D 378537 5; D 450653 5; D 536507 5; D 638718 5; D 760401 5; D 905266 5; D 107773 6; D 128305 6; D 152749 6; D 181849 6; D 216493 6;
   D 257738 6; D 30684 7; D 365296 6; D 434889 6; D 517741 6; D 616376 6; D 733803 6; D 873601 6; D 104003 7; D 123817 7; D 147406 7; D 175488 7;
   D 20892 8; D 248722 7; D 296107 7; D 352518 7; D 419677 7; D 49963 8; D 594816 7; D 708135 7; D 843043 7; D 100365 8; D 119486 8; D 142249 8;
   D 16935 9; D 201613 8; D 240022 8; D 285749 8; D 340187 8; D 404997 8; D 482154 8; D 57401 9; D 683365 8; D 813554 8; D 968545 8; D 115306 9;
   D 137274 9; D 163426 9; D 19456 10; D 231626 9; D 275754 9; D 328288 9; D 390831 9; D 465288 9; D 553931 9; D 659461 9; D 785096 9; D 934666 9;
   D 111273 10; D 132472 10; D 157709 10; D 187755 10; D 223524 10; D 266108 10; D 316805 10; D 37716 11; D 449013 10; D 534555 10; D 636394 10;
   D 757634 10; D 901972 10; D 107381 11; D 127838 11; D 152193 11; D 181187 11; D 215705 11; D 2568 13; D 305723 11; D 363967 11; D 433307 11;
   D 515857 11; D 614133 11; D 731133 11; D 870422 11; D 103625 12; D 123366 12; D 146869 12; D 174849 12; D 20816 13; D 247817 12; D 295029 12;
   D 351236 12; D 41815 13; D 497812 12; D 592651 12; D 705558 12; D 839975 12; D 1 18];
  [D 253148 5; D 302071 5; D 360447 5; D 430106 5; D 513227 5; D 612411 5; D 730763 5; D 871987 5; D 10405 7; D 124159 6; D 148153 6; D 176785 6;
   D 210949 6; D 251716 6; D 300362 6; D 358409 6; D 427673 6; D 510324 6; D 608947 6; D 726629 6; D 867055 6; D 103462 7; D 123456 7; D 147315 7;
   D 175785 7; D 209756 7; D 250293 7; D 298663 7; D 356382 7; D 425254 7; D 507437 7; D 605503 7; D 72252 8; D 862151 7; D 102877 8; D 122758 8;
   D 146482 8; D 17479 9; D 20857 9; D 248877 8; D 296974 8; D 354366 8; D 422849 8; D 504567 8; D 602078 8; D 718433 8; D 857274 8; D 102295 9;
   D 122064 9; D 145653 9; D 173802 9; D 20739 10; D 247469 9; D 295294 9; D 352362 9; D 420458 9; D 501713 9; D 598673 9; D 71437 10; D 852426 9;
   D 101716 10; D 121373 10; D 14483 11; D 172819 10; D 206217 10; D 24607 11; D 293624 10; D 350369 10; D 418079 10; D 498876 10; D 595286 10;
   D 710329 10; D 847604 10; D 101141 11; D 120687 11; D 14401 12; D 171841 11; D 205051 11; D 244678 11; D 291963 11; D 348387 11; D 415715 11;
   D 496054 11; D 591919 11; D 706311 11; D 84281 12; D 100569 12; D 120004 12; D 143196 12; D 170869 12; D 203891 12; D 243294 12; D 290312 12;
   D 346416 12; D 413363 12; D 493248 12; D 588572 12; D 702316 12; D 838043 12; D 1 18];
  [D 201546 5; D 241051 5; D 288298 5; D 344807 5; D 412391 5; D 493222 5; D 589897 5; D 705521 5; D 843808 5; D 10092 7; D 120701 6; D 144359 6;
   D 172654 6; D 206496 6; D 24697 7; D 295378 6; D 353274 6; D 422519 6; D 505335 6; D 604384 6; D 722847 6; D 86453 7; D 103398 7; D 123665 7;
   D 147904 7; D 176895 7; D 211567 7; D 253036 7; D 302632 7; D 36195 8; D 432895 7; D 517745 7; D 619227 7; D 740599 7; D 885762 7; D 105938 8;
   D 126702 8; D 151537 8; D 181239 8; D 216763 8; D 25925 9; D 310064 8; D 370839 8; D 443526 8; D 53046 9; D 634434 8; D 758787 8; D 907514 8;
   D 108539 9; D 129814 9; D 155258 9; D 18569 10; D 222086 9; D 265616 9; D 317679 9; D 379946 9; D 454418 9; D 543487 9; D 650014 9; D 777421 9;
   D 929801 9; D 111205 10; D 133002 10; D 159071 10; D 19025 11; D 22754 11; D 27214 11; D 325481 10; D 389277 10; D 465578 10; D 556834 10;
   D 665977 10; D 796513 10; D 952635 10; D 113936 11; D 136268 11; D 162977 11; D 194922 11; D 233128 11; D 278823 11; D 333474 11; D 398837 11;
   D 477012 11; D 570509 11; D 682333 11; D 816074 11; D 97603 12; D 116734 12; D 139615 12; D 16698 13; D 199709 12; D 238853 12; D 28567 13;
   D 341663 12; D 408632 12; D 488726 12; D 58452 13; D 69909 13; D 836116 12; D 1 18];
  [D 160463 5; D 192357 5; D 230591 5; D 276424 5; D 331367 5; D 397231 5; D 476186 5; D 570834 5; D 684295 5; D 820308 5; D 983356 5; D 117881 6;
   D 141312 6; D 169399 6; D 20307 7; D 243433 6; D 291818 6; D 349821 6; D 419353 6; D 502705 6; D 602624 6; D 722404 6; D 865992 6; D 103812 7;
   D 124446 7; D 149181 7; D 178833 7; D 214379 7; D 256989 7; D 30807 8; D 369303 7; D 442707 7; D 530701 7; D 636185 7; D 762635 7; D 914219 7;
   D 109593 8; D 131376 8; D 157489 8; D 188793 8; D 226318 8; D 271301 8; D 325226 8; D 389869 8; D 467361 8; D 560256 8; D 671614 8; D 805107 8;
   D 965133 8; D 115697 9; D 138693 9; D 16626 10; D 199306 9; D 238921 9; D 28641 10; D 343338 9; D 411581 9; D 493389 9; D 591457 9; D 709017 9;
   D 849944 9; D 101888 10; D 12214 11; D 146417 10; D 175519 10; D 210406 10; D 252227 10; D 302361 10; D 362459 10; D 434503 10; D 520866 10;
   D 624395 10; D 748502 10; D 897277 10; D 107562 11; D 128942 11; D 154571 11; D 185294 11; D 222124 11; D 266274 11; D 319199 11; D 382644 11;
   D 4587 13; D 549873 11; D 659168 11; D 790187 11; D 947247 11; D 113553 12; D 136123 12; D 163179 12; D 195613 12; D 234494 12; D 281103 12;
   D 336976 12; D 403954 12; D 484246 12; D 580496 12; D 695878 12; D 834193 12; D 1 18];
  [D 127754 5; D 1535 7; D 184434 5; D 221603 5; D 266262 5; D 319921 5; D 384394 5; D 46186 6; D 554937 5; D 666772 5; D 801144 5; D 962597 5;
   D 115659 6; D 138967 6; D 166973 6; D 200622 6; D 241053 6; D 289632 6; D 348 9; D 418132 6; D 502396 6; D 603643 6; D 725293 6; D 87146 7;
   D 104708 7; D 12581 8; D 151164 7; D 181628 7; D 21823 8; D 26221 8; D 315052 7; D 378544 7; D 454831 7; D 546491 7; D 656624 7; D 788952 7;
   D 947947 7; D 113898 8; D 136852 8; D 164431 8; D 197569 8; D 237384 8; D 285224 8; D 342704 8; D 411768 8; D 494751 8; D 594456 8; D 714255 8;
   D 858197 8; D 103115 9; D 123895 9; D 148863 9; D 178863 9; D 214909 9; D 258219 9; D 310257 9; D 372783 9; D 447909 9; D 538174 9; D 646631 9;
   D 776945 9; D 93352 10; D 112165 10; D 134769 10; D 161929 10; D 194562 10; D 233772 10; D 280883 10; D 337488 10; D 405501 10; D 487221 10;
   D 585409 10; D 703385 10; D 845136 10; D 101545 11; D 12201 12; D 146598 11; D 176141 11; D 211638 11; D 254289 11; D 305536 11; D 367109 11;
   D 441092 11; D 529984 11; D 63679 12; D 76512 12; D 919313 11; D 110458 12; D 132718 12; D 159465 12; D 191601 12; D 230214 12; D 276608 12;
   D 332352 12; D 39933 13; D 479806 12; D 5765 14; D 69268 13; D 832274 12; D 1 18];
  [D 101713 5; D 122492 5; D 147517 5; D 177654 5; D 213948 5; D 257657 5; D 310296 5; D 373689 5; D 450032 5; D 541972 5; D 652696 5; D 786039 5;
   D 946625 5; D 114002 6; D 137292 6; D 16534 7; D 199119 6; D 239798 6; D 288788 6; D 347787 6; D 418838 6; D 504406 6; D 607455 6; D 731556 6;
   D 88101 7; D 1061 9; D 127776 7; D 15388 8; D 185317 7; D 223177 7; D 268771 7; D 32368 8; D 389807 7; D 469443 7; D 565349 7; D 680848 7;
   D 819944 7; D 987456 7; D 118919 8; D 143214 8; D 172472 8; D 207707 8; D 250141 8; D 301244 8; D 362788 8; D 436904 8; D 526162 8; D 633656 8;
   D 76311 9; D 919011 8; D 110676 9; D 133287 9; D 160517 9; D 19331 10; D 232803 9; D 280364 9; D 337641 9; D 406621 9; D 489692 9; D 589734 9;
   D 710215 9; D 85531 10; D 103005 10; D 124048 10; D 149391 10; D 179911 10; D 216666 10; D 260931 10; D 314238 10; D 378436 10; D 455749 10;
   D 548857 10; D 660987 10; D 796025 10; D 958651 10; D 11545 12; D 139036 11; D 167441 11; D 201648 11; D 242844 11; D 292457 11; D 352205 11;
   D 424159 11; D 510814 11; D 615171 11; D 740849 11; D 892202 11; D 107448 12; D 129399 12; D 155835 12; D 187671 12; D 226012 12; D 272185 12;
   D 327792 12; D 394759 12; D 475407 12; D 572531 12; D 689498 12; D 83036 13; D 1 18];
  [D 809795 4; D 977481 4; D 117989 5; D 142422 5; D 171913 5; D 207512 5; D 250482 5; D 30235 6; D 364959 5; D 440532 5; D 531754 5; D 641866 5;
   D 774779 5; D 935215 5; D 112887 6; D 136263 6; D 16448 7; D 198539 6; D 239651 6; D 289276 6; D 349178 6; D 421483 6; D 508761 6; D 614112 6;
   D 741278 6; D 894776 6; D 108006 7; D 130371 7; D 157368 7; D 189954 7; D 229289 7; D 276768 7; D 334079 7; D 403258 7; D 486762 7; D 587558 7;
   D 709225 7; D 856086 7; D 103336 8; D 124734 8; D 150563 8; D 181741 8; D 219374 8; D 264801 8; D 319634 8; D 385821 8; D 465715 8; D 562152 8;
   D 678558 8; D 819069 8; D 988676 8; D 11934 10; D 144053 9; D 173882 9; D 209888 9; D 253351 9; D 305813 9; D 369138 9; D 445577 9; D 537844 9;
   D 649217 9; D 783653 9; D 945926 9; D 11418 11; D 137824 10; D 166363 10; D 200813 10; D 242396 10; D 29259 11; D 353177 10; D 42631 11; D 514588 10;
   D 621145 10; D 749768 10; D 905024 10; D 109243 11; D 131864 11; D 15917 12; D 19213 12; D 231915 11; D 279938 11; D 337906 11; D 407877 11;
   D 492337 11; D 594287 11; D 717348 11; D 865891 11; D 104519 12; D 126163 12; D 152287 12; D 183822 12; D 221887 12; D 267833 12; D 323295 12;
   D 39024 13; D 471049 12; D 56859 13; D 68633 13; D 82845 13; D 1 18];
  [D 644725 4; D 780025 4; D 943717 4; D 114176 5; D 138137 5; D 167126 5; D 202198 5; D 24463 6; D 295967 5; D 358078 5; D 433222 5; D 524136 5;
   D 634129 5; D 767205 5; D 928207 5; D 1123 8; D 135866 6; D 164379 6; D 198875 6; D 24061 7; D 291103 6; D 352193 6; D 426102 6; D 515522 6;
   D 623707 6; D 754596 6; D 912952 6; D 110454 7; D 133633 7; D 161677 7; D 195606 7; D 236655 7; D 286319 7; D 346404 7; D 419099 7; D 50705 8;
   D 613457 7; D 742194 7; D 897948 7; D 108639 8; D 131437 8; D 15902 9; D 192391 8; D 232766 8; D 281613 8; D 340711 8; D 412211 8; D 498716 8;
   D 603375 8; D 729996 8; D 88319 9; D 106853 9; D 129277 9; D 156407 9; D 189229 9; D 22894 10; D 276985 9; D 335111 9; D 405437 9; D 49052 10;
   D 593458 9; D 717999 9; D 868675 9; D 105097 10; D 127152 10; D 153836 10; D 186119 10; D 225178 10; D 272432 10; D 329604 10; D 398773 10;
   D 482458 10; D 583705 10; D 706198 10; D 854398 10; D 10337 12; D 125063 11; D 151308 11; D 183061 11; D 221477 11; D 267955 11; D 324187 11;
   D 392219 11; D 474529 11; D 574111 11; D 694592 11; D 840356 11; D 101671 12; D 123007 12; D 148821 12; D 180052 12; D 217837 12; D 263551 12;
   D 318859 12; D 385773 12; D 46673 13; D 564676 12; D 683176 12; D 826545 12; D 1 18];
  [D 513304 4; D 622456 4; D 754818 4; D 915326 4; D 110996 5; D 134599 5; D 163221 5; D 197929 5; D 240018 5; D 291056 5; D 352948 5; D 428001 5;
   D 519013 5; D 629378 5; D 763212 5; D 925505 5; D 112231 6; D 136096 6; D 165036 6; D 20013 7; D 242687 6; D 294293 6; D 356873 6; D 43276 7;
   D 524784 6; D 636377 6; D 771699 6; D 935797 6; D 113479 7; D 13761 8; D 166872 7; D 202356 7; D 245386 7; D 297566 7; D 360842 7; D 437573 7;
   D 53062 8; D 643454 7; D 780281 7; D 946204 7; D 114741 8; D 13914 9; D 168727 8; D 204606 8; D 248115 8; D 300875 8; D 364855 8; D 442439 8;
   D 536521 8; D 65061 9; D 788959 8; D 956726 8; D 116017 9; D 140687 9; D 170604 9; D 206882 9; D 250874 9; D 304221 9; D 368912 9; D 447359 9;
   D 542488 9; D 657845 9; D 797732 9; D 967366 9; D 117307 10; D 142252 10; D 172501 10; D 209182 10; D 253664 10; D 307604 10; D 373015 10;
   D 452334 10; D 548521 10; D 665161 10; D 806604 10; D 978124 10; D 118612 11; D 143834 11; D 174419 11; D 211509 11; D 256485 11; D 311025 11;
   D 377163 11; D 457365 11; D 554621 11; D 672558 11; D 815574 11; D 989001 11; D 119931 12; D 145433 12; D 176359 12; D 213861 12; D 259337 12;
   D 314484 12; D 381357 12; D 462451 12; D 560789 12; D 680037 12; D 824644 12; D 1 18];
  [D 408672 4; D 496716 4; D 603729 4; D 733796 4; D 891886 4; D 108403 5; D 131758 5; D 160144 5; D 194645 5; D 23658 6; D 287548 5; D 349498 5;
   D 424794 5; D 516311 5; D 627545 5; D 762744 5; D 927069 5; D 11268 7; D 136955 6; D 166461 6; D 202324 6; D 245912 6; D 298892 6; D 363285 6;
   D 441551 6; D 536679 6; D 652301 6; D 792833 6; D 963641 6; D 117125 7; D 142358 7; D 173028 7; D 210305 7; D 255613 7; D 310683 7; D 377616 7;
   D 45897 8; D 55785 8; D 678034 7; D 824109 7; D 100166 8; D 121745 8; D 147974 8; D 179854 8; D 218601 8; D 265697 8; D 322939 8; D 392512 8;
   D 477075 8; D 579857 8; D 704781 8; D 856619 8; D 104117 9; D 126548 9; D 153811 9; D 186949 9; D 227225 9; D 276178 9; D 335678 9; D 407997 9;
   D 495895 9; D 602731 9; D 732584 9; D 890412 9; D 108224 10; D 13154 11; D 159879 10; D 194323 10; D 236189 10; D 287073 10; D 34892 11; D 424091 10;
   D 515458 10; D 626508 10; D 761483 10; D 925537 10; D 112494 11; D 136729 11; D 166186 11; D 201989 11; D 245506 11; D 298398 11; D 362685 11;
   D 440821 11; D 535792 11; D 651223 11; D 791523 11; D 962048 11; D 116931 12; D 142123 12; D 172742 12; D 209957 12; D 255191 12; D 310169 12;
   D 376992 12; D 458211 12; D 556928 12; D 676913 12; D 822747 12; D 1 18];
  [D 325368 4; D 396377 4; D 482883 4; D 588268 4; D 716653 4; D 873057 4; D 10636 6; D 129572 5; D 15785 6; D 192299 5; D 234267 5; D 285394 5;
   D 347679 5; D 423557 5; D 515994 5; D 628606 5; D 765794 5; D 932923 5; D 113653 6; D 138456 6; D 168673 6; D 205485 6; D 25033 7; D 304963 6;
   D 371519 6; D 4526 8; D 551376 6; D 67171 7; D 818305 6; D 996894 6; D 121446 7; D 14795 8; D 180239 7; D 219575 7; D 267496 7; D 325875 7;
   D 396994 7; D 483635 7; D 589184 7; D 717769 7; D 874416 7; D 106525 8; D 129773 8; D 158095 8; D 192598 8; D 234631 8; D 285838 8; D 34822 9;
   D 424216 8; D 516798 8; D 629585 8; D 766987 8; D 934375 8; D 11383 10; D 138672 9; D 168936 9; D 205805 9; D 25072 10; D 305438 9; D 372097 9;
   D 453305 9; D 552235 9; D 672756 9; D 819579 9; D 998446 9; D 121635 10; D 148181 10; D 18052 11; D 219917 10; D 267912 10; D 326382 10; D 397612 10;
   D 484388 10; D 590102 10; D 718886 10; D 875778 10; D 106691 11; D 129975 11; D 158341 11; D 192898 11; D 234997 11; D 286283 11; D 348762 11;
   D 424876 11; D 517602 11; D 630565 11; D 768181 11; D 93583 12; D 114007 12; D 138888 12; D 169199 12; D 206125 12; D 251111 12; D 305913 12;
   D 372677 12; D 45401 13; D 553094 12; D 673803 12; D 820855 12; D 1 18];
  [D 259045 4; D 316307 4; D 386226 4; D 471602 4; D 57585 5; D 703142 4; D 858571 4; D 104836 5; D 12801 6; D 156307 5; D 190858 5; D 233047 5;
   D 284563 5; D 347465 5; D 424273 5; D 518058 5; D 632575 5; D 772406 5; D 943147 5; D 115163 6; D 14062 7; D 171704 6; D 209659 6; D 256004 6;
   D 312594 6; D 381693 6; D 466067 6; D 569091 6; D 694889 6; D 848494 6; D 103605 7; D 126507 7; D 154472 7; D 188618 7; D 230312 7; D 281223 7;
   D 343387 7; D 419293 7; D 511978 7; D 625151 7; D 763341 7; D 932077 7; D 113811 8; D 138969 8; D 169689 8; D 207198 8; D 253 11; D 308925 8;
   D 377213 8; D 460596 8; D 562412 8; D 686733 8; D 838535 8; D 102389 9; D 125023 9; D 152659 9; D 186404 9; D 227609 9; D 277922 9; D 339357 9;
   D 414372 9; D 505969 9; D 617813 9; D 754381 9; D 921137 9; D 112476 10; D 137338 10; D 167697 10; D 204766 10; D 25003 11; D 305299 10; D 372786 10;
   D 45519 11; D 55581 11; D 678673 10; D 828693 10; D 101188 11; D 123555 11; D 150867 11; D 184216 11; D 224937 11; D 27466 12; D 335374 11;
   D 409508 11; D 50003 12; D 610562 11; D 745527 11; D 910326 11; D 111155 12; D 135726 12; D 165729 12; D 202363 12; D 247096 12; D 301716 12;
   D 368411 12; D 449848 12; D 549287 12; D 670707 12; D 818967 12; D 1 18];
  [D 206241 4; D 252411 4; D 308917 4; D 378073 4; D 46271 5; D 566295 4; D 693069 4; D 848223 4; D 103811 5; D 127051 5; D 155493 5; D 190302 5;
   D 232905 5; D 285044 5; D 348855 5; D 426952 5; D 522531 5; D 639508 5; D 782671 5; D 957884 5; D 117232 6; D 143476 6; D 175596 6; D 214905 6;
   D 263015 6; D 321895 6; D 393956 6; D 482149 6; D 590086 6; D 722186 6; D 883858 6; D 108172 7; D 132388 7; D 162025 7; D 198297 7; D 242689 7;
   D 297019 7; D 363511 7; D 444888 7; D 544484 7; D 666374 7; D 815552 7; D 998126 7; D 122157 8; D 149504 8; D 182973 8; D 223934 8; D 274065 8;
   D 335419 8; D 410507 8; D 502405 8; D 614876 8; D 752526 8; D 92099 9; D 112717 9; D 13795 10; D 168832 9; D 206628 9; D 252885 9; D 309497 9;
   D 378783 9; D 463579 9; D 567358 9; D 69437 10; D 849815 9; D 104006 10; D 127289 10; D 155785 10; D 19066 11; D 233342 10; D 285579 10; D 34951 11;
   D 427753 10; D 523512 10; D 640708 10; D 784141 10; D 959682 10; D 117452 11; D 143746 11; D 175925 11; D 215309 11; D 263509 11; D 322499 11;
   D 394696 11; D 483055 11; D 591194 11; D 723541 11; D 885517 11; D 108375 12; D 132637 12; D 16233 13; D 19867 13; D 243145 12; D 297576 12;
   D 364193 12; D 445724 12; D 545506 12; D 667625 12; D 817083 12; D 1 18];
  [D 164201 4; D 201423 4; D 247083 4; D 303093 4; D 3718 6; D 456082 4; D 559469 4; D 686294 4; D 841867 4; D 103271 5; D 126681 5; D 155398 5;
   D 190624 5; D 233836 5; D 286844 5; D 351867 5; D 431631 5; D 529475 5; D 6495 7; D 796733 5; D 977342 5; D 119889 6; D 147066 6; D 180404 6;
   D 2213 8; D 271465 6; D 333003 6; D 40849 7; D 501089 6; D 61468 7; D 754019 6; D 924945 6; D 113462 7; D 139182 7; D 170733 7; D 209436 7;
   D 256912 7; D 31515 8; D 38659 8; D 474225 7; D 581726 7; D 713595 7; D 875358 7; D 107379 8; D 13172 9; D 16158 9; D 198207 8; D 243138 8;
   D 298255 8; D 365865 8; D 448801 8; D 550539 8; D 675338 8; D 828428 8; D 101622 9; D 124659 9; D 152917 9; D 187581 9; D 230103 9; D 282265 9;
   D 34625 10; D 42474 10; D 521023 9; D 639132 9; D 784015 9; D 961741 9; D 117975 10; D 144719 10; D 177525 10; D 217767 10; D 267132 10; D 327687 10;
   D 40197 11; D 493091 10; D 604868 10; D 741983 10; D 91018 11; D 111651 11; D 13696 12; D 168007 11; D 206092 11; D 252811 11; D 310119 11;
   D 380419 11; D 466655 11; D 57244 12; D 702204 11; D 861384 11; D 105665 12; D 129618 12; D 159 15; D 195043 12; D 239257 12; D 293493 12;
   D 360025 12; D 441637 12; D 54175 13; D 664558 12; D 815204 12; D 1 18];
  [D 13073 5; D 160734 4; D 197625 4; D 242983 4; D 298751 4; D 367318 4; D 451623 4; D 555277 4; D 682721 4; D 839416 4; D 103207 5; D 126895 5;
   D 156019 5; D 191828 5; D 235855 5; D 289987 5; D 356543 5; D 438375 5; D 538988 5; D 662694 5; D 814792 5; D 10018 7; D 123172 6; D 151442 6;
   D 186201 6; D 228936 6; D 28148 7; D 346084 6; D 425515 6; D 523177 6; D 643254 6; D 79089 7; D 97241 7; D 119559 7; D 147 10; D 180738 7; D 22222 8;
   D 273223 7; D 335932 7; D 413033 7; D 50783 8; D 624384 7; D 767689 7; D 943885 7; D 116052 8; D 142688 8; D 175436 8; D 215702 8; D 265208 8;
   D 326077 8; D 400917 8; D 492933 8; D 606068 8; D 745169 8; D 916196 8; D 112648 9; D 138502 9; D 17029 10; D 209374 9; D 257428 9; D 316512 9;
   D 389156 9; D 478473 9; D 588289 9; D 72331 10; D 88932 10; D 109343 10; D 134439 10; D 165295 10; D 203232 10; D 249877 10; D 307227 10; D 37774 11;
   D 464437 10; D 571032 10; D 702092 10; D 863232 10; D 106136 11; D 130495 11; D 160446 11; D 19727 12; D 242547 11; D 298215 11; D 366659 11;
   D 450813 11; D 554281 11; D 681496 11; D 837909 11; D 103022 12; D 126667 12; D 155739 12; D 191483 12; D 235432 12; D 289467 12; D 355903 12;
   D 437588 12; D 538021 12; D 661505 12; D 813329 12; D 1 18];
  [D 104082 4; D 128265 4; D 158067 4; D 194794 4; D 240054 4; D 29583 5; D 364566 4; D 449273 4; D 55366 5; D 682303 4; D 840835 4; D 10362 6;
   D 127696 5; D 157366 5; D 19393 6; D 238989 5; D 294518 5; D 362949 5; D 44728 6; D 551205 5; D 679276 5; D 837105 5; D 103161 6; D 12713 7;
   D 156668 6; D 19307 7; D 237929 6; D 293212 6; D 361339 6; D 445296 6; D 54876 7; D 676264 6; D 833393 6; D 102703 7; D 126566 7; D 155973 7;
   D 192214 7; D 236874 7; D 291911 7; D 359737 7; D 443321 7; D 546326 7; D 673264 7; D 829696 7; D 102247 8; D 126005 8; D 155282 8; D 191361 8;
   D 235823 8; D 290617 8; D 358141 8; D 441355 8; D 543903 8; D 670278 8; D 826016 8; D 101794 9; D 125446 9; D 154593 9; D 190512 9; D 234778 9;
   D 289328 9; D 356553 9; D 439397 9; D 541491 9; D 667305 9; D 822353 9; D 101342 10; D 124889 10; D 153907 10; D 189667 10; D 233736 10; D 288044 10;
   D 354971 10; D 437448 10; D 539089 10; D 664345 10; D 818705 10; D 100893 11; D 124335 11; D 153225 11; D 188826 11; D 232699 11; D 286767 11;
   D 353397 11; D 435508 11; D 536698 11; D 661399 11; D 815074 11; D 100446 12; D 123784 12; D 152545 12; D 187989 12; D 231667 12; D 285495 12;
   D 351829 12; D 433576 12; D 534317 12; D 658465 12; D 811459 12; D 1 18];
  [D 828657 3; D 102355 4; D 126428 4; D 156162 4; D 19289 5; D 238255 4; D 294291 4; D 363505 4; D 448997 4; D 554596 4; D 685032 4; D 846144 4;
   D 104515 5; D 129096 5; D 159458 5; D 19696 6; D 243283 5; D 300501 5; D 371176 5; D 458472 5; D 5663 7; D 699488 5; D 864 8; D 10672 7; D 13182 7;
   D 162823 6; D 201117 6; D 248417 6; D 306842 6; D 379008 6; D 468147 6; D 578251 6; D 714249 6; D 882233 6; D 108972 7; D 134602 7; D 166259 7;
   D 205361 7; D 25366 8; D 313318 7; D 387007 7; D 478026 7; D 590453 7; D 729322 7; D 90085 8; D 111272 8; D 137442 8; D 169767 8; D 209694 8;
   D 259012 8; D 319929 8; D 395173 8; D 488114 8; D 602913 8; D 744712 8; D 919861 8; D 11362 10; D 140343 9; D 17335 10; D 21412 10; D 264478 9;
   D 326681 9; D 403513 9; D 498415 9; D 615637 9; D 760428 9; D 939273 9; D 116018 10; D 143304 10; D 177008 10; D 218638 10; D 27006 11; D 333575 10;
   D 412028 10; D 508933 10; D 628628 10; D 776475 10; D 959094 10; D 118466 11; D 146328 11; D 180743 11; D 223252 11; D 275759 11; D 340614 11;
   D 420723 11; D 519673 11; D 641894 11; D 792861 11; D 979333 11; D 120966 12; D 149416 12; D 184557 12; D 227963 12; D 281578 12; D 347802 12;
   D 429601 12; D 530639 12; D 65544 13; D 809592 12; D 1 18];
  [D 659743 3; D 816786 3; D 101121 4; D 125192 4; D 154992 4; D 191886 4; D 237562 4; D 29411 5; D 364119 4; D 450793 4; D 558098 4; D 690946 4;
   D 855417 4; D 105904 5; D 131113 5; D 162322 5; D 200961 5; D 248797 5; D 30802 6; D 381341 5; D 472114 5; D 584494 5; D 723625 5; D 895875 5;
   D 110913 6; D 137314 6; D 17 10; D 210466 6; D 260565 6; D 322588 6; D 399376 6; D 494443 6; D 612138 6; D 75785 7; D 938246 6; D 116158 7;
   D 143808 7; D 17804 8; D 22042 8; D 272888 7; D 337846 7; D 418265 7; D 517828 7; D 64109 8; D 793693 7; D 982622 7; D 121652 8; D 15061 9;
   D 186461 8; D 230845 8; D 285795 8; D 353824 8; D 438048 8; D 542319 8; D 671411 8; D 831232 8; D 10291 10; D 127406 9; D 157733 9; D 195279 9;
   D 241763 9; D 299312 9; D 370559 9; D 458766 9; D 567969 9; D 703166 9; D 870546 9; D 107777 10; D 133432 10; D 165193 10; D 204515 10; D 253198 10;
   D 313468 10; D 388085 10; D 480463 10; D 594831 10; D 736423 10; D 911719 10; D 112874 11; D 139742 11; D 173006 11; D 214188 11; D 265173 11;
   D 328294 11; D 40644 12; D 503187 11; D 622965 11; D 771253 11; D 95484 12; D 118213 12; D 146352 12; D 181189 12; D 224318 12; D 277714 12;
   D 343821 12; D 425663 12; D 526986 12; D 652428 12; D 80773 13; D 1 18];
  [D 525261 3; D 651791 3; D 808802 3; D 100363 4; D 12454 5; D 154541 4; D 191768 4; D 237963 4; D 295286 4; D 366418 4; D 454685 4; D 564215 4;
   D 700129 4; D 868783 4; D 107807 5; D 133776 5; D 166002 5; D 20599 6; D 255611 5; D 317185 5; D 393592 5; D 488405 5; D 606057 5; D 752051 5;
   D 933213 5; D 115802 6; D 143697 6; D 178312 6; D 221266 6; D 274567 6; D 340708 6; D 422782 6; D 524626 6; D 651003 6; D 807824 6; D 100242 7;
   D 12439 8; D 154354 7; D 191536 7; D 237676 7; D 29493 8; D 365975 7; D 454136 7; D 563533 7; D 699283 7; D 867733 7; D 107676 8; D 133614 8;
   D 165801 8; D 205741 8; D 255302 8; D 316802 8; D 393117 8; D 487815 8; D 605325 8; D 751142 8; D 932085 8; D 115662 9; D 143523 9; D 178097 9;
   D 220999 9; D 274235 9; D 340296 9; D 422271 9; D 523992 9; D 650217 9; D 806848 9; D 100121 10; D 124239 10; D 154167 10; D 191305 10; D 237388 10;
   D 294573 10; D 365533 10; D 453587 10; D 562852 10; D 698437 10; D 866685 10; D 107546 11; D 133453 11; D 165601 11; D 205492 11; D 254993 11;
   D 316419 11; D 392641 11; D 487225 11; D 604593 11; D 750234 11; D 930959 11; D 115522 12; D 14335 13; D 177882 12; D 220732 12; D 273904 12;
   D 339885 12; D 42176 13; D 523358 12; D 649431 12; D 805873 12; D 1 18];
  [D 418191 3; D 520126 3; D 646907 3; D 804592 3; D 100071 4; D 124464 4; D 154802 4; D 192535 4; D 239466 4; D 297836 4; D 370434 4; D 460728 4;
   D 573031 4; D 712708 4; D 886431 4; D 11025 6; D 137124 5; D 170548 5; D 212119 5; D 263823 5; D 32813 6; D 408113 5; D 507591 5; D 631317 5;
   D 785201 5; D 976595 5; D 121464 6; D 151071 6; D 187895 6; D 233695 6; D 290658 6; D 361506 6; D 449624 6; D 559221 6; D 695532 6; D 865068 6;
   D 107593 7; D 133819 7; D 166437 7; D 207007 7; D 257465 7; D 320223 7; D 398277 7; D 495358 7; D 616102 7; D 766278 7; D 953059 7; D 118537 8;
   D 14743 9; D 183367 8; D 228063 8; D 283653 8; D 352794 8; D 438788 8; D 545743 8; D 678769 8; D 84422 9; D 105 12; D 130594 9; D 162426 9;
   D 202018 9; D 25126 10; D 312505 9; D 388679 9; D 48342 10; D 601254 9; D 747811 9; D 93009 10; D 11568 11; D 143877 10; D 178948 10; D 222566 10;
   D 276817 10; D 344292 10; D 428213 10; D 532591 10; D 662411 10; D 823875 10; D 10247 12; D 127447 11; D 158512 11; D 197149 11; D 245205 11;
   D 304974 11; D 379312 11; D 471769 11; D 586764 11; D 729788 11; D 907675 11; D 112892 12; D 14041 13; D 174635 12; D 217203 12; D 270146 12;
   D 335994 12; D 417894 12; D 519756 12; D 646447 12; D 804019 12; D 1 18];
  [D 332947 3; D 415058 3; D 517419 3; D 645024 3; D 804098 3; D 10024 5; D 124962 4; D 155779 4; D 194197 4; D 24209 5; D 301794 4; D 376222 4;
   D 469005 4; D 584671 4; D 728862 4; D 908612 4; D 113269 5; D 141204 5; D 176027 5; D 219439 5; D 273556 5; D 34102 6; D 425122 5; D 529965 5;
   D 660664 5; D 823597 5; D 102671 6; D 127992 6; D 159557 6; D 198906 6; D 24796 7; D 309112 6; D 385345 6; D 480378 6; D 598848 6; D 746535 6;
   D 930645 6; D 116016 7; D 144628 7; D 180295 7; D 22476 8; D 28019 8; D 349289 7; D 435431 7; D 542816 7; D 676685 7; D 843568 7; D 105161 8;
   D 131095 8; D 163426 8; D 20373 9; D 253973 8; D 316608 8; D 394689 8; D 492027 8; D 613369 8; D 764638 8; D 953212 8; D 118829 9; D 148135 9;
   D 184667 9; D 23021 10; D 286984 9; D 357759 9; D 445989 9; D 555979 9; D 693093 9; D 864023 9; D 107711 10; D 134274 10; D 167389 10; D 20867 11;
   D 260132 10; D 324285 10; D 40426 11; D 503957 10; D 628243 10; D 783179 10; D 976326 10; D 121711 11; D 151727 11; D 189145 11; D 235792 11;
   D 293943 11; D 366434 11; D 456804 11; D 56946 12; D 7099 13; D 884974 11; D 110323 12; D 13753 13; D 171448 12; D 21373 13; D 266439 12;
   D 332148 12; D 414062 12; D 516178 12; D 643477 12; D 80217 13; D 1 18];
  [D 265079 3; D 331214 3; D 413849 3; D 517101 3; D 646114 3; D 807315 3; D 100873 4; D 12604 5; D 157487 4; D 196778 4; D 245873 4; D 307216 4;
   D 383864 4; D 479636 4; D 599301 4; D 748822 4; D 935647 4; D 116908 5; D 146076 5; D 182521 5; D 228059 5; D 284958 5; D 356052 5; D 444885 5;
   D 55588 6; D 694568 5; D 867857 5; D 108438 6; D 135493 6; D 169297 6; D 211535 6; D 264311 6; D 330255 6; D 412651 6; D 515605 6; D 644244 6;
   D 804978 6; D 100581 7; D 125676 7; D 157031 7; D 196209 7; D 245161 7; D 306327 7; D 382753 7; D 478247 7; D 597567 7; D 746655 7; D 932939 7;
   D 11657 9; D 145653 8; D 181993 8; D 227399 8; D 284133 8; D 355022 8; D 443597 8; D 554271 8; D 692557 8; D 865345 8; D 108124 9; D 1351 11;
   D 168807 9; D 210923 9; D 263547 9; D 329299 9; D 411457 9; D 514112 9; D 642379 9; D 802648 9; D 10029 11; D 125312 10; D 156576 10; D 195641 10;
   D 244452 10; D 305441 10; D 381646 10; D 476863 10; D 595837 10; D 744494 10; D 930239 10; D 116233 11; D 145232 11; D 181466 11; D 22674 12;
   D 28331 12; D 353994 11; D 442313 11; D 552667 11; D 690553 11; D 862841 11; D 107811 12; D 134709 12; D 168318 12; D 210312 12; D 262784 12;
   D 328346 12; D 410266 12; D 512624 12; D 64052 13; D 800325 12; D 1 18];
  [D 211045 3; D 264307 3; D 331011 3; D 414549 3; D 51917 4; D 650194 3; D 814285 3; D 101979 4; D 127715 4; D 159947 4; D 200314 4; D 250867 4;
   D 31418 5; D 39347 5; D 492771 4; D 617133 4; D 77288 5; D 967934 4; D 121221 5; D 151814 5; D 190128 5; D 238111 5; D 298204 5; D 373463 5;
   D 467715 5; D 585753 5; D 733581 5; D 918717 5; D 115058 6; D 144095 6; D 180461 6; D 226004 6; D 283041 6; D 354473 6; D 443932 6; D 555969 6;
   D 69628 7; D 872002 6; D 109207 7; D 136768 7; D 171285 7; D 214512 7; D 268649 7; D 336449 7; D 421359 7; D 527699 7; D 660876 7; D 827663 7;
   D 103654 8; D 129814 8; D 162575 8; D 203605 8; D 254989 8; D 319341 8; D 399934 8; D 500867 8; D 627272 8; D 785578 8; D 983836 8; D 123213 9;
   D 154309 9; D 193252 9; D 242023 9; D 303103 9; D 379598 9; D 475399 9; D 595376 9; D 745633 9; D 933811 9; D 116948 10; D 146462 10; D 183425 10;
   D 229717 10; D 287691 10; D 360297 10; D 451226 10; D 565103 10; D 707719 10; D 886328 10; D 111001 11; D 139015 11; D 174099 11; D 218036 11;
   D 273063 11; D 341976 11; D 428282 11; D 536369 11; D 671733 11; D 841261 11; D 105357 12; D 131946 12; D 165246 12; D 20695 13; D 259178 12;
   D 324588 12; D 406505 12; D 509095 12; D 637577 12; D 798484 12; D 1 18];
  [D 168025 3; D 210915 3; D 264754 3; D 332335 3; D 417166 3; D 523652 3; D 657319 3; D 825106 3; D 103572 4; D 13001 5; D 163196 4; D 204854 4;
   D 257145 4; D 322784 4; D 405177 4; D 508603 4; D 638428 4; D 801394 4; D 100596 5; D 126274 5; D 158506 5; D 198967 5; D 249755 5; D 313507 5;
   D 393533 5; D 493986 5; D 620081 5; D 778362 5; D 977047 5; D 122645 6; D 153951 6; D 193248 6; D 242577 6; D 304497 6; D 382223 6; D 479789 6;
   D 60226 7; D 755993 6; D 948967 6; D 11912 8; D 149527 7; D 187695 7; D 235606 7; D 295746 7; D 371238 7; D 466 10; D 584951 7; D 734266 7;
   D 921695 7; D 115697 8; D 145229 8; D 1823 10; D 228834 8; D 287247 8; D 360569 8; D 452608 8; D 56814 9; D 713164 8; D 895206 8; D 112372 9;
   D 141056 9; D 177061 9; D 222258 9; D 278991 9; D 350207 9; D 4396 11; D 551813 9; D 692668 9; D 869478 9; D 109142 10; D 137002 10; D 171973 10;
   D 21587 11; D 270973 10; D 340142 10; D 426967 10; D 535954 10; D 672761 10; D 84449 11; D 106005 11; D 133064 11; D 16703 12; D 209666 11;
   D 263186 11; D 330367 11; D 414696 11; D 520551 11; D 653427 11; D 82022 12; D 102959 12; D 12924 13; D 16223 13; D 203641 12; D 255622 12;
   D 320872 12; D 402778 12; D 505591 12; D 634648 12; D 796648 12; D 1 18];
  [D 133775 3; D 168309 3; D 211759 3; D 266425 3; D 335204 3; D 421738 3; D 530611 3; D 66759 4; D 839931 3; D 105676 4; D 132957 4; D 16728 5;
   D 210464 4; D 264796 4; D 333154 4; D 419159 4; D 527366 4; D 663507 4; D 834794 4; D 10503 6; D 132144 5; D 166257 5; D 209177 5; D 263177 5;
   D 331117 5; D 416595 5; D 524141 5; D 65945 6; D 829689 5; D 104388 6; D 131336 6; D 16524 7; D 207898 6; D 261567 6; D 329092 6; D 414048 6;
   D 520936 6; D 655417 6; D 824615 6; D 103749 7; D 130532 7; D 16423 8; D 206626 7; D 259968 7; D 327079 7; D 411516 7; D 51775 8; D 651409 7;
   D 819572 7; D 103115 8; D 129734 8; D 163225 8; D 205363 8; D 258378 8; D 325079 8; D 408999 8; D 514583 8; D 647425 8; D 81456 9; D 102484 9;
   D 128941 9; D 162227 9; D 204107 9; D 256798 9; D 323091 9; D 406498 9; D 511436 9; D 643465 9; D 809578 9; D 101857 10; D 128152 10; D 161235 10;
   D 202858 10; D 255227 10; D 321115 10; D 404012 10; D 508309 10; D 63953 11; D 804627 10; D 101234 11; D 127368 11; D 160249 11; D 201618 11;
   D 253666 11; D 319151 11; D 401541 11; D 5052 13; D 635619 11; D 799706 11; D 100615 12; D 12659 13; D 159269 12; D 200385 12; D 252115 12;
   D 317199 12; D 399085 12; D 50211 13; D 631732 12; D 794816 12; D 1 18];
  [D 106506 3; D 13431 4; D 169372 3; D 213587 3; D 269345 3; D 339659 3; D 428328 3; D 540144 3; D 681151 3; D 858968 3; D 108321 4; D 136598 4;
   D 172257 4; D 217226 4; D 273933 4; D 345445 4; D 435624 4; D 549346 4; D 692755 4; D 873601 4; D 110166 5; D 138925 5; D 175192 5; D 220926 5;
   D 2786 7; D 351329 5; D 443045 5; D 558704 5; D 704556 5; D 888482 5; D 112042 6; D 141292 6; D 178176 6; D 22469 7; D 283346 6; D 357314 6;
   D 450593 6; D 568221 6; D 716558 6; D 903618 6; D 113951 7; D 143698 7; D 181211 7; D 228517 7; D 288173 7; D 363401 7; D 458268 7; D 577901 7;
   D 728764 7; D 919011 7; D 115892 8; D 146146 8; D 184298 8; D 23241 9; D 293082 8; D 369592 8; D 466075 8; D 587746 8; D 741179 8; D 934666 8;
   D 117866 9; D 148636 9; D 187438 9; D 236369 9; D 298074 9; D 375888 9; D 474014 9; D 597758 9; D 753805 9; D 950588 9; D 119874 10; D 151168 10;
   D 190631 10; D 240396 10; D 303152 10; D 382291 10; D 482089 10; D 60794 11; D 766646 10; D 966781 10; D 121916 11; D 153743 11; D 193878 11;
   D 244491 11; D 308316 11; D 388803 11; D 490302 11; D 618297 11; D 779705 11; D 98325 12; D 123993 12; D 156362 12; D 197181 12; D 248656 12;
   D 313568 12; D 395426 12; D 498654 12; D 628829 12; D 792988 12; D 1 18];
  [D 847959 2; D 107179 3; D 13547 4; D 171228 3; D 216426 3; D 273554 3; D 345761 3; D 437029 3; D 552387 3; D 698196 3; D 882492 3; D 111544 4;
   D 140987 4; D 178202 4; D 22524 5; D 284694 4; D 359842 4; D 454827 4; D 574883 4; D 726629 4; D 918431 4; D 116086 5; D 146728 5; D 185459 5;
   D 234413 5; D 296288 5; D 374497 5; D 473349 5; D 598295 5; D 756221 5; D 955834 5; D 120814 6; D 152704 6; D 193012 6; D 243959 6; D 308355 6;
   D 389748 6; D 492626 6; D 62266 7; D 787018 6; D 99476 7; D 125734 7; D 158923 7; D 200872 7; D 253894 7; D 320912 7; D 40562 8; D 512688 7;
   D 648018 7; D 819069 7; D 103527 8; D 130854 8; D 165395 8; D 209052 8; D 264234 8; D 333981 8; D 422139 8; D 533567 8; D 674408 8; D 852426 8;
   D 107743 9; D 136183 9; D 17213 10; D 217566 9; D 274995 9; D 347583 9; D 439331 9; D 555297 9; D 701873 9; D 88714 10; D 112131 10; D 141729 10;
   D 17914 11; D 226426 10; D 286194 10; D 361738 10; D 457222 10; D 577911 10; D 730457 10; D 923269 10; D 116698 11; D 147501 11; D 186436 11;
   D 235647 11; D 297849 11; D 376469 11; D 475843 11; D 601446 11; D 760205 11; D 960869 11; D 12145 13; D 153508 12; D 194028 12; D 245244 12;
   D 309979 12; D 391801 12; D 495221 12; D 62594 13; D 791164 12; D 1 18];
  [D 67511 3; D 85528 3; D 108353 3; D 13727 4; D 173904 3; D 220314 3; D 279111 3; D 353598 3; D 447964 3; D 567515 3; D 71897 4; D 910845 3;
   D 115393 4; D 146188 4; D 185202 4; D 234627 4; D 297243 4; D 37657 5; D 477067 4; D 604384 4; D 765679 4; D 970019 4; D 122889 5; D 155685 5;
   D 197234 5; D 24987 6; D 316554 5; D 401034 5; D 50806 6; D 643649 5; D 815422 5; D 103304 6; D 130873 6; D 1658 8; D 210047 6; D 266103 6;
   D 33712 7; D 427088 6; D 541067 6; D 685464 6; D 868397 6; D 110015 7; D 139375 7; D 176571 7; D 223693 7; D 283391 7; D 359021 7; D 454835 7;
   D 576218 7; D 729996 7; D 924814 7; D 117162 8; D 14843 9; D 188042 8; D 238226 8; D 301802 8; D 382345 8; D 484383 8; D 613653 8; D 777421 8;
   D 984895 8; D 124774 9; D 158073 9; D 200258 9; D 253702 9; D 321409 9; D 407185 9; D 515852 9; D 65352 10; D 827928 9; D 104888 10; D 13288 11;
   D 168342 10; D 213269 10; D 270184 10; D 34229 11; D 433638 10; D 549365 10; D 695977 10; D 881715 10; D 111702 11; D 141513 11; D 179279 11;
   D 227124 11; D 287737 11; D 364527 11; D 46181 12; D 585055 11; D 741192 11; D 938997 11; D 118959 12; D 150706 12; D 190926 12; D 241879 12;
   D 306431 12; D 388209 12; D 491812 12; D 623064 12; D 789344 12; D 1 18];
  [D 537495 2; D 682509 2; D 866647 2; D 110046 3; D 139736 3; D 177436 3; D 225308 3; D 286095 3; D 363282 3; D 461293 3; D 585748 3; D 74378 4;
   D 944448 3; D 119925 4; D 152281 4; D 193365 4; D 245534 4; D 311778 4; D 395894 4; D 502705 4; D 638332 4; D 810551 4; D 102923 5; D 130692 5;
   D 165951 5; D 210724 5; D 267577 5; D 339767 5; D 431435 5; D 547834 5; D 695637 5; D 883316 5; D 112163 6; D 142424 6; D 180849 6; D 229642 6;
   D 291598 6; D 370269 6; D 470166 6; D 597014 6; D 758086 6; D 962613 6; D 122232 7; D 15521 8; D 197085 7; D 250257 7; D 317775 7; D 403509 7;
   D 512374 7; D 65061 8; D 826141 7; D 104903 8; D 133205 8; D 169143 8; D 214777 8; D 272723 8; D 346303 8; D 439733 8; D 558371 8; D 709017 8;
   D 900306 8; D 11432 10; D 145163 9; D 184328 9; D 234059 9; D 297206 9; D 377391 9; D 479209 9; D 608497 9; D 772667 9; D 981129 9; D 124583 10;
   D 158195 10; D 200875 10; D 255071 10; D 323887 10; D 41127 11; D 522229 10; D 663124 10; D 842031 10; D 106921 11; D 135767 11; D 172397 11;
   D 218908 11; D 277969 11; D 352963 11; D 448191 11; D 569111 11; D 722654 11; D 917623 11; D 116519 12; D 147956 12; D 187873 12; D 23856 13;
   D 302923 12; D 38465 13; D 488427 12; D 620202 12; D 787529 12; D 1 18];
  [D 427932 2; D 544639 2; D 693174 2; D 882217 2; D 112282 3; D 142903 3; D 181876 3; D 231478 3; D 294607 3; D 374953 3; D 477211 3; D 607357 3;
   D 772997 3; D 983811 3; D 125212 4; D 15936 5; D 202821 4; D 258134 4; D 328533 4; D 418132 4; D 532165 4; D 677299 4; D 862013 4; D 10971 6;
   D 139631 5; D 177711 5; D 226177 5; D 28786 6; D 366366 5; D 466282 5; D 593448 5; D 755294 5; D 961279 5; D 122344 6; D 15571 7; D 198176 6;
   D 252223 6; D 321009 6; D 408556 6; D 519978 6; D 661787 6; D 842271 6; D 107198 7; D 136433 7; D 173641 7; D 220997 7; D 281268 7; D 357976 7;
   D 455603 7; D 579857 7; D 737996 7; D 939264 7; D 119542 8; D 152144 8; D 193637 8; D 246446 8; D 313658 8; D 399199 8; D 508069 8; D 646631 8;
   D 822982 8; D 104743 9; D 133308 9; D 169664 9; D 215936 9; D 274826 9; D 349777 9; D 445169 9; D 566577 9; D 721095 9; D 917753 9; D 116804 10;
   D 14866 11; D 189202 10; D 240802 10; D 306474 10; D 390056 10; D 496433 10; D 631822 10; D 804134 10; D 102344 11; D 130255 11; D 165779 11;
   D 21099 12; D 268532 11; D 341767 11; D 434974 11; D 553601 11; D 70458 12; D 896735 11; D 114129 12; D 145255 12; D 184869 12; D 235287 12;
   D 299455 12; D 381123 12; D 485064 12; D 617352 12; D 785717 12; D 1 18];
  [D 340702 2; D 434619 2; D 554424 2; D 707254 2; D 902213 2; D 115091 3; D 146817 3; D 187288 3; D 238915 3; D 304773 3; D 388786 3; D 495957 3;
   D 632671 3; D 80707 4; D 102954 4; D 131334 4; D 167538 4; D 21372 5; D 272634 4; D 347787 4; D 443656 4; D 565953 4; D 721961 4; D 920974 4;
   D 117485 5; D 14987 6; D 191182 5; D 243883 5; D 311111 5; D 396871 5; D 50627 6; D 645827 5; D 823853 5; D 105095 6; D 134065 6; D 171021 6;
   D 218164 6; D 278303 6; D 355019 6; D 452882 6; D 577721 6; D 736974 6; D 940125 6; D 119928 7; D 152986 7; D 195158 7; D 248954 7; D 31758 8;
   D 405123 7; D 516798 7; D 659256 7; D 840984 7; D 107281 8; D 136853 8; D 174578 8; D 222701 8; D 28409 9; D 362401 8; D 462299 8; D 589734 8;
   D 752298 8; D 959674 8; D 122421 9; D 156168 9; D 199216 9; D 254131 9; D 324184 9; D 413547 9; D 527544 9; D 672965 9; D 858472 9; D 109511 10;
   D 139699 10; D 178208 10; D 227332 10; D 289997 10; D 369937 10; D 471912 10; D 601997 10; D 767942 10; D 979629 10; D 124967 11; D 159415 11;
   D 203359 11; D 259416 11; D 330925 11; D 422147 11; D 538514 11; D 686959 11; D 876323 11; D 111789 12; D 142604 12; D 181913 12; D 232059 12;
   D 296028 12; D 377629 12; D 481725 12; D 614515 12; D 78391 13; D 1 18];
  [D 271253 2; D 346823 2; D 443447 2; D 56699 3; D 724952 2; D 926921 2; D 118516 3; D 151534 3; D 193751 3; D 247729 3; D 316746 3; D 40499 4;
   D 517819 3; D 662082 3; D 846535 3; D 108238 4; D 138392 4; D 176948 4; D 226245 4; D 289276 4; D 369868 4; D 472912 4; D 604664 4; D 773121 4;
   D 98851 5; D 126391 5; D 161603 5; D 206624 5; D 264189 5; D 337792 5; D 431899 5; D 552225 5; D 706073 5; D 902783 5; D 115429 6; D 147588 6;
   D 188705 6; D 241278 6; D 308497 6; D 394443 6; D 504334 6; D 64484 7; D 82449 7; D 105419 7; D 134788 7; D 17234 8; D 220353 7; D 281743 7;
   D 360236 7; D 460596 7; D 588917 7; D 752988 7; D 962767 7; D 123099 8; D 157394 8; D 201244 8; D 257309 8; D 328995 8; D 420652 8; D 537844 8;
   D 687686 8; D 879273 8; D 112424 9; D 143744 9; D 183791 9; D 234995 9; D 300463 9; D 384172 9; D 4912 11; D 628047 9; D 803019 9; D 102674 10;
   D 131278 10; D 167852 10; D 214615 10; D 274406 10; D 350855 10; D 448602 10; D 573581 10; D 733379 10; D 937696 10; D 119893 11; D 153295 11;
   D 196003 11; D 250609 11; D 320427 11; D 409698 11; D 523838 11; D 669777 11; D 856375 11; D 109496 12; D 140001 12; D 179005 12; D 228875 12;
   D 292639 12; D 374167 12; D 478409 12; D 611692 12; D 782107 12; D 1 18];
  [D 215961 2; D 276763 2; D 354684 2; D 454544 2; D 582518 2; D 746522 2; D 956701 2; D 122605 3; D 157124 3; D 201362 3; D 258054 3; D 330708 3;
   D 423817 3; D 54314 4; D 696057 3; D 892028 3; D 114317 4; D 146503 4; D 18775 5; D 24061 5; D 308352 4; D 395167 4; D 506423 4; D 649004 4;
   D 831727 4; D 10659 6; D 136599 5; D 175058 5; D 224344 5; D 287507 5; D 368453 5; D 472189 5; D 605131 5; D 775503 5; D 993841 5; D 127365 6;
   D 163224 6; D 209179 6; D 268072 6; D 343546 6; D 440269 6; D 564224 6; D 723079 6; D 926657 6; D 118755 7; D 15219 8; D 195038 7; D 24995 8;
   D 320322 7; D 410507 7; D 526083 7; D 674199 7; D 864015 7; D 110727 8; D 141902 8; D 181854 8; D 233054 8; D 298668 8; D 382757 8; D 49052 9;
   D 628623 8; D 805608 8; D 103242 9; D 132309 9; D 16956 10; D 217299 9; D 278478 9; D 356882 9; D 457361 9; D 586128 9; D 751149 9; D 96263 10;
   D 123365 10; D 158098 10; D 20261 11; D 259653 10; D 332757 10; D 426443 10; D 546506 10; D 700371 10; D 897557 10; D 115026 11; D 147411 11;
   D 188913 11; D 242101 11; D 310263 11; D 397616 11; D 509562 11; D 653026 11; D 836882 11; D 10725 13; D 137446 12; D 176143 12; D 225735 12;
   D 289289 12; D 370737 12; D 475116 12; D 608882 12; D 780309 12; D 1 18];
  [D 171939 2; D 220856 2; D 283689 2; D 364398 2; D 468068 2; D 601233 2; D 772283 2; D 991996 2; D 127422 3; D 163673 3; D 210238 3; D 27005 4;
   D 346879 3; D 445565 3; D 572328 3; D 735155 3; D 944305 3; D 121296 4; D 155804 4; D 20013 5; D 257067 4; D 330202 4; D 424144 4; D 544813 4;
   D 699811 4; D 898906 4; D 115464 5; D 148314 5; D 190509 5; D 244708 5; D 314328 5; D 403753 5; D 51862 6; D 666167 5; D 855691 5; D 109913 6;
   D 141184 6; D 18135 7; D 232944 6; D 299216 6; D 384342 6; D 493687 6; D 634141 6; D 814553 6; D 104629 7; D 134396 7; D 172631 7; D 221745 7;
   D 284831 7; D 365865 7; D 469953 7; D 603654 7; D 775392 7; D 99599 8; D 127935 8; D 164332 8; D 211084 8; D 271137 8; D 348275 8; D 447359 8;
   D 574632 8; D 738114 8; D 948107 8; D 121784 9; D 156432 9; D 200936 9; D 258102 9; D 331532 9; D 425852 9; D 547006 9; D 702629 9; D 902526 9;
   D 115929 10; D 148911 10; D 191276 10; D 245694 10; D 315593 10; D 405379 10; D 520708 10; D 668849 10; D 859136 10; D 110356 11; D 141752 11;
   D 18208 12; D 233882 11; D 300421 11; D 38589 12; D 495675 11; D 636694 11; D 817832 11; D 10505 13; D 134937 12; D 173326 12; D 222638 12;
   D 285978 12; D 367338 12; D 471845 12; D 606084 12; D 778514 12; D 1 18];
  [D 136891 2; D 176242 2; D 226904 2; D 29213 3; D 376105 2; D 48422 3; D 623414 2; D 80262 3; D 103334 3; D 133038 3; D 171282 3; D 220518 3;
   D 283908 3; D 36552 4; D 470593 3; D 605869 3; D 780032 3; D 100426 4; D 129294 4; D 166461 4; D 214312 4; D 275918 4; D 355233 4; D 457349 4;
   D 588818 4; D 758079 4; D 975996 4; D 125656 5; D 161776 5; D 208281 5; D 268153 5; D 345236 5; D 444477 5; D 572247 5; D 736744 5; D 948529 5;
   D 122119 6; D 157224 6; D 202419 6; D 260606 6; D 33552 7; D 431968 6; D 556142 6; D 71601 7; D 921834 6; D 118682 7; D 152799 7; D 196722 7;
   D 253272 7; D 326077 7; D 419811 7; D 54049 8; D 695859 7; D 895891 7; D 115342 8; D 148499 8; D 191186 8; D 246144 8; D 3169 10; D 407997 8;
   D 525279 8; D 676276 8; D 870677 8; D 112096 9; D 144319 9; D 185805 9; D 239217 9; D 307982 9; D 396514 9; D 510496 9; D 657243 9; D 846174 9;
   D 108941 10; D 140258 10; D 180576 10; D 232484 10; D 299314 10; D 385355 10; D 496129 10; D 638746 10; D 82236 11; D 105875 11; D 13631 12;
   D 175494 11; D 225942 11; D 290891 11; D 37451 12; D 482166 11; D 62077 12; D 799216 11; D 102896 12; D 132474 12; D 170555 12; D 219583 12;
   D 282704 12; D 36397 13; D 468597 12; D 603299 12; D 776723 12; D 1 18];
  [D 108987 2; D 14064 3; D 181486 2; D 234194 2; D 30221 3; D 38998 3; D 503241 2; D 649396 2; D 837999 2; D 108138 3; D 139544 3; D 180071 3;
   D 232369 3; D 299855 3; D 386941 3; D 49932 4; D 644336 3; D 831469 3; D 107295 4; D 138456 4; D 178668 4; D 230558 4; D 297518 4; D 383926 4;
   D 495428 4; D 639314 4; D 824989 4; D 106459 5; D 137377 5; D 177276 5; D 228761 5; D 2952 7; D 380934 5; D 491568 5; D 634332 5; D 81856 6;
   D 105629 6; D 136307 6; D 175894 6; D 226979 6; D 292899 6; D 377965 6; D 487737 6; D 629389 6; D 812181 6; D 104806 7; D 135245 7; D 174523 7;
   D 22521 8; D 290617 7; D 37502 8; D 483936 7; D 624484 7; D 805851 7; D 103989 8; D 134191 8; D 173163 8; D 223455 8; D 288352 8; D 372097 8;
   D 480165 8; D 619617 8; D 799571 8; D 103179 9; D 133145 9; D 171814 9; D 221713 9; D 286105 9; D 369198 9; D 476423 9; D 614789 9; D 79334 10;
   D 102375 10; D 132107 10; D 170475 10; D 219985 10; D 283875 10; D 36632 11; D 47271 11; D 609998 10; D 787158 10; D 101577 11; D 131078 11;
   D 169146 11; D 218271 11; D 281663 11; D 363466 11; D 469026 11; D 605244 11; D 781024 11; D 100785 12; D 130056 12; D 167828 12; D 21657 13;
   D 279468 12; D 360633 12; D 465371 12; D 600527 12; D 774937 12; D 1 18];
  [D 86771 2; D 11223 3; D 145158 2; D 187748 2; D 242834 2; D 314082 2; D 406234 2; D 525424 2; D 679585 2; D 878976 2; D 113687 3; D 147043 3;
   D 190186 3; D 245987 3; D 31816 4; D 411508 3; D 532246 3; D 688408 3; D 890388 3; D 115163 4; D 148952 4; D 192655 4; D 24918 5; D 32229 5;
   D 416851 4; D 539156 4; D 697346 4; D 901948 4; D 116658 5; D 150886 5; D 195156 5; D 252416 5; D 326475 5; D 422263 5; D 546156 5; D 7064 7;
   D 913659 5; D 118173 6; D 152845 6; D 19769 7; D 255693 6; D 330713 6; D 427746 6; D 553247 6; D 715571 6; D 925521 6; D 119707 7; D 154829 7;
   D 200257 7; D 259012 7; D 335007 7; D 433299 7; D 56043 8; D 724861 7; D 937537 7; D 121261 8; D 15684 9; D 202857 8; D 262375 8; D 339357 8;
   D 438925 8; D 567706 8; D 734272 8; D 94971 9; D 122836 9; D 158876 9; D 20549 10; D 265782 9; D 343763 9; D 444623 9; D 575077 9; D 743806 9;
   D 96204 10; D 12443 11; D 160939 10; D 208158 10; D 269233 10; D 348226 10; D 450396 10; D 582543 10; D 753463 10; D 97453 11; D 126046 11;
   D 163028 11; D 210861 11; D 272728 11; D 352747 11; D 456244 11; D 590107 11; D 763245 11; D 987183 11; D 127682 12; D 165145 12; D 213599 12;
   D 276269 12; D 357327 12; D 462167 12; D 597768 12; D 773155 12; D 1 18];
  [D 690836 1; D 895588 1; D 116103 2; D 150514 2; D 195123 2; D 252955 2; D 327926 2; D 425118 2; D 551117 2; D 714459 2; D 926213 2; D 120073 3;
   D 15566 4; D 201795 3; D 261604 3; D 33914 4; D 439655 3; D 569962 3; D 738889 3; D 957884 3; D 124179 4; D 160983 4; D 208696 4; D 27055 5;
   D 350736 4; D 454689 4; D 589452 4; D 764155 4; D 990639 4; D 128425 5; D 166488 5; D 215832 5; D 279801 5; D 36273 6; D 470237 5; D 609608 5;
   D 790285 5; D 102451 6; D 132816 6; D 172181 6; D 223212 6; D 289369 6; D 375133 6; D 486317 6; D 630453 6; D 817309 6; D 105955 7; D 137358 7;
   D 178068 7; D 230845 7; D 299264 7; D 387961 7; D 502946 7; D 652011 7; D 845257 7; D 109578 8; D 142055 8; D 184157 8; D 238739 8; D 309497 8;
   D 401227 8; D 520144 8; D 674306 8; D 87416 9; D 113325 9; D 146912 9; D 190455 9; D 246902 9; D 32008 10; D 414947 9; D 53793 10; D 697364 9;
   D 904051 9; D 1172 12; D 151936 10; D 196967 10; D 255345 10; D 331025 10; D 429136 10; D 556325 10; D 72121 11; D 934965 10; D 121207 11;
   D 157131 11; D 203702 11; D 264077 11; D 342345 11; D 44381 12; D 575348 11; D 745872 11; D 966936 11; D 125352 12; D 162504 12; D 210668 12;
   D 273107 12; D 354051 12; D 458986 12; D 595022 12; D 771377 12; D 1 18];
  [D 550015 1; D 714675 1; D 928628 1; D 120663 2; D 156787 2; D 203724 2; D 264714 2; D 343962 2; D 446934 2; D 580734 2; D 754589 2; D 980493 2;
   D 127402 3; D 165543 3; D 215102 3; D 279498 3; D 363172 3; D 471895 3; D 613168 3; D 796733 3; D 103525 4; D 134518 4; D 174789 4; D 227116 4;
   D 295108 4; D 383455 4; D 498251 4; D 647413 4; D 841231 4; D 109307 5; D 142031 5; D 184551 5; D 2398 7; D 31159 6; D 404871 5; D 526078 5;
   D 683572 5; D 888214 5; D 115412 6; D 149963 6; D 194858 6; D 253193 6; D 328992 6; D 427483 6; D 55546 7; D 721749 6; D 937821 6; D 121858 7;
   D 158339 7; D 205741 7; D 267334 7; D 347366 7; D 451358 7; D 586482 7; D 762059 7; D 990198 7; D 128664 8; D 167182 8; D 217232 8; D 282265 8;
   D 366767 8; D 476567 8; D 619238 8; D 80462 9; D 10455 10; D 135849 9; D 176519 9; D 229364 9; D 298029 9; D 387251 9; D 503183 9; D 653822 9;
   D 849558 9; D 110389 10; D 143437 10; D 186378 10; D 242174 10; D 314674 10; D 408879 10; D 531286 10; D 690338 10; D 897006 10; D 116554 11;
   D 151448 11; D 196787 11; D 255699 11; D 332249 11; D 431715 11; D 560958 11; D 728894 11; D 947104 11; D 123064 12; D 159906 12; D 207777 12;
   D 26998 13; D 350805 12; D 455826 12; D 592288 12; D 769602 12; D 1 18];
  [D 4379 3; D 570307 1; D 742749 1; D 967332 1; D 125982 2; D 164075 2; D 213686 2; D 278298 2; D 362446 2; D 472038 2; D 614767 2; D 800653 2;
   D 104274 3; D 135804 3; D 176866 3; D 230345 3; D 299994 3; D 390702 3; D 508838 3; D 662694 3; D 863071 3; D 112404 4; D 146391 4; D 190655 4;
   D 248302 4; D 323381 4; D 421161 4; D 548506 4; D 714357 4; D 930355 4; D 121166 5; D 157803 5; D 205518 5; D 26766 6; D 348592 5; D 453994 5;
   D 591267 5; D 770048 5; D 100289 6; D 130613 6; D 170105 6; D 22154 7; D 288526 6; D 375767 6; D 489387 6; D 637362 6; D 83008 7; D 108107 7;
   D 140795 7; D 183367 7; D 238811 7; D 31102 8; D 405062 7; D 527539 7; D 68705 8; D 894792 7; D 116535 8; D 151771 8; D 197662 8; D 257428 8;
   D 335266 8; D 43664 9; D 568666 8; D 740612 8; D 964549 8; D 12562 10; D 163603 9; D 213071 9; D 277497 9; D 361404 9; D 47068 10; D 612999 9;
   D 79835 10; D 103974 10; D 135413 10; D 176357 10; D 229682 10; D 299131 10; D 389578 10; D 507374 10; D 660788 10; D 860588 10; D 11208 12;
   D 14597 12; D 190106 11; D 247588 11; D 322451 11; D 419949 11; D 546928 11; D 712302 11; D 927679 11; D 120818 12; D 157349 12; D 204927 12;
   D 26689 13; D 347589 12; D 452688 12; D 589567 12; D 767832 12; D 1 18];
  [D 348638 1; D 455102 1; D 594076 1; D 775489 1; D 10123 3; D 132143 2; D 172495 2; D 22517 3; D 29393 3; D 383687 2; D 500853 2; D 653799 2;
   D 85345 3; D 111407 3; D 145427 3; D 189836 3; D 247806 3; D 323479 3; D 422259 3; D 551205 3; D 719526 3; D 939248 3; D 122607 4; D 160047 4;
   D 20892 5; D 272718 4; D 355998 4; D 46471 5; D 606618 4; D 791861 4; D 103367 5; D 134932 5; D 176137 5; D 229923 5; D 300135 5; D 391787 5;
   D 511427 5; D 667602 5; D 871467 5; D 113759 6; D 148497 6; D 193844 6; D 253038 6; D 330308 6; D 431174 6; D 562842 6; D 734717 6; D 959077 6;
   D 125195 7; D 163426 7; D 213331 7; D 278476 7; D 363514 7; D 47452 8; D 619425 7; D 808578 7; D 105549 8; D 137781 8; D 179855 8; D 234778 8;
   D 306471 8; D 400059 8; D 522225 8; D 681696 8; D 889866 8; D 11616 10; D 151632 9; D 197936 9; D 25838 10; D 337281 9; D 440277 9; D 574724 9;
   D 750228 9; D 979325 9; D 127838 10; D 166876 10; D 217835 10; D 284355 10; D 371189 10; D 484538 10; D 632502 10; D 825649 10; D 107778 11;
   D 14069 12; D 183652 11; D 239734 11; D 312942 11; D 408505 11; D 53325 12; D 696088 11; D 908652 11; D 118613 12; D 154833 12; D 202115 12;
   D 263835 12; D 344402 12; D 449572 12; D 586858 12; D 766066 12; D 1 18];
  [D 277571 1; D 363169 1; D 475162 1; D 621692 1; D 813409 1; D 106425 2; D 139244 2; D 182184 2; D 238366 2; D 311873 2; D 408047 2; D 533881 2;
   D 698518 2; D 913927 2; D 119576 3; D 156451 3; D 204697 3; D 267822 3; D 350412 3; D 458472 3; D 599855 3; D 784838 3; D 102687 4; D 134353 4;
   D 175785 4; D 229993 4; D 300918 4; D 393715 4; D 515128 4; D 673983 4; D 881825 4; D 115376 5; D 150956 5; D 197507 5; D 258414 5; D 338104 5;
   D 442368 5; D 578785 5; D 757271 5; D 990797 5; D 129634 6; D 16961 7; D 221914 6; D 290348 6; D 379885 6; D 497034 6; D 650309 6; D 850851 6;
   D 111324 7; D 145653 7; D 19057 8; D 249338 7; D 326228 7; D 42683 8; D 558455 7; D 730671 7; D 955995 7; D 12508 9; D 163653 8; D 21412 9;
   D 28015 9; D 366542 8; D 479576 8; D 627467 8; D 820965 8; D 107413 9; D 140537 9; D 183876 9; D 24058 10; D 314769 9; D 411838 9; D 53884 10;
   D 705007 9; D 922416 9; D 120687 10; D 157904 10; D 206599 10; D 270309 10; D 353667 10; D 462731 10; D 605427 10; D 792128 10; D 10364 12;
   D 135601 11; D 177417 11; D 232129 11; D 303713 11; D 397372 11; D 519913 11; D 680243 11; D 890016 11; D 116448 12; D 152358 12; D 199342 12;
   D 260815 12; D 341244 12; D 446477 12; D 584161 12; D 764304 12; D 1 18];
  [D 220991 1; D 289807 1; D 380051 1; D 498397 1; D 653596 1; D 857122 1; D 112403 2; D 147404 2; D 193305 2; D 2535 4; D 332438 2; D 435958 2;
   D 571713 2; D 749741 2; D 983207 2; D 128937 3; D 169088 3; D 221741 3; D 29079 4; D 381341 3; D 500088 3; D 655813 3; D 86003 4; D 112784 4;
   D 147904 4; D 193961 4; D 25436 5; D 333566 4; D 437437 4; D 573652 4; D 752285 4; D 986543 4; D 129375 5; D 169661 5; D 222493 5; D 291777 5;
   D 382634 5; D 501785 5; D 658038 5; D 862948 5; D 113167 6; D 148406 6; D 194619 6; D 255223 6; D 334698 6; D 438921 6; D 575599 6; D 754837 6;
   D 98989 7; D 129814 7; D 170237 7; D 223248 7; D 292767 7; D 383933 7; D 503487 7; D 660271 7; D 865876 7; D 113551 8; D 14891 9; D 195279 8;
   D 256089 8; D 335833 8; D 44041 9; D 577552 8; D 757398 8; D 993249 8; D 130254 9; D 170815 9; D 224006 9; D 29376 10; D 385235 9; D 505196 9;
   D 662511 9; D 868814 9; D 113936 10; D 149415 10; D 195942 10; D 256957 10; D 336973 10; D 441904 10; D 579511 10; D 759968 10; D 996619 10;
   D 130696 11; D 171394 11; D 224766 11; D 294756 11; D 386542 11; D 50691 12; D 664759 11; D 871762 11; D 114322 12; D 149922 12; D 196607 12;
   D 257829 12; D 338116 12; D 443404 12; D 581477 12; D 762547 12; D 1 18];
  [D 175944 1; D 231264 1; D 303978 1; D 399554 1; D 525181 1; D 690308 1; D 907353 1; D 119264 2; D 156763 2; D 206052 2; D 270839 2; D 355995 2;
   D 467927 2; D 615051 2; D 808435 2; D 106262 3; D 139673 3; D 183589 3; D 241312 3; D 317185 3; D 416914 3; D 548 6; D 720301 3; D 946776 3;
   D 124446 4; D 163574 4; D 215005 4; D 282606 4; D 371463 4; D 488257 4; D 641774 4; D 84356 5; D 110879 5; D 145741 5; D 191565 5; D 251797 5;
   D 330966 5; D 435028 5; D 571809 5; D 751596 5; D 987912 5; D 129853 6; D 170681 6; D 224346 6; D 294885 6; D 387602 6; D 509471 6; D 669659 6;
   D 880211 6; D 115697 7; D 152074 7; D 199888 7; D 262737 7; D 345346 7; D 45393 8; D 596653 7; D 784252 7; D 103084 8; D 135495 8; D 178097 8;
   D 234094 8; D 307697 8; D 404443 8; D 531607 8; D 698754 8; D 918455 8; D 120723 9; D 158681 9; D 208573 9; D 274153 9; D 360351 9; D 473652 9;
   D 622577 9; D 818327 9; D 107562 10; D 141382 10; D 185835 10; D 244265 10; D 321066 10; D 422015 10; D 554705 10; D 729114 10; D 958361 10;
   D 125969 11; D 165576 11; D 217636 11; D 286064 11; D 376008 11; D 494232 11; D 649627 11; D 853882 11; D 112236 12; D 147525 12; D 193909 12;
   D 254878 12; D 335016 12; D 440351 12; D 578806 12; D 760793 12; D 1 18];
  [D 14008 2; D 184548 1; D 243132 1; D 320314 1; D 421997 1; D 555959 1; D 732447 1; D 964961 1; D 127129 2; D 167485 2; D 220653 2; D 2907 4;
   D 382982 2; D 504558 2; D 66473 3; D 875747 2; D 115375 3; D 152001 3; D 200253 3; D 263823 3; D 347573 3; D 45791 4; D 603273 3; D 794781 3;
   D 104708 4; D 137948 4; D 181739 4; D 239432 4; D 315439 4; D 415574 4; D 547498 4; D 7213 6; D 950276 4; D 125194 5; D 164937 5; D 217295 5;
   D 286275 5; D 377153 5; D 49688 6; D 654613 5; D 862419 5; D 113619 6; D 149687 6; D 197206 6; D 259808 6; D 342284 6; D 450941 6; D 594092 6;
   D 782685 6; D 103115 7; D 135848 7; D 178973 7; D 235788 7; D 310638 7; D 40925 8; D 539166 7; D 710323 7; D 935814 7; D 123289 8; D 162426 8;
   D 213988 8; D 281919 8; D 371413 8; D 489318 8; D 644651 8; D 849294 8; D 11189 10; D 147409 9; D 194204 9; D 255854 9; D 337075 9; D 444078 9;
   D 58505 10; D 770773 9; D 101545 10; D 133781 10; D 176249 10; D 232199 10; D 305911 10; D 403022 10; D 53096 11; D 699512 10; D 921571 10;
   D 121412 11; D 159954 11; D 210732 11; D 277628 11; D 365761 11; D 481871 11; D 63484 12; D 836369 11; D 110187 12; D 145166 12; D 191249 12;
   D 25196 13; D 331945 12; D 43732 13; D 576146 12; D 759043 12; D 1 18];
  [D 111526 1; D 147268 1; D 194465 1; D 256789 1; D 339085 1; D 447757 1; D 591257 1; D 780746 1; D 103096 2; D 136137 2; D 179767 2; D 23738 3;
   D 313457 2; D 413915 2; D 546569 2; D 721736 2; D 953042 2; D 125848 3; D 16618 4; D 219439 3; D 289765 3; D 382631 3; D 505259 3; D 667187 3;
   D 88101 4; D 116336 4; D 15362 5; D 202853 4; D 267865 4; D 353711 4; D 467071 4; D 61676 5; D 814422 4; D 107543 5; D 142009 5; D 187521 5;
   D 247619 5; D 326977 5; D 431769 5; D 570144 5; D 752867 5; D 99415 6; D 131276 6; D 173348 6; D 228904 6; D 302264 6; D 399135 6; D 527052 6;
   D 695964 6; D 919011 6; D 121354 7; D 160246 7; D 211603 7; D 279418 7; D 368968 7; D 487217 7; D 643362 7; D 849551 7; D 112182 8; D 148135 8;
   D 19561 9; D 2583 10; D 341081 8; D 450392 8; D 594736 8; D 785341 8; D 103703 9; D 136938 9; D 180825 9; D 238777 9; D 315301 9; D 416351 9;
   D 549785 9; D 725983 9; D 958651 9; D 126588 10; D 167158 10; D 22073 11; D 291471 10; D 384883 10; D 508232 10; D 671113 10; D 886194 10;
   D 117021 11; D 154524 11; D 204047 11; D 269441 11; D 355793 11; D 469819 11; D 620389 11; D 819215 11; D 108176 12; D 142845 12; D 188625 12;
   D 249076 12; D 328901 12; D 434309 12; D 573499 12; D 757297 12; D 1 18];
  [D 887922 0; D 117519 1; D 15554 2; D 205862 1; D 272464 1; D 360614 1; D 477283 1; D 631699 1; D 836072 1; D 110657 2; D 146457 2; D 19384 3;
   D 256553 2; D 339556 2; D 449412 2; D 594811 2; D 787249 2; D 104195 3; D 137905 3; D 182521 3; D 241572 3; D 319728 3; D 423169 3; D 560076 3;
   D 741278 3; D 981103 3; D 129852 4; D 171863 4; D 227465 4; D 301057 4; D 398458 4; D 527371 4; D 697991 4; D 923811 4; D 122269 5; D 161827 5;
   D 214182 5; D 283477 5; D 37519 6; D 496575 5; D 657231 5; D 869865 5; D 115129 6; D 152377 6; D 201675 6; D 266923 6; D 353281 6; D 467577 6;
   D 618852 6; D 819069 6; D 108406 7; D 143479 7; D 189898 7; D 251336 7; D 332651 7; D 440273 7; D 582714 7; D 77124 8; D 102076 8; D 1351 10;
   D 178809 8; D 236659 8; D 313226 8; D 414563 8; D 548687 8; D 726203 8; D 961151 8; D 127211 9; D 168368 9; D 22284 10; D 294935 9; D 390355 9;
   D 516646 9; D 683796 9; D 905024 9; D 119783 10; D 158536 10; D 209827 10; D 277712 10; D 36756 11; D 486476 10; D 643866 10; D 852175 10;
   D 112788 11; D 149278 11; D 197574 11; D 261495 11; D 346096 11; D 458069 11; D 606267 11; D 802413 11; D 106202 12; D 140561 12; D 186037 12;
   D 246225 12; D 325886 12; D 43132 13; D 570864 12; D 755556 12; D 1 18];
  [D 706927 0; D 937796 0; D 124406 1; D 165035 1; D 218932 1; D 290431 1; D 38528 2; D 511105 1; D 678022 1; D 89945 2; D 119319 2; D 158287 2;
   D 20998 3; D 278555 2; D 369526 2; D 490206 2; D 650298 2; D 862672 2; D 11444 4; D 151814 3; D 201394 3; D 267165 3; D 354416 3; D 470162 3;
   D 623707 3; D 827398 3; D 109761 4; D 145607 4; D 193159 4; D 256241 4; D 339924 4; D 450937 4; D 598204 4; D 793566 4; D 105273 5; D 139653 5;
   D 185261 5; D 245764 5; D 326025 5; D 432499 5; D 573744 5; D 761118 5; D 100968 6; D 133943 6; D 177686 6; D 235714 6; D 312694 6; D 414814 6;
   D 550284 6; D 729996 6; D 968399 6; D 128466 7; D 17042 8; D 226076 7; D 299908 7; D 397853 7; D 527783 7; D 700147 7; D 928802 7; D 123213 8;
   D 163452 8; D 216832 8; D 287645 8; D 381585 8; D 506203 8; D 671519 8; D 890823 8; D 118175 9; D 156768 9; D 207966 9; D 275884 9; D 365982 9;
   D 485504 9; D 644061 9; D 854398 9; D 113343 10; D 150358 10; D 199462 10; D 264603 10; D 351017 10; D 465652 10; D 617725 10; D 819462 10;
   D 108708 11; D 14421 12; D 191307 11; D 253783 11; D 336664 11; D 446612 11; D 592467 11; D 785955 11; D 104263 12; D 138314 12; D 183484 12;
   D 243406 12; D 322898 12; D 42835 13; D 568241 12; D 753818 12; D 1 18]].

(** y_nu_n, ParamTables.cxx:9137-11415, and y_nubar_n, 13677-15955, which is the same *)
Definition y_neutron : list (list decimal) := [
  [D 523654 11; D 53949 12; D 555805 11; D 572613 11; D 589929 11; D 60777 12; D 626149 11; D 645085 11; D 664593 11; D 684691 11; D 705397 11;
   D 726729 11; D 748707 11; D 771348 11; D 794675 11; D 818707 11; D 843466 11; D 868973 11; D 895252 11; D 922326 11; D 950218 11; D 978954 11;
   D 100856 12; D 103906 12; D 107048 12; D 110285 12; D 113621 12; D 117057 12; D 120597 12; D 124244 12; D 128001 12; D 131872 12; D 13586 13;
   D 139968 12; D 144201 12; D 148562 12; D 153055 12; D 157683 12; D 162452 12; D 167364 12; D 172426 12; D 17764 13; D 183012 12; D 188547 12;
   D 194249 12; D 200123 12; D 206175 12; D 21241 13; D 218833 12; D 225451 12; D 232269 12; D 239293 12; D 24653 13; D 253985 12; D 261666 12;
   D 269579 12; D 277732 12; D 286131 12; D 294784 12; D 303698 12; D 312882 12; D 322344 12; D 332092 12; D 342135 12; D 352482 12; D 363141 12;
   D 374123 12; D 385437 12; D 397093 12; D 409102 12; D 421474 12; D 43422 13; D 447351 12; D 460879 12; D 474817 12; D 489176 12; D 503969 12;
   D 51921 13; D 534912 12; D 551088 12; D 567754 12; D 584923 12; D 602612 12; D 620836 12; D 639611 12; D 658953 12; D 678881 12; D 699411 12;
   D 720562 12; D 742353 12; D 764803 12; D 787931 12; D 811759 12; D 836308 12; D 861599 12; D 887655 12; D 914499 12; D 942154 12; D 970646 12;
   D 1 18];
  [D 420756 11; D 434439 11; D 448568 11; D 463155 11; D 478217 11; D 493769 11; D 509827 11; D 526407 11; D 543526 11; D 561201 11; D 579452 11;
   D 598296 11; D 617753 11; D 637842 11; D 658585 11; D 680003 11; D 702117 11; D 72495 12; D 748526 11; D 772868 11; D 798002 11; D 823954 11;
   D 850749 11; D 878416 11; D 906982 11; D 936478 11; D 966933 11; D 998378 11; D 103085 12; D 106437 12; D 109898 12; D 113472 12; D 117162 12;
   D 120973 12; D 124907 12; D 128969 12; D 133163 12; D 137493 12; D 141965 12; D 146581 12; D 151348 12; D 15627 13; D 161352 12; D 1666 14;
   D 172017 12; D 177612 12; D 183388 12; D 189351 12; D 195509 12; D 201867 12; D 208432 12; D 21521 13; D 222209 12; D 229436 12; D 236897 12;
   D 244601 12; D 252555 12; D 260769 12; D 269249 12; D 278005 12; D 287046 12; D 296381 12; D 306019 12; D 315971 12; D 326247 12; D 336856 12;
   D 347811 12; D 359122 12; D 370801 12; D 38286 13; D 39531 13; D 408166 12; D 42144 13; D 435145 12; D 449296 12; D 463908 12; D 478994 12;
   D 494571 12; D 510655 12; D 527262 12; D 544409 12; D 562113 12; D 580393 12; D 599268 12; D 618757 12; D 638879 12; D 659655 12; D 681108 12;
   D 703258 12; D 726128 12; D 749742 12; D 774124 12; D 799299 12; D 825293 12; D 852131 12; D 879843 12; D 908456 12; D 938 15; D 968504 12; D 1 18];
  [D 337461 11; D 349213 11; D 361374 11; D 373958 11; D 386981 11; D 400457 11; D 414402 11; D 428833 11; D 443767 11; D 459221 11; D 475212 11;
   D 491761 11; D 508886 11; D 526608 11; D 544946 11; D 563923 11; D 583561 11; D 603883 11; D 624913 11; D 646674 11; D 669194 11; D 692498 11;
   D 716613 11; D 741569 11; D 767393 11; D 794117 11; D 821771 11; D 850388 11; D 880002 11; D 910647 11; D 942359 11; D 975176 11; D 100913 12;
   D 104428 12; D 108064 12; D 111827 12; D 115722 12; D 119752 12; D 123922 12; D 128237 12; D 132703 12; D 137324 12; D 142106 12; D 147055 12;
   D 152176 12; D 157475 12; D 162959 12; D 168634 12; D 174507 12; D 180584 12; D 186872 12; D 19338 13; D 200114 12; D 207083 12; D 214294 12;
   D 221757 12; D 229479 12; D 237471 12; D 24574 13; D 254298 12; D 263154 12; D 272318 12; D 281801 12; D 291614 12; D 301769 12; D 312278 12;
   D 323153 12; D 334406 12; D 346051 12; D 358102 12; D 370573 12; D 383478 12; D 396832 12; D 410651 12; D 424951 12; D 43975 13; D 455064 12;
   D 470911 12; D 48731 13; D 50428 13; D 521841 12; D 540013 12; D 558818 12; D 578279 12; D 598417 12; D 619256 12; D 640821 12; D 663136 12;
   D 686229 12; D 710126 12; D 734856 12; D 760446 12; D 786928 12; D 814332 12; D 84269 13; D 872036 12; D 902403 12; D 933829 12; D 966348 12; D 1 18];
  [D 270257 11; D 280296 11; D 290709 11; D 301508 11; D 312708 11; D 324325 11; D 336373 11; D 348868 11; D 361828 11; D 375269 11; D 389209 11;
   D 403667 11; D 418663 11; D 434215 11; D 450345 11; D 467075 11; D 484425 11; D 502421 11; D 521085 11; D 540442 11; D 560518 11; D 58134 12;
   D 602935 11; D 625333 11; D 648563 11; D 672656 11; D 697643 11; D 723559 11; D 750438 11; D 778315 11; D 807227 11; D 837214 11; D 868315 11;
   D 900571 11; D 934025 11; D 968722 11; D 100471 12; D 104203 12; D 108074 12; D 112089 12; D 116253 12; D 120571 12; D 12505 13; D 129695 12;
   D 134513 12; D 13951 13; D 144693 12; D 150068 12; D 155642 12; D 161424 12; D 167421 12; D 17364 13; D 18009 13; D 18678 13; D 193719 12;
   D 200915 12; D 208378 12; D 216119 12; D 224147 12; D 232474 12; D 24111 13; D 250067 12; D 259356 12; D 268991 12; D 278983 12; D 289347 12;
   D 300095 12; D 311243 12; D 322805 12; D 334796 12; D 347233 12; D 360132 12; D 37351 13; D 387386 12; D 401776 12; D 416701 12; D 432181 12;
   D 448235 12; D 464886 12; D 482156 12; D 500067 12; D 518643 12; D 537909 12; D 557892 12; D 578616 12; D 60011 13; D 622403 12; D 645524 12;
   D 669504 12; D 694374 12; D 720169 12; D 746921 12; D 774668 12; D 803445 12; D 833291 12; D 864246 12; D 896351 12; D 929648 12; D 964183 12;
   D 1 18];
  [D 21618 12; D 224717 11; D 233591 11; D 242815 11; D 252404 11; D 262371 11; D 272732 11; D 283502 11; D 294697 11; D 306335 11; D 318432 11;
   D 331006 11; D 344077 11; D 357665 11; D 371789 11; D 386471 11; D 401732 11; D 417596 11; D 434087 11; D 451229 11; D 469047 11; D 48757 12;
   D 506823 11; D 526838 11; D 547642 11; D 569268 11; D 591748 11; D 615116 11; D 639406 11; D 664656 11; D 690903 11; D 718186 11; D 746547 11;
   D 776028 11; D 806672 11; D 838527 11; D 87164 12; D 906061 11; D 941841 11; D 979033 11; D 101769 12; D 105788 12; D 109966 12; D 114308 12;
   D 118822 12; D 123514 12; D 128392 12; D 133462 12; D 138732 12; D 144211 12; D 149906 12; D 155825 12; D 161979 12; D 168375 12; D 175024 12;
   D 181936 12; D 18912 13; D 196589 12; D 204352 12; D 212421 12; D 22081 13; D 229529 12; D 238593 12; D 248015 12; D 257809 12; D 26799 13;
   D 278573 12; D 289573 12; D 301008 12; D 312895 12; D 325251 12; D 338095 12; D 351446 12; D 365325 12; D 379751 12; D 394747 12; D 410335 12;
   D 426539 12; D 443383 12; D 460892 12; D 479092 12; D 498011 12; D 517677 12; D 53812 13; D 55937 13; D 581459 12; D 604421 12; D 628289 12;
   D 6531 14; D 67889 13; D 705699 12; D 733567 12; D 762535 12; D 792647 12; D 823948 12; D 856485 12; D 890307 12; D 925465 12; D 962011 12; D 1 18];
  [D 17276 12; D 179989 11; D 187521 11; D 195368 11; D 203543 11; D 212061 11; D 220935 11; D 23018 12; D 239812 11; D 249847 11; D 260303 11;
   D 271195 11; D 282544 11; D 294367 11; D 306685 11; D 319519 11; D 332889 11; D 34682 12; D 361333 11; D 376453 11; D 392206 11; D 408619 11;
   D 425718 11; D 443532 11; D 462093 11; D 481429 11; D 501575 11; D 522564 11; D 544432 11; D 567214 11; D 59095 12; D 615679 11; D 641443 11;
   D 668285 11; D 69625 12; D 725385 11; D 75574 12; D 787365 11; D 820313 11; D 85464 12; D 890403 11; D 927663 11; D 966483 11; D 100693 12;
   D 104906 12; D 109296 12; D 11387 13; D 118635 12; D 123599 12; D 128771 12; D 13416 13; D 139774 12; D 145623 12; D 151717 12; D 158066 12;
   D 16468 13; D 171571 12; D 178751 12; D 186231 12; D 194024 12; D 202143 12; D 210602 12; D 219415 12; D 228597 12; D 238163 12; D 248129 12;
   D 258512 12; D 26933 13; D 2806 14; D 292342 12; D 304576 12; D 317321 12; D 3306 14; D 344434 12; D 358847 12; D 373864 12; D 389508 12;
   D 405808 12; D 422789 12; D 440482 12; D 458914 12; D 478118 12; D 498125 12; D 51897 13; D 540687 12; D 563313 12; D 586885 12; D 611444 12;
   D 637031 12; D 663688 12; D 691461 12; D 720396 12; D 750541 12; D 781949 12; D 81467 13; D 848761 12; D 884279 12; D 921282 12; D 959835 12; D 1 18];
  [D 137955 11; D 144055 11; D 150425 11; D 157076 11; D 164021 11; D 171274 11; D 178847 11; D 186755 11; D 195013 11; D 203635 11; D 212639 11;
   D 222042 11; D 23186 12; D 242112 11; D 252817 11; D 263995 11; D 275668 11; D 287857 11; D 300585 11; D 313876 11; D 327755 11; D 342247 11;
   D 35738 12; D 373182 11; D 389683 11; D 406913 11; D 424905 11; D 443693 11; D 463312 11; D 483798 11; D 505189 11; D 527527 11; D 550852 11;
   D 575209 11; D 600643 11; D 627201 11; D 654934 11; D 683893 11; D 714132 11; D 745708 11; D 778681 11; D 813111 11; D 849064 11; D 886607 11;
   D 925809 11; D 966745 11; D 100949 12; D 105413 12; D 110074 12; D 114941 12; D 120023 12; D 12533 13; D 130872 12; D 136658 12; D 142701 12;
   D 149011 12; D 155599 12; D 162479 12; D 169664 12; D 177166 12; D 184999 12; D 193179 12; D 201721 12; D 21064 13; D 219954 12; D 22968 13;
   D 239835 12; D 25044 13; D 261513 12; D 273077 12; D 285151 12; D 297759 12; D 310925 12; D 324673 12; D 339029 12; D 35402 13; D 369673 12;
   D 386019 12; D 403087 12; D 42091 13; D 439522 12; D 458956 12; D 479249 12; D 50044 13; D 522567 12; D 545673 12; D 569801 12; D 594996 12;
   D 621304 12; D 648776 12; D 677463 12; D 707418 12; D 738697 12; D 77136 13; D 805466 12; D 841081 12; D 878271 12; D 917105 12; D 957656 12; D 1 18];
  [D 110096 11; D 115226 11; D 120596 11; D 126215 11; D 132097 11; D 138252 11; D 144694 11; D 151437 11; D 158494 11; D 165879 11; D 173609 11;
   D 181699 11; D 190166 11; D 199027 11; D 208302 11; D 218008 11; D 228167 11; D 238799 11; D 249927 11; D 261573 11; D 273762 11; D 286519 11;
   D 29987 12; D 313844 11; D 328468 11; D 343774 11; D 359794 11; D 37656 12; D 394107 11; D 412471 11; D 431692 11; D 451808 11; D 472862 11;
   D 494896 11; D 517958 11; D 542094 11; D 567354 11; D 593792 11; D 621462 11; D 650421 11; D 68073 12; D 712451 11; D 74565 12; D 780396 11;
   D 816761 11; D 854821 11; D 894654 11; D 936344 11; D 979976 11; D 102564 12; D 107343 12; D 112346 12; D 117581 12; D 12306 13; D 128794 12;
   D 134796 12; D 141077 12; D 147651 12; D 154531 12; D 161732 12; D 169269 12; D 177156 12; D 185412 12; D 194051 12; D 203094 12; D 212558 12;
   D 222463 12; D 232829 12; D 243679 12; D 255034 12; D 266918 12; D 279356 12; D 292373 12; D 305997 12; D 320256 12; D 33518 13; D 350799 12;
   D 367145 12; D 384254 12; D 402159 12; D 420899 12; D 440513 12; D 46104 13; D 482524 12; D 505008 12; D 528541 12; D 55317 13; D 578947 12;
   D 605925 12; D 63416 13; D 663711 12; D 694639 12; D 727008 12; D 760886 12; D 796342 12; D 83345 13; D 872288 12; D 912935 12; D 955476 12; D 1 18];
  [D 8782 12; D 921223 10; D 966355 10; D 10137 12; D 106336 11; D 111546 11; D 11701 12; D 122743 11; D 128756 11; D 135064 11; D 141681 11;
   D 148622 11; D 155903 11; D 163541 11; D 171553 11; D 179958 11; D 188774 11; D 198022 11; D 207723 11; D 2179 13; D 228575 11; D 239773 11;
   D 25152 12; D 263842 11; D 276768 11; D 290327 11; D 304551 11; D 319471 11; D 335122 11; D 35154 12; D 368763 11; D 386829 11; D 40578 12;
   D 425659 11; D 446513 11; D 468388 11; D 491335 11; D 515406 11; D 540656 11; D 567143 11; D 594928 11; D 624074 11; D 654649 11; D 68672 12;
   D 720364 11; D 755655 11; D 792675 11; D 831509 11; D 872246 11; D 914978 11; D 959804 11; D 100683 12; D 105615 12; D 110789 12; D 116217 12;
   D 121911 12; D 127883 12; D 134148 12; D 14072 13; D 147614 12; D 154846 12; D 162432 12; D 17039 13; D 178738 12; D 187494 12; D 19668 13;
   D 206315 12; D 216423 12; D 227026 12; D 238148 12; D 249815 12; D 262054 12; D 274892 12; D 288359 12; D 302486 12; D 317305 12; D 33285 13;
   D 349157 12; D 366263 12; D 384206 12; D 403029 12; D 422774 12; D 443486 12; D 465213 12; D 488004 12; D 511912 12; D 536991 12; D 563298 12;
   D 590895 12; D 619844 12; D 65021 13; D 682065 12; D 71548 13; D 750532 12; D 787301 12; D 825872 12; D 866333 12; D 908775 12; D 953297 12; D 1 18];
  [D 700241 10; D 736228 10; D 774065 10; D 813847 10; D 855673 10; D 899649 10; D 945885 10; D 994497 10; D 104561 11; D 109934 11; D 115584 11;
   D 121525 11; D 12777 12; D 134337 11; D 141241 11; D 148499 11; D 156131 11; D 164155 11; D 172592 11; D 181462 11; D 190788 11; D 200593 11;
   D 210902 11; D 221741 11; D 233137 11; D 245119 11; D 257716 11; D 270961 11; D 284887 11; D 299528 11; D 314922 11; D 331107 11; D 348123 11;
   D 366014 11; D 384825 11; D 404602 11; D 425396 11; D 447259 11; D 470245 11; D 494412 11; D 519822 11; D 546537 11; D 574625 11; D 604157 11;
   D 635207 11; D 667852 11; D 702175 11; D 738262 11; D 776204 11; D 816096 11; D 858037 11; D 902135 11; D 948498 11; D 997245 11; D 10485 13;
   D 110238 12; D 115904 12; D 12186 13; D 128123 12; D 134708 12; D 141631 12; D 14891 13; D 156563 12; D 164609 12; D 173069 12; D 181963 12;
   D 191315 12; D 201147 12; D 211485 12; D 222354 12; D 233781 12; D 245796 12; D 258428 12; D 27171 13; D 285674 12; D 300356 12; D 315792 12;
   D 332021 12; D 349085 12; D 367026 12; D 385888 12; D 40572 13; D 426572 12; D 448495 12; D 471544 12; D 495778 12; D 521258 12; D 548047 12;
   D 576213 12; D 605826 12; D 636962 12; D 669697 12; D 704115 12; D 740302 12; D 778349 12; D 81835 13; D 860408 12; D 904627 12; D 951119 12; D 1 18];
  [D 558171 10; D 588203 10; D 619851 10; D 653202 10; D 688347 10; D 725383 10; D 764411 10; D 80554 11; D 848881 10; D 894554 10; D 942685 10;
   D 993406 10; D 104686 11; D 110318 11; D 116254 11; D 122509 11; D 1291 13; D 136046 11; D 143366 11; D 15108 12; D 159208 11; D 167774 11;
   D 176801 11; D 186314 11; D 196339 11; D 206902 11; D 218035 11; D 229766 11; D 242128 11; D 255156 11; D 268884 11; D 283351 11; D 298597 11;
   D 314662 11; D 331593 11; D 349434 11; D 368235 11; D 388047 11; D 408926 11; D 430928 11; D 454114 11; D 478547 11; D 504295 11; D 531428 11;
   D 560021 11; D 590152 11; D 621905 11; D 655366 11; D 690627 11; D 727786 11; D 766944 11; D 808209 11; D 851694 11; D 897519 11; D 945809 11;
   D 996697 11; D 105032 12; D 110684 12; D 116639 12; D 122914 12; D 129528 12; D 136497 12; D 143841 12; D 15158 13; D 159736 12; D 16833 13;
   D 177387 12; D 186931 12; D 196989 12; D 207588 12; D 218757 12; D 230527 12; D 24293 13; D 256001 12; D 269775 12; D 28429 13; D 299586 12;
   D 315705 12; D 332691 12; D 350592 12; D 369455 12; D 389333 12; D 410281 12; D 432356 12; D 455618 12; D 480132 12; D 505966 12; D 533189 12;
   D 561876 12; D 592108 12; D 623966 12; D 657538 12; D 692916 12; D 730198 12; D 769485 12; D 810887 12; D 854516 12; D 900493 12; D 948943 12;
   D 1 18];
  [D 444817 10; D 469826 10; D 496241 10; D 524141 10; D 55361 11; D 584736 10; D 617612 10; D 652336 10; D 689013 10; D 727751 10; D 768668 10;
   D 811885 10; D 857532 10; D 905745 10; D 956669 10; D 101046 11; D 106727 11; D 112727 11; D 119065 11; D 125759 11; D 13283 12; D 140298 11;
   D 148186 11; D 156518 11; D 165318 11; D 174612 11; D 18443 12; D 194799 11; D 205751 11; D 217319 11; D 229537 11; D 242443 11; D 256074 11;
   D 270471 11; D 285678 11; D 30174 12; D 318704 11; D 336623 11; D 355549 11; D 375539 11; D 396653 11; D 418954 11; D 442509 11; D 467389 11;
   D 493667 11; D 521422 11; D 550739 11; D 581703 11; D 614408 11; D 648952 11; D 685438 11; D 723976 11; D 76468 12; D 807673 11; D 853083 11;
   D 901046 11; D 951706 11; D 100521 12; D 106173 12; D 112142 12; D 118448 12; D 125107 12; D 132141 12; D 13957 13; D 147417 12; D 155706 12;
   D 16446 13; D 173707 12; D 183473 12; D 193788 12; D 204684 12; D 216192 12; D 228347 12; D 241185 12; D 254745 12; D 269068 12; D 284196 12;
   D 300174 12; D 317051 12; D 334877 12; D 353705 12; D 373591 12; D 394596 12; D 416781 12; D 440214 12; D 464964 12; D 491106 12; D 518718 12;
   D 547882 12; D 578685 12; D 611221 12; D 645586 12; D 681883 12; D 720221 12; D 760714 12; D 803484 12; D 848658 12; D 896372 12; D 946769 12;
   D 1 18];
  [D 354413 10; D 3752 12; D 397205 10; D 420501 10; D 445164 10; D 471273 10; D 498913 10; D 528174 10; D 559151 10; D 591946 10; D 626663 10;
   D 663417 10; D 702327 10; D 743518 10; D 787125 10; D 83329 11; D 882163 10; D 933902 10; D 988675 10; D 104666 11; D 110805 11; D 117303 11;
   D 124183 11; D 131467 11; D 139177 11; D 14734 12; D 155981 11; D 16513 12; D 174815 11; D 185068 11; D 195922 11; D 207413 11; D 219577 11;
   D 232456 11; D 246089 11; D 260522 11; D 275802 11; D 291978 11; D 309102 11; D 327231 11; D 346423 11; D 366741 11; D 38825 12; D 411021 11;
   D 435128 11; D 460648 11; D 487665 11; D 516267 11; D 546546 11; D 578601 11; D 612535 11; D 648461 11; D 686493 11; D 726756 11; D 76938 12;
   D 814504 11; D 862275 11; D 912847 11; D 966386 11; D 102306 12; D 108307 12; D 114659 12; D 121384 12; D 128503 12; D 13604 13; D 144018 12;
   D 152465 12; D 161407 12; D 170874 12; D 180895 12; D 191505 12; D 202737 12; D 214627 12; D 227215 12; D 240541 12; D 254649 12; D 269584 12;
   D 285395 12; D 302134 12; D 319854 12; D 338613 12; D 358473 12; D 379497 12; D 401755 12; D 425318 12; D 450263 12; D 476671 12; D 504627 12;
   D 534224 12; D 565556 12; D 598726 12; D 633841 12; D 671016 12; D 710371 12; D 752035 12; D 796142 12; D 842835 12; D 892268 12; D 944599 12;
   D 1 18];
  [D 282339 10; D 299586 10; D 317886 10; D 337303 10; D 357907 10; D 37977 11; D 402968 10; D 427583 10; D 453701 10; D 481415 10; D 510822 10;
   D 542025 10; D 575134 10; D 610265 10; D 647543 10; D 687097 10; D 729068 10; D 773602 10; D 820857 10; D 870998 10; D 924202 10; D 980656 10;
   D 104056 11; D 110412 11; D 117156 11; D 124313 11; D 131906 11; D 139964 11; D 148513 11; D 157585 11; D 167211 11; D 177425 11; D 188263 11;
   D 199763 11; D 211965 11; D 224913 11; D 238651 11; D 253229 11; D 268697 11; D 28511 12; D 302526 11; D 321006 11; D 340614 11; D 36142 12;
   D 383497 11; D 406922 11; D 431779 11; D 458154 11; D 48614 12; D 515835 11; D 547344 11; D 580778 11; D 616255 11; D 653898 11; D 693841 11;
   D 736223 11; D 781195 11; D 828913 11; D 879547 11; D 933273 11; D 990281 11; D 105077 12; D 111496 12; D 118306 12; D 125533 12; D 133201 12;
   D 141337 12; D 149971 12; D 159132 12; D 168852 12; D 179166 12; D 19011 13; D 201723 12; D 214045 12; D 22712 13; D 240993 12; D 255714 12;
   D 271334 12; D 287909 12; D 305495 12; D 324156 12; D 343957 12; D 364967 12; D 387261 12; D 410916 12; D 436017 12; D 46265 13; D 490911 12;
   D 520898 12; D 552716 12; D 586478 12; D 622303 12; D 660316 12; D 70065 13; D 743449 12; D 788862 12; D 837049 12; D 888179 12; D 942432 12; D 1 18];
  [D 224895 10; D 239181 10; D 254375 10; D 270534 10; D 28772 11; D 305997 10; D 325436 10; D 346109 10; D 368096 10; D 391479 10; D 416348 10;
   D 442796 10; D 470925 10; D 50084 11; D 532656 10; D 566493 10; D 602479 10; D 640752 10; D 681456 10; D 724745 10; D 770784 10; D 819748 10;
   D 871823 10; D 927205 10; D 986106 10; D 104875 11; D 111537 11; D 118622 11; D 126158 11; D 134172 11; D 142695 11; D 15176 12; D 161401 11;
   D 171654 11; D 182558 11; D 194155 11; D 206488 11; D 219606 11; D 233556 11; D 248393 11; D 264172 11; D 280953 11; D 298801 11; D 317782 11;
   D 337969 11; D 359439 11; D 382272 11; D 406556 11; D 432382 11; D 45985 12; D 489061 11; D 520129 11; D 55317 12; D 58831 12; D 625683 11;
   D 665429 11; D 707701 11; D 752657 11; D 80047 12; D 85132 12; D 9054 13; D 962915 11; D 102408 12; D 108914 12; D 115833 12; D 123191 12;
   D 131017 12; D 139339 12; D 148191 12; D 157605 12; D 167617 12; D 178264 12; D 189589 12; D 201632 12; D 214441 12; D 228063 12; D 242551 12;
   D 257959 12; D 274346 12; D 291774 12; D 310309 12; D 330021 12; D 350986 12; D 373282 12; D 396995 12; D 422214 12; D 449035 12; D 47756 13;
   D 507897 12; D 540161 12; D 574475 12; D 610968 12; D 64978 13; D 691057 12; D 734956 12; D 781644 12; D 831298 12; D 884107 12; D 940269 12; D 1 18];
  [D 17912 11; D 190937 10; D 203534 10; D 216961 10; D 231275 10; D 246533 10; D 262797 10; D 280134 10; D 298616 10; D 318316 10; D 339316 10;
   D 361702 10; D 385564 10; D 411001 10; D 438115 10; D 467019 10; D 497829 10; D 530673 10; D 565682 10; D 603002 10; D 642783 10; D 685189 10;
   D 730393 10; D 778579 10; D 829944 10; D 884697 10; D 943063 10; D 100528 11; D 10716 12; D 11423 12; D 121766 11; D 129799 11; D 138362 11;
   D 14749 12; D 15722 12; D 167593 11; D 178649 11; D 190435 11; D 202999 11; D 216391 11; D 230667 11; D 245884 11; D 262106 11; D 279398 11;
   D 29783 12; D 317479 11; D 338424 11; D 360751 11; D 38455 12; D 40992 12; D 436964 11; D 465791 11; D 496521 11; D 529277 11; D 564195 11;
   D 601416 11; D 641093 11; D 683388 11; D 728473 11; D 776532 11; D 827762 11; D 882371 11; D 940584 11; D 100264 12; D 106878 12; D 113929 12;
   D 121446 12; D 129458 12; D 137998 12; D 147102 12; D 156807 12; D 167152 12; D 178179 12; D 189934 12; D 202465 12; D 215822 12; D 23006 13;
   D 245238 12; D 261417 12; D 278663 12; D 297047 12; D 316644 12; D 337534 12; D 359802 12; D 383539 12; D 408842 12; D 435815 12; D 464566 12;
   D 495215 12; D 527886 12; D 562712 12; D 599835 12; D 639408 12; D 681591 12; D 726557 12; D 77449 13; D 825585 12; D 880051 12; D 93811 13; D 1 18];
  [D 142651 10; D 152412 10; D 162841 10; D 173984 10; D 185889 10; D 198609 10; D 212199 10; D 226719 10; D 242233 10; D 258808 10; D 276517 10;
   D 295439 10; D 315654 10; D 337254 10; D 360331 10; D 384987 10; D 41133 11; D 439476 10; D 469548 10; D 501678 10; D 536006 10; D 572683 10;
   D 611869 10; D 653738 10; D 698471 10; D 746265 10; D 797329 10; D 851887 10; D 910179 10; D 97246 11; D 1039 13; D 11101 12; D 118606 11;
   D 126722 11; D 135393 11; D 144657 11; D 154555 11; D 165131 11; D 176431 11; D 188503 11; D 201402 11; D 215183 11; D 229907 11; D 245639 11;
   D 262447 11; D 280406 11; D 299593 11; D 320093 11; D 341996 11; D 365397 11; D 3904 13; D 417114 11; D 445656 11; D 47615 12; D 508732 11;
   D 543543 11; D 580735 11; D 620473 11; D 66293 12; D 708292 11; D 756758 11; D 80854 12; D 863866 11; D 922977 11; D 986134 11; D 105361 12;
   D 112571 12; D 120273 12; D 128503 12; D 137296 12; D 146691 12; D 156729 12; D 167453 12; D 178911 12; D 191154 12; D 204234 12; D 218209 12;
   D 23314 13; D 249093 12; D 266138 12; D 284348 12; D 303805 12; D 324594 12; D 346805 12; D 370535 12; D 39589 13; D 422979 12; D 451922 12;
   D 482846 12; D 515885 12; D 551185 12; D 588901 12; D 629198 12; D 672252 12; D 718251 12; D 767399 12; D 81991 13; D 876013 12; D 935956 12; D 1 18];
  [D 1136 12; D 121653 10; D 130277 10; D 139512 10; D 149401 10; D 159992 10; D 171333 10; D 183479 10; D 196485 10; D 210413 10; D 225329 10;
   D 241301 10; D 258406 10; D 276724 10; D 29634 11; D 317347 10; D 339843 10; D 363933 10; D 389731 10; D 417358 10; D 446943 10; D 478626 10;
   D 512554 10; D 548888 10; D 587797 10; D 629464 10; D 674085 10; D 721868 10; D 773039 10; D 827838 10; D 886521 10; D 949364 10; D 101666 11;
   D 108873 11; D 116591 11; D 124855 11; D 133706 11; D 143184 11; D 153334 11; D 164203 11; D 175843 11; D 188308 11; D 201657 11; D 215952 11;
   D 23126 12; D 247653 11; D 265208 11; D 284008 11; D 304141 11; D 3257 13; D 348788 11; D 373513 11; D 39999 12; D 428344 11; D 458708 11;
   D 491224 11; D 526046 11; D 563336 11; D 603269 11; D 646033 11; D 691828 11; D 74087 12; D 793388 11; D 849628 11; D 909856 11; D 974353 11;
   D 104342 12; D 111739 12; D 11966 13; D 128142 12; D 137225 12; D 146953 12; D 15737 13; D 168525 12; D 180472 12; D 193265 12; D 206965 12;
   D 221636 12; D 237347 12; D 254172 12; D 272189 12; D 291484 12; D 312146 12; D 334273 12; D 357969 12; D 383344 12; D 410518 12; D 439619 12;
   D 470782 12; D 504154 12; D 539892 12; D 578164 12; D 619148 12; D 663038 12; D 710038 12; D 760371 12; D 814271 12; D 871992 12; D 933805 12;
   D 1 18];
  [D 904612 9; D 970969 9; D 104219 10; D 111864 10; D 12007 11; D 128877 10; D 138331 10; D 148478 10; D 159369 10; D 17106 11; D 183608 10;
   D 197076 10; D 211532 10; D 227049 10; D 243704 10; D 26158 11; D 280768 10; D 301363 10; D 323469 10; D 347197 10; D 372665 10; D 400001 10;
   D 429343 10; D 460837 10; D 494641 10; D 530924 10; D 56987 11; D 611671 10; D 65654 11; D 704699 10; D 756392 10; D 811876 10; D 871429 10;
   D 935352 10; D 100396 11; D 107761 11; D 115665 11; D 12415 12; D 133257 11; D 143032 11; D 153523 11; D 164785 11; D 176872 11; D 189847 11;
   D 203773 11; D 21872 12; D 234764 11; D 251985 11; D 270469 11; D 290309 11; D 311604 11; D 334461 11; D 358995 11; D 385328 11; D 413594 11;
   D 443932 11; D 476496 11; D 511449 11; D 548966 11; D 589234 11; D 632457 11; D 67885 12; D 728646 11; D 782094 11; D 839464 11; D 901041 11;
   D 967136 11; D 103808 12; D 111423 12; D 119596 12; D 128369 12; D 137785 12; D 147892 12; D 15874 13; D 170384 12; D 182883 12; D 196298 12;
   D 210697 12; D 226152 12; D 242741 12; D 260547 12; D 279659 12; D 300174 12; D 322192 12; D 345826 12; D 371194 12; D 398422 12; D 427648 12;
   D 459017 12; D 492688 12; D 528828 12; D 56762 13; D 609257 12; D 653948 12; D 701917 12; D 753406 12; D 80867 13; D 867989 12; D 931659 12; D 1 18];
  [D 720325 9; D 774944 9; D 833705 9; D 896922 9; D 964932 9; D 10381 11; D 111681 10; D 12015 11; D 12926 11; D 139062 10; D 149606 10; D 16095 11;
   D 173155 10; D 186284 10; D 200409 10; D 215606 10; D 231954 10; D 249543 10; D 268464 10; D 288821 10; D 310721 10; D 334282 10; D 35963 11;
   D 386899 10; D 416236 10; D 447798 10; D 481752 10; D 518282 10; D 557581 10; D 599861 10; D 645346 10; D 69428 11; D 746925 10; D 803561 10;
   D 864492 10; D 930043 10; D 100057 11; D 107643 11; D 115806 11; D 124587 11; D 134034 11; D 144197 11; D 155131 11; D 166894 11; D 179549 11;
   D 193163 11; D 20781 12; D 223568 11; D 24052 12; D 258758 11; D 278378 11; D 299487 11; D 322196 11; D 346626 11; D 37291 12; D 401186 11;
   D 431607 11; D 464334 11; D 499542 11; D 537421 11; D 578171 11; D 622012 11; D 669177 11; D 719918 11; D 774507 11; D 833235 11; D 896416 11;
   D 964388 11; D 103751 12; D 111618 12; D 120082 12; D 129187 12; D 138983 12; D 149522 12; D 160859 12; D 173057 12; D 186179 12; D 200296 12;
   D 215484 12; D 231823 12; D 249402 12; D 268313 12; D 288658 12; D 310546 12; D 334093 12; D 359426 12; D 38668 13; D 416001 12; D 447545 12;
   D 48148 13; D 517989 12; D 557266 12; D 599522 12; D 644981 12; D 693888 12; D 746503 12; D 803107 12; D 864004 12; D 929518 12; D 1 18];
  [D 573562 9; D 618475 9; D 666905 9; D 719127 9; D 775438 9; D 836159 9; D 901634 9; D 972236 9; D 104837 10; D 113046 10; D 121898 10; D 131443 10;
   D 141736 10; D 152835 10; D 164802 10; D 177707 10; D 191622 10; D 206627 10; D 222807 10; D 240254 10; D 259067 10; D 279354 10; D 301229 10;
   D 324816 10; D 350251 10; D 377677 10; D 407251 10; D 439141 10; D 473528 10; D 510608 10; D 550591 10; D 593705 10; D 640195 10; D 690325 10;
   D 744381 10; D 80267 11; D 865523 10; D 933298 10; D 100638 11; D 108518 11; D 117016 11; D 126179 11; D 136059 11; D 146713 11; D 158202 11;
   D 17059 12; D 183948 11; D 198352 11; D 213884 11; D 230632 11; D 248692 11; D 268165 11; D 289164 11; D 311807 11; D 336223 11; D 362551 11;
   D 390941 11; D 421553 11; D 454563 11; D 490157 11; D 528539 11; D 569926 11; D 614555 11; D 662677 11; D 714568 11; D 770522 11; D 830858 11;
   D 895918 11; D 966073 11; D 104172 12; D 112329 12; D 121125 12; D 13061 13; D 140837 12; D 151866 12; D 163758 12; D 176581 12; D 190408 12;
   D 205318 12; D 221395 12; D 238731 12; D 257425 12; D 277583 12; D 299319 12; D 322757 12; D 348031 12; D 375283 12; D 40467 13; D 436357 12;
   D 470526 12; D 507371 12; D 547101 12; D 589941 12; D 636137 12; D 685949 12; D 739662 12; D 797582 12; D 860036 12; D 927381 12; D 1 18];
  [D 456691 9; D 493587 9; D 533463 9; D 576562 9; D 623142 9; D 673485 9; D 727896 9; D 786702 9; D 85026 10; D 918952 9; D 993194 9; D 107343 10;
   D 116016 10; D 125388 10; D 135519 10; D 146467 10; D 1583 12; D 171089 10; D 184911 10; D 19985 11; D 215996 10; D 233446 10; D 252306 10;
   D 27269 11; D 294721 10; D 318531 10; D 344265 10; D 372078 10; D 402138 10; D 434627 10; D 46974 11; D 507691 10; D 548707 10; D 593037 10;
   D 640948 10; D 69273 11; D 748695 10; D 809182 10; D 874556 10; D 945211 10; D 102157 11; D 110411 11; D 119331 11; D 128971 11; D 139391 11;
   D 150652 11; D 162823 11; D 175978 11; D 190195 11; D 205561 11; D 222168 11; D 240117 11; D 259516 11; D 280482 11; D 303142 11; D 327633 11;
   D 354102 11; D 38271 12; D 413629 11; D 447046 11; D 483163 11; D 522197 11; D 564386 11; D 609982 11; D 659262 11; D 712524 11; D 770089 11;
   D 832304 11; D 899545 11; D 972219 11; D 105076 12; D 113566 12; D 12274 13; D 132657 12; D 143374 12; D 154957 12; D 167476 12; D 181006 12;
   D 19563 13; D 211435 12; D 228516 12; D 246978 12; D 266931 12; D 288497 12; D 311804 12; D 336995 12; D 364221 12; D 393646 12; D 425448 12;
   D 45982 13; D 496969 12; D 537119 12; D 580513 12; D 627412 12; D 6781 14; D 732884 12; D 792093 12; D 856086 12; D 925249 12; D 1 18];
  [D 363626 9; D 393909 9; D 426714 9; D 462251 9; D 500747 9; D 54245 10; D 587625 9; D 636563 9; D 689576 9; D 747004 9; D 809215 9; D 876606 9;
   D 94961 10; D 102869 10; D 111436 10; D 120717 10; D 13077 11; D 141661 10; D 153458 10; D 166238 10; D 180083 10; D 19508 11; D 211327 10;
   D 228926 10; D 247991 10; D 268644 10; D 291016 10; D 315252 10; D 341507 10; D 369947 10; D 400757 10; D 434132 10; D 470287 10; D 509452 10;
   D 55188 11; D 59784 11; D 647629 10; D 701563 10; D 75999 11; D 823282 10; D 891845 10; D 966118 10; D 104658 11; D 113374 11; D 122815 11;
   D 133044 11; D 144123 11; D 156126 11; D 169128 11; D 183213 11; D 198471 11; D 215 14; D 232905 11; D 252302 11; D 273314 11; D 296075 11;
   D 320733 11; D 347443 11; D 376379 11; D 407723 11; D 441679 11; D 478462 11; D 518308 11; D 561473 11; D 608233 11; D 658887 11; D 713759 11;
   D 773201 11; D 837594 11; D 907349 11; D 982913 11; D 106477 12; D 115344 12; D 12495 13; D 135356 12; D 146629 12; D 15884 13; D 172068 12;
   D 186398 12; D 201922 12; D 218738 12; D 236954 12; D 256688 12; D 278065 12; D 301222 12; D 326308 12; D 353483 12; D 382921 12; D 414811 12;
   D 449357 12; D 48678 13; D 527319 12; D 571234 12; D 618806 12; D 670341 12; D 726167 12; D 786643 12; D 852154 12; D 923122 12; D 1 18];
  [D 289522 9; D 314356 9; D 341321 9; D 370598 9; D 402387 9; D 436902 9; D 474378 9; D 515069 9; D 55925 10; D 607221 9; D 659306 9; D 71586 10;
   D 777264 9; D 843935 9; D 916325 9; D 994925 9; D 108027 10; D 117293 10; D 127354 10; D 138278 10; D 150139 10; D 163017 10; D 177 13; D 192183 10;
   D 208668 10; D 226567 10; D 246001 10; D 267102 10; D 290013 10; D 31489 11; D 3419 12; D 371227 10; D 40307 11; D 437644 10; D 475184 10;
   D 515943 10; D 560199 10; D 608252 10; D 660426 10; D 717075 10; D 778583 10; D 845368 10; D 917881 10; D 996614 10; D 10821 12; D 117492 11;
   D 12757 12; D 138513 11; D 150394 11; D 163294 11; D 177301 11; D 192509 11; D 209022 11; D 226951 11; D 246419 11; D 267556 11; D 290506 11;
   D 315424 11; D 34248 12; D 371857 11; D 403754 11; D 438387 11; D 47599 12; D 516819 11; D 56115 12; D 609284 11; D 661547 11; D 718292 11;
   D 779905 11; D 846803 11; D 919439 11; D 998305 11; D 108394 12; D 117691 12; D 127787 12; D 138748 12; D 150649 12; D 163571 12; D 177602 12;
   D 192836 12; D 209377 12; D 227337 12; D 246837 12; D 26801 13; D 290999 12; D 31596 13; D 343062 12; D 372489 12; D 404439 12; D 439131 12;
   D 476798 12; D 517697 12; D 562103 12; D 610318 12; D 66267 13; D 719511 12; D 781229 12; D 84824 13; D 921 15; D 1 18];
  [D 230517 9; D 250866 9; D 273013 9; D 297114 9; D 323343 9; D 351888 9; D 382952 9; D 416759 9; D 45355 10; D 493589 9; D 537163 9; D 584583 9;
   D 63619 10; D 692352 9; D 753473 9; D 819989 9; D 892377 9; D 971155 9; D 105689 10; D 115019 10; D 125173 10; D 136223 10; D 148249 10; D 161336 10;
   D 175579 10; D 191078 10; D 207947 10; D 226304 10; D 246282 10; D 268024 10; D 291685 10; D 317434 10; D 345457 10; D 375954 10; D 409143 10;
   D 445262 10; D 484569 10; D 527347 10; D 573901 10; D 624564 10; D 6797 12; D 739704 10; D 805004 10; D 87607 11; D 953408 10; D 103757 11;
   D 112917 11; D 122885 11; D 133734 11; D 14554 12; D 158388 11; D 17237 12; D 187587 11; D 204147 11; D 222169 11; D 241782 11; D 263126 11;
   D 286354 11; D 311634 11; D 339144 11; D 369084 11; D 401666 11; D 437125 11; D 475714 11; D 51771 12; D 563413 11; D 613151 11; D 667279 11;
   D 726186 11; D 790294 11; D 86006 12; D 935986 11; D 101861 12; D 110854 12; D 12064 13; D 13129 13; D 14288 13; D 155493 12; D 16922 13;
   D 184159 12; D 200416 12; D 218109 12; D 237363 12; D 258318 12; D 281122 12; D 305939 12; D 332947 12; D 362339 12; D 394326 12; D 429137 12;
   D 467021 12; D 508249 12; D 553117 12; D 601946 12; D 655086 12; D 712916 12; D 775852 12; D 844344 12; D 918882 12; D 1 18];
  [D 183535 9; D 200198 9; D 218373 9; D 238199 9; D 259824 9; D 283413 9; D 309143 9; D 33721 10; D 367824 9; D 401218 9; D 437644 9; D 477377 9;
   D 520716 9; D 567991 9; D 619558 9; D 675806 9; D 737161 9; D 804086 9; D 877087 9; D 956715 9; D 104357 10; D 113832 10; D 124166 10; D 135439 10;
   D 147735 10; D 161148 10; D 175778 10; D 191736 10; D 209144 10; D 228131 10; D 248843 10; D 271435 10; D 296078 10; D 322958 10; D 352278 10;
   D 384261 10; D 419147 10; D 4572 12; D 498709 10; D 543985 10; D 593372 10; D 647243 10; D 706005 10; D 770101 10; D 840017 10; D 91628 11;
   D 999467 10; D 109021 11; D 118918 11; D 129715 11; D 141491 11; D 154337 11; D 168349 11; D 183633 11; D 200304 11; D 218489 11; D 238326 11;
   D 259963 11; D 283564 11; D 309308 11; D 33739 12; D 36802 12; D 401432 11; D 437877 11; D 477631 11; D 520994 11; D 568294 11; D 619888 11;
   D 676166 11; D 737554 11; D 804514 11; D 877554 11; D 957225 11; D 104413 12; D 113892 12; D 124232 12; D 135511 12; D 147814 12; D 161234 12;
   D 175872 12; D 191839 12; D 209255 12; D 228253 12; D 248975 12; D 271579 12; D 296235 12; D 32313 13; D 352466 12; D 384466 12; D 41937 13;
   D 457444 12; D 498974 12; D 544275 12; D 593689 12; D 647588 12; D 706381 12; D 770512 12; D 840465 12; D 916769 12; D 1 18];
  [D 146127 9; D 159761 9; D 174667 9; D 190964 9; D 208782 9; D 228261 9; D 249558 9; D 272843 9; D 298299 9; D 326131 9; D 35656 10; D 389828 9;
   D 426199 9; D 465965 9; D 50944 10; D 556972 9; D 608938 9; D 665753 9; D 727869 9; D 795781 9; D 870029 9; D 951204 9; D 103995 10; D 113698 10;
   D 124306 10; D 135905 10; D 148585 10; D 162448 10; D 177605 10; D 194175 10; D 212292 10; D 2321 12; D 253755 10; D 277431 10; D 303316 10;
   D 331615 10; D 362556 10; D 396383 10; D 433366 10; D 4738 12; D 518006 10; D 566337 10; D 619178 10; D 676948 10; D 740109 10; D 809162 10;
   D 884658 10; D 967199 10; D 105744 11; D 11561 12; D 126397 11; D 13819 12; D 151083 11; D 16518 12; D 180591 11; D 197441 11; D 215862 11;
   D 236002 11; D 258022 11; D 282096 11; D 308416 11; D 337192 11; D 368652 11; D 403048 11; D 440653 11; D 481767 11; D 526717 11; D 575861 11;
   D 629589 11; D 688331 11; D 752554 11; D 822769 11; D 899534 11; D 983463 11; D 107522 12; D 117554 12; D 128522 12; D 140514 12; D 153624 12;
   D 167957 12; D 183628 12; D 200761 12; D 219492 12; D 239971 12; D 262361 12; D 286839 12; D 313602 12; D 342862 12; D 374851 12; D 409826 12;
   D 448063 12; D 489868 12; D 535574 12; D 585544 12; D 640176 12; D 699906 12; D 765208 12; D 836604 12; D 91466 13; D 1 18];
  [D 116344 9; D 127492 9; D 139708 9; D 153095 9; D 167765 9; D 183841 9; D 201457 9; D 220761 9; D 241915 9; D 265095 9; D 290497 9; D 318333 9;
   D 348837 9; D 382263 9; D 418892 9; D 459031 9; D 503016 9; D 551216 9; D 604035 9; D 661914 9; D 72534 10; D 794844 9; D 871007 9; D 954469 9;
   D 104593 10; D 114615 10; D 125598 10; D 137633 10; D 150821 10; D 165273 10; D 18111 11; D 198464 10; D 217481 10; D 238321 10; D 261157 10;
   D 286181 10; D 313604 10; D 343654 10; D 376584 10; D 412669 10; D 452211 10; D 495543 10; D 543027 10; D 595061 10; D 652081 10; D 714564 10;
   D 783035 10; D 858067 10; D 940289 10; D 103039 11; D 112912 11; D 123732 11; D 135588 11; D 14858 12; D 162817 11; D 178419 11; D 195515 11;
   D 21425 12; D 23478 12; D 257277 11; D 28193 12; D 308945 11; D 338548 11; D 370989 11; D 406538 11; D 445493 11; D 488181 11; D 534959 11;
   D 58622 12; D 642393 11; D 703948 11; D 771402 11; D 845319 11; D 926319 11; D 101508 12; D 111235 12; D 121893 12; D 133574 12; D 146373 12;
   D 160399 12; D 175768 12; D 192611 12; D 211067 12; D 231292 12; D 253455 12; D 277741 12; D 304355 12; D 333519 12; D 365477 12; D 400498 12;
   D 438874 12; D 480928 12; D 527012 12; D 577511 12; D 632849 12; D 69349 13; D 759941 12; D 83276 13; D 912557 12; D 1 18];
  [D 926298 8; D 10174 10; D 111746 9; D 122736 9; D 134806 9; D 148064 9; D 162626 9; D 17862 10; D 196187 9; D 215481 9; D 236673 9; D 25995 10;
   D 285515 9; D 313595 9; D 344436 9; D 378311 9; D 415517 9; D 456382 9; D 501266 9; D 550565 9; D 604712 9; D 664184 9; D 729505 9; D 80125 10;
   D 880051 9; D 966602 9; D 106167 10; D 116608 10; D 128076 10; D 140672 10; D 154507 10; D 169702 10; D 186392 10; D 204723 10; D 224857 10;
   D 246971 10; D 271261 10; D 297938 10; D 32724 11; D 359423 10; D 394772 10; D 433597 10; D 47624 11; D 523077 10; D 574521 10; D 631024 10;
   D 693084 10; D 761247 10; D 836114 10; D 918344 10; D 100866 11; D 110786 11; D 121682 11; D 133649 11; D 146793 11; D 16123 12; D 177086 11;
   D 194502 11; D 213631 11; D 234641 11; D 257718 11; D 283064 11; D 310902 11; D 341479 11; D 375063 11; D 411949 11; D 452463 11; D 496962 11;
   D 545837 11; D 599519 11; D 658481 11; D 723241 11; D 79437 12; D 872495 11; D 958303 11; D 105255 12; D 115607 12; D 126976 12; D 139464 12;
   D 15318 13; D 168245 12; D 184791 12; D 202965 12; D 222927 12; D 244851 12; D 268931 12; D 29538 13; D 32443 13; D 356337 12; D 391382 12;
   D 429874 12; D 472151 12; D 518586 12; D 569588 12; D 625605 12; D 687132 12; D 75471 13; D 828934 12; D 910458 12; D 1 18];
  [D 737492 8; D 81189 9; D 893793 8; D 983958 8; D 108322 9; D 119249 9; D 131279 9; D 144523 9; D 159102 9; D 175152 9; D 192821 9; D 212273 9;
   D 233687 9; D 257262 9; D 283214 9; D 311785 9; D 343237 9; D 377863 9; D 415982 9; D 457946 9; D 504143 9; D 555001 9; D 610989 9; D 672625 9;
   D 740479 9; D 815179 9; D 897414 9; D 987944 9; D 108761 10; D 119733 10; D 131811 10; D 145108 10; D 159747 10; D 175862 10; D 193603 10;
   D 213133 10; D 234634 10; D 258304 10; D 284361 10; D 313048 10; D 344628 10; D 379394 10; D 417667 10; D 459801 10; D 506185 10; D 557249 10;
   D 613464 10; D 67535 11; D 743479 10; D 818481 10; D 901049 10; D 991947 10; D 109201 11; D 120218 11; D 132345 11; D 145696 11; D 160394 11;
   D 176574 11; D 194387 11; D 213997 11; D 235585 11; D 25935 12; D 285513 11; D 314316 11; D 346024 11; D 380931 11; D 419359 11; D 461664 11;
   D 508236 11; D 559507 11; D 615949 11; D 678086 11; D 746491 11; D 821797 11; D 904699 11; D 995965 11; D 109644 12; D 120705 12; D 132881 12;
   D 146286 12; D 161044 12; D 17729 13; D 195174 12; D 214864 12; D 236539 12; D 260401 12; D 28667 13; D 315589 12; D 347426 12; D 382474 12;
   D 421058 12; D 463534 12; D 510295 12; D 561773 12; D 618445 12; D 680833 12; D 749515 12; D 825126 12; D 908365 12; D 1 18];
  [D 587168 8; D 647891 8; D 714894 8; D 788827 8; D 870405 8; D 96042 9; D 105974 9; D 116934 9; D 129027 9; D 142371 9; D 157094 9; D 17334 10;
   D 191267 9; D 211047 9; D 232873 9; D 256956 9; D 28353 10; D 312852 9; D 345206 9; D 380906 9; D 420299 9; D 463765 9; D 511726 9; D 564647 9;
   D 623041 9; D 687475 9; D 758571 9; D 837021 9; D 923583 9; D 10191 11; D 112449 10; D 124078 10; D 13691 11; D 151069 10; D 166692 10; D 183931 10;
   D 202952 10; D 223941 10; D 247101 10; D 272655 10; D 300852 10; D 331966 10; D 366297 10; D 404178 10; D 445977 10; D 492099 10; D 54299 11;
   D 599145 10; D 661107 10; D 729477 10; D 804917 10; D 888159 10; D 98001 11; D 108136 11; D 119319 11; D 131659 11; D 145275 11; D 160299 11;
   D 176876 11; D 195168 11; D 215352 11; D 237623 11; D 262197 11; D 289313 11; D 319233 11; D 352247 11; D 388676 11; D 428872 11; D 473224 11;
   D 522164 11; D 576165 11; D 63575 12; D 701497 11; D 774044 11; D 854094 11; D 942422 11; D 103988 12; D 114743 12; D 126609 12; D 139703 12;
   D 15415 13; D 170092 12; D 187683 12; D 207092 12; D 228509 12; D 252141 12; D 278217 12; D 306989 12; D 338737 12; D 373768 12; D 412422 12;
   D 455074 12; D 502136 12; D 554066 12; D 611366 12; D 674592 12; D 744356 12; D 821335 12; D 906275 12; D 1 18];
  [D 467484 8; D 517019 8; D 571802 8; D 632391 8; D 6994 10; D 773509 8; D 85547 9; D 946117 8; D 104637 9; D 115724 9; D 127986 9; D 141548 9;
   D 156546 9; D 173134 9; D 19148 10; D 211769 9; D 234208 9; D 259025 9; D 286472 9; D 316826 9; D 350398 9; D 387526 9; D 428589 9; D 474002 9;
   D 524228 9; D 579775 9; D 641209 9; D 709152 9; D 784294 9; D 867399 9; D 959309 9; D 106096 10; D 117338 10; D 129771 10; D 143522 10; D 158729 10;
   D 175548 10; D 19415 11; D 214722 10; D 237474 10; D 262637 10; D 290466 10; D 321244 10; D 355283 10; D 39293 11; D 434565 10; D 480612 10;
   D 531538 10; D 58786 11; D 65015 11; D 71904 11; D 79523 11; D 879493 10; D 972685 10; D 107575 11; D 118974 11; D 13158 12; D 145523 11;
   D 160943 11; D 177996 11; D 196857 11; D 217716 11; D 240785 11; D 266299 11; D 294516 11; D 325724 11; D 360237 11; D 398408 11; D 440624 11;
   D 487313 11; D 538949 11; D 596057 11; D 659215 11; D 729066 11; D 806319 11; D 891757 11; D 986248 11; D 109075 12; D 120633 12; D 133415 12;
   D 147552 12; D 163187 12; D 180478 12; D 199602 12; D 220752 12; D 244143 12; D 270012 12; D 298623 12; D 330265 12; D 36526 13; D 403964 12;
   D 446768 12; D 494108 12; D 546464 12; D 604368 12; D 668407 12; D 739232 12; D 817562 12; D 904191 12; D 1 18];
  [D 372194 8; D 412581 8; D 457351 8; D 506978 8; D 56199 9; D 622972 8; D 690571 8; D 765504 8; D 84857 9; D 940648 8; D 104272 9; D 115586 9;
   D 128129 9; D 142032 9; D 157444 9; D 174528 9; D 193466 9; D 214459 9; D 23773 10; D 263526 9; D 292122 9; D 32382 10; D 358958 9; D 397908 9;
   D 441085 9; D 488948 9; D 542003 9; D 600816 9; D 666011 9; D 73828 10; D 818391 9; D 907195 9; D 100563 10; D 111476 10; D 123572 10; D 136981 10;
   D 151844 10; D 168321 10; D 186586 10; D 206832 10; D 229276 10; D 254154 10; D 281733 10; D 312304 10; D 346192 10; D 383757 10; D 425399 10;
   D 471559 10; D 522728 10; D 579449 10; D 642325 10; D 712024 10; D 789286 10; D 874931 10; D 96987 11; D 107511 11; D 119177 11; D 132109 11;
   D 146444 11; D 162335 11; D 17995 12; D 199476 11; D 221122 11; D 245116 11; D 271713 11; D 301197 11; D 33388 12; D 370109 11; D 41027 12;
   D 454788 11; D 504137 11; D 558841 11; D 619481 11; D 686701 11; D 761215 11; D 843815 11; D 935378 11; D 103688 12; D 114939 12; D 127411 12;
   D 141236 12; D 156562 12; D 17355 13; D 192382 12; D 213258 12; D 236398 12; D 26205 13; D 290485 12; D 322006 12; D 356946 12; D 395679 12;
   D 438614 12; D 486208 12; D 538967 12; D 59745 13; D 662279 12; D 734143 12; D 813805 12; D 902112 12; D 1 18];
  [D 296328 8; D 32924 9; D 365807 8; D 406435 8; D 451576 8; D 501731 8; D 557456 8; D 61937 9; D 688161 8; D 764592 8; D 849511 8; D 943863 8;
   D 104869 9; D 116517 9; D 129458 9; D 143836 9; D 159811 9; D 177561 9; D 197282 9; D 219193 9; D 243538 9; D 270586 9; D 300639 9; D 33403 10;
   D 371129 9; D 412348 9; D 458146 9; D 50903 10; D 565566 9; D 628381 9; D 698172 9; D 775715 9; D 86187 10; D 957594 9; D 106395 10; D 118212 10;
   D 131341 10; D 145929 10; D 162136 10; D 180144 10; D 200152 10; D 222382 10; D 247081 10; D 274523 10; D 305013 10; D 338889 10; D 376528 10;
   D 418347 10; D 464811 10; D 516436 10; D 573794 10; D 637523 10; D 70833 11; D 787001 10; D 874409 10; D 971526 10; D 107943 11; D 119932 11;
   D 133252 11; D 148052 11; D 164495 11; D 182765 11; D 203064 11; D 225617 11; D 250675 11; D 278517 11; D 30945 12; D 343819 11; D 382006 11;
   D 424434 11; D 471574 11; D 523949 11; D 582142 11; D 646798 11; D 718635 11; D 79845 12; D 887131 11; D 98566 12; D 109513 12; D 121676 12;
   D 135191 12; D 150206 12; D 166888 12; D 185424 12; D 206018 12; D 228899 12; D 254322 12; D 282569 12; D 313952 12; D 348822 12; D 387564 12;
   D 430609 12; D 478434 12; D 531572 12; D 590611 12; D 656208 12; D 72909 13; D 810066 12; D 900037 12; D 1 18];
  [D 235925 8; D 262733 8; D 292586 8; D 325832 8; D 362855 8; D 404085 8; D 45 12; D 501132 8; D 558074 8; D 621486 8; D 692104 8; D 770745 8;
   D 858322 8; D 955851 8; D 106446 9; D 118541 9; D 132011 9; D 147011 9; D 163715 9; D 182317 9; D 203033 9; D 226103 9; D 251795 9; D 280405 9;
   D 312267 9; D 347749 9; D 387263 9; D 431266 9; D 480269 9; D 534841 9; D 595613 9; D 66329 10; D 738658 9; D 822589 9; D 916057 9; D 102015 10;
   D 113606 10; D 126515 10; D 14089 11; D 156899 10; D 174727 10; D 194581 10; D 216691 10; D 241312 10; D 268732 10; D 299267 10; D 333272 10;
   D 37114 11; D 413312 10; D 460275 10; D 512575 10; D 570817 10; D 635677 10; D 707907 10; D 788344 10; D 877921 10; D 977676 10; D 108877 11;
   D 121248 11; D 135025 11; D 150367 11; D 167453 11; D 18648 12; D 207669 11; D 231266 11; D 257544 11; D 286808 11; D 319397 11; D 355689 11;
   D 396105 11; D 441113 11; D 491236 11; D 547053 11; D 609213 11; D 678436 11; D 755524 11; D 841372 11; D 936974 11; D 104344 12; D 1162 14;
   D 129404 12; D 144107 12; D 160482 12; D 178717 12; D 199024 12; D 221638 12; D 246822 12; D 274868 12; D 3061 14; D 340882 12; D 379615 12;
   D 422749 12; D 470785 12; D 524279 12; D 583851 12; D 650192 12; D 724071 12; D 806345 12; D 897967 12; D 1 18];
  [D 187835 8; D 20966 9; D 234021 8; D 261213 8; D 291565 8; D 325443 8; D 363257 8; D 405465 8; D 452578 8; D 505165 8; D 563862 8; D 629379 8;
   D 702509 8; D 784136 8; D 875248 8; D 976946 8; D 109046 9; D 121717 9; D 135859 9; D 151645 9; D 169266 9; D 188933 9; D 210886 9; D 23539 10;
   D 262741 9; D 29327 10; D 327346 9; D 365381 9; D 407836 9; D 455224 9; D 508119 9; D 567159 9; D 633059 9; D 706617 9; D 788722 9; D 880366 9;
   D 982659 9; D 109684 10; D 122428 10; D 136654 10; D 152532 10; D 170256 10; D 190038 10; D 212119 10; D 236766 10; D 264277 10; D 294985 10;
   D 32926 11; D 367518 10; D 410221 10; D 457887 10; D 51109 11; D 570476 10; D 636762 10; D 710749 10; D 793334 10; D 885515 10; D 988406 10;
   D 110325 11; D 123144 11; D 137453 11; D 153424 11; D 171251 11; D 191149 11; D 21336 12; D 238151 11; D 265823 11; D 29671 12; D 331186 11;
   D 369667 11; D 41262 12; D 460564 11; D 514079 11; D 573812 11; D 640485 11; D 714906 11; D 797973 11; D 890693 11; D 994186 11; D 11097 13;
   D 123865 12; D 138257 12; D 154321 12; D 172253 12; D 192267 12; D 214608 12; D 239544 12; D 267377 12; D 298445 12; D 333122 12; D 371829 12;
   D 415033 12; D 463258 12; D 517085 12; D 577167 12; D 644231 12; D 719086 12; D 80264 13; D 895902 12; D 1 18];
  [D 149547 8; D 167308 8; D 187179 8; D 209409 8; D 23428 9; D 262105 8; D 293235 8; D 328061 8; D 367024 8; D 410614 8; D 459382 8; D 513941 8;
   D 57498 9; D 643269 8; D 719668 8; D 805141 8; D 900765 8; D 100775 9; D 112743 9; D 126133 9; D 141114 9; D 157874 9; D 176624 9; D 197601 9;
   D 221069 9; D 247325 9; D 276699 9; D 309562 9; D 346327 9; D 38746 10; D 433477 9; D 48496 10; D 542557 9; D 606995 9; D 679086 9; D 759739 9;
   D 849971 9; D 950919 9; D 106386 10; D 119021 10; D 133156 10; D 148971 10; D 166664 10; D 186458 10; D 208603 10; D 233378 10; D 261096 10;
   D 292105 10; D 326798 10; D 365611 10; D 409033 10; D 457613 10; D 511962 10; D 572766 10; D 640792 10; D 716897 10; D 80204 11; D 897296 10;
   D 100387 11; D 112309 11; D 125648 11; D 140571 11; D 157266 11; D 175944 11; D 19684 12; D 220218 11; D 246373 11; D 275634 11; D 30837 12;
   D 344994 11; D 385968 11; D 431808 11; D 483092 11; D 540468 11; D 604658 11; D 676471 11; D 756813 11; D 846698 11; D 947257 11; D 105976 12;
   D 118562 12; D 132644 12; D 148397 12; D 166022 12; D 18574 13; D 2078 14; D 23248 13; D 260091 12; D 290981 12; D 32554 13; D 364203 12;
   D 407458 12; D 455851 12; D 509991 12; D 570561 12; D 638325 12; D 714136 12; D 798952 12; D 893841 12; D 1 18];
  [D 119063 8; D 133511 8; D 149712 8; D 167879 8; D 188251 8; D 211094 8; D 23671 9; D 265434 8; D 297643 8; D 333761 8; D 374261 8; D 419676 8;
   D 470602 8; D 527708 8; D 591743 8; D 663549 8; D 744067 8; D 834357 8; D 935603 8; D 104913 9; D 117644 9; D 13192 10; D 147928 9; D 165878 9;
   D 186007 9; D 208578 9; D 233888 9; D 26227 10; D 294095 9; D 329782 9; D 3698 11; D 414674 9; D 464993 9; D 521418 9; D 58469 10; D 655639 9;
   D 735198 9; D 824412 9; D 924451 9; D 103663 10; D 116242 10; D 130347 10; D 146165 10; D 163901 10; D 18379 11; D 206092 10; D 2311 12; D 259143 10;
   D 290589 10; D 325851 10; D 365392 10; D 409731 10; D 45945 11; D 515202 10; D 57772 11; D 647824 10; D 726435 10; D 814585 10; D 913431 10;
   D 102427 11; D 114856 11; D 128794 11; D 144422 11; D 161947 11; D 181599 11; D 203635 11; D 228346 11; D 256055 11; D 287126 11; D 321967 11;
   D 361037 11; D 404847 11; D 453974 11; D 509061 11; D 570834 11; D 640102 11; D 717776 11; D 804875 11; D 902544 11; D 101206 12; D 113487 12;
   D 127259 12; D 142701 12; D 160017 12; D 179434 12; D 201208 12; D 225624 12; D 253002 12; D 283703 12; D 318129 12; D 356733 12; D 400021 12;
   D 448562 12; D 502993 12; D 56403 13; D 632472 12; D 70922 13; D 795281 12; D 891785 12; D 1 18];
  [D 947937 7; D 106542 8; D 119745 8; D 134585 8; D 151265 8; D 170011 8; D 191081 8; D 214762 8; D 241377 8; D 271291 8; D 304913 8; D 342701 8;
   D 385172 8; D 432907 8; D 486557 8; D 546857 8; D 614629 8; D 6908 10; D 776412 8; D 872633 8; D 98078 9; D 110233 9; D 123894 9; D 139248 9;
   D 156506 9; D 175901 9; D 197701 9; D 222202 9; D 24974 10; D 280691 9; D 315477 9; D 354574 9; D 398517 9; D 447905 9; D 503415 9; D 565803 9;
   D 635924 9; D 714734 9; D 803312 9; D 902867 9; D 101476 10; D 114052 10; D 128187 10; D 144073 10; D 161928 10; D 181996 10; D 204551 10;
   D 229901 10; D 258393 10; D 290416 10; D 326407 10; D 366859 10; D 412324 10; D 463424 10; D 520856 10; D 585406 10; D 657956 10; D 739497 10;
   D 831144 10; D 934148 10; D 104992 11; D 118004 11; D 132628 11; D 149065 11; D 167538 11; D 188301 11; D 211638 11; D 237866 11; D 267345 11;
   D 300477 11; D 337716 11; D 379569 11; D 42661 12; D 47948 12; D 538902 11; D 605689 11; D 680752 11; D 765119 11; D 85994 12; D 966514 11;
   D 108629 12; D 122092 12; D 137223 12; D 154229 12; D 173343 12; D 194825 12; D 21897 13; D 246107 12; D 276608 12; D 310888 12; D 349417 12;
   D 39272 13; D 44139 13; D 496092 12; D 557573 12; D 626674 12; D 704338 12; D 791627 12; D 889734 12; D 1 18];
  [D 75471 8; D 850197 7; D 957766 7; D 107894 8; D 121545 8; D 136924 8; D 154247 8; D 173763 8; D 195748 8; D 220514 8; D 248414 8; D 279844 8;
   D 31525 9; D 355136 8; D 400069 8; D 450686 8; D 507707 8; D 571944 8; D 644307 8; D 725826 8; D 817658 8; D 92111 9; D 103765 9; D 116894 9;
   D 131683 9; D 148344 9; D 167113 9; D 188256 9; D 212075 9; D 238907 9; D 269134 9; D 303185 9; D 341544 9; D 384757 9; D 433437 9; D 488277 9;
   D 550054 9; D 619648 9; D 698047 9; D 786365 9; D 885857 9; D 997938 9; D 11242 11; D 126643 10; D 142667 10; D 160717 10; D 181051 10; D 203958 10;
   D 229763 10; D 258833 10; D 291581 10; D 328473 10; D 370032 10; D 416849 10; D 469589 10; D 529003 10; D 595933 10; D 671331 10; D 756269 10;
   D 851954 10; D 959745 10; D 108117 11; D 121797 11; D 137206 11; D 154566 11; D 174122 11; D 196152 11; D 22097 12; D 248927 11; D 280422 11;
   D 315902 11; D 35587 12; D 400895 11; D 451617 11; D 508757 11; D 573125 11; D 645638 11; D 727326 11; D 819348 11; D 923014 11; D 103979 12;
   D 117135 12; D 131955 12; D 148651 12; D 167458 12; D 188645 12; D 212513 12; D 2394 14; D 26969 13; D 303811 12; D 34225 13; D 385552 12;
   D 434333 12; D 489286 12; D 551191 12; D 620929 12; D 69949 13; D 78799 13; D 887688 12; D 1 18];
  [D 60087 8; D 678454 7; D 766055 7; D 864967 7; D 97665 8; D 110275 8; D 124514 8; D 140591 8; D 158744 8; D 179241 8; D 202384 8; D 228516 8;
   D 258021 8; D 291337 8; D 328954 8; D 371428 8; D 419386 8; D 473537 8; D 534679 8; D 603716 8; D 681667 8; D 769683 8; D 869064 8; D 981276 8;
   D 110798 9; D 125104 9; D 141257 9; D 159496 9; D 18009 10; D 203343 9; D 229598 9; D 259243 9; D 292717 9; D 330512 9; D 373187 9; D 421373 9;
   D 47578 10; D 537212 9; D 606576 9; D 684896 9; D 773329 9; D 87318 10; D 985924 9; D 111322 10; D 125696 10; D 141926 10; D 160251 10; D 180943 10;
   D 204306 10; D 230686 10; D 260471 10; D 294103 10; D 332077 10; D 374955 10; D 423368 10; D 478033 10; D 539756 10; D 609449 10; D 68814 11;
   D 776992 10; D 877316 10; D 990594 10; D 11185 12; D 126292 11; D 142598 11; D 16101 12; D 1818 13; D 205274 11; D 231778 11; D 261705 11;
   D 295496 11; D 33365 12; D 376731 11; D 425374 11; D 480297 11; D 542313 11; D 612335 11; D 691399 11; D 780672 11; D 881471 11; D 995286 11;
   D 11238 13; D 12689 13; D 143274 12; D 161773 12; D 182661 12; D 206246 12; D 232876 12; D 262945 12; D 296896 12; D 335231 12; D 378515 12;
   D 427389 12; D 482572 12; D 544881 12; D 615236 12; D 694674 12; D 78437 13; D 885646 12; D 1 18];
  [D 478389 7; D 541403 7; D 612717 7; D 693425 7; D 784764 7; D 888135 7; D 100512 8; D 113752 8; D 128735 8; D 145693 8; D 164883 8; D 186602 8;
   D 211182 8; D 238999 8; D 27048 9; D 306108 8; D 346429 8; D 392061 8; D 443704 8; D 50215 9; D 568294 8; D 64315 9; D 727867 8; D 823742 8;
   D 932247 8; D 105504 9; D 119402 9; D 135129 9; D 152929 9; D 173073 9; D 19587 10; D 221671 9; D 250869 9; D 283914 9; D 321312 9; D 363636 9;
   D 411534 9; D 465742 9; D 527091 9; D 59652 10; D 675094 9; D 764019 9; D 864656 9; D 97855 10; D 110745 10; D 125332 10; D 141841 10; D 160525 10;
   D 181669 10; D 205599 10; D 232681 10; D 26333 11; D 298016 10; D 337271 10; D 381697 10; D 431975 10; D 488875 10; D 55327 11; D 626148 10;
   D 708625 10; D 801966 10; D 907603 10; D 102715 11; D 116245 11; D 131557 11; D 148886 11; D 168498 11; D 190692 11; D 215811 11; D 244238 11;
   D 276409 11; D 312818 11; D 354023 11; D 400655 11; D 45343 12; D 513157 11; D 58075 12; D 657248 11; D 743821 11; D 841799 11; D 952682 11;
   D 107817 12; D 122019 12; D 138091 12; D 156281 12; D 176867 12; D 200164 12; D 22653 13; D 256368 12; D 290138 12; D 328355 12; D 371607 12;
   D 420555 12; D 475951 12; D 538644 12; D 609595 12; D 689892 12; D 780766 12; D 88361 13; D 1 18];
  [D 380874 7; D 432037 7; D 490073 7; D 555904 7; D 630579 7; D 715285 7; D 81137 8; D 920361 7; D 104399 8; D 118423 8; D 134331 8; D 152376 8;
   D 172845 8; D 196063 8; D 2224 10; D 252275 8; D 286164 8; D 324604 8; D 368208 8; D 41767 9; D 473776 8; D 537418 8; D 60961 9; D 691499 8;
   D 784389 8; D 889756 8; D 100928 9; D 114485 9; D 129864 9; D 147309 9; D 167097 9; D 189543 9; D 215005 9; D 243886 9; D 276648 9; D 31381 10;
   D 355964 9; D 403781 9; D 458021 9; D 519547 9; D 589338 9; D 668504 9; D 758305 9; D 860168 9; D 975715 9; D 110678 10; D 125546 10; D 14241 11;
   D 16154 11; D 18324 11; D 207855 10; D 235776 10; D 267448 10; D 303375 10; D 344127 10; D 390354 10; D 44279 11; D 50227 11; D 569741 10;
   D 646274 10; D 733088 10; D 831564 10; D 943269 10; D 106998 11; D 121371 11; D 137675 11; D 156169 11; D 177147 11; D 200943 11; D 227936 11;
   D 258554 11; D 293286 11; D 332684 11; D 377373 11; D 428066 11; D 485568 11; D 550795 11; D 624783 11; D 70871 12; D 803912 11; D 911901 11;
   D 10344 13; D 117335 12; D 133097 12; D 150975 12; D 171256 12; D 194261 12; D 220356 12; D 249957 12; D 283533 12; D 321621 12; D 364824 12;
   D 413831 12; D 469421 12; D 532479 12; D 604007 12; D 685143 12; D 777179 12; D 881577 12; D 1 18];
  [D 303237 7; D 344763 7; D 391977 7; D 445657 7; D 506687 7; D 576076 7; D 654966 7; D 744661 7; D 846639 7; D 962582 7; D 10944 9; D 124428 8;
   D 141467 8; D 160841 8; D 182867 8; D 20791 9; D 236382 8; D 268754 8; D 305558 8; D 347403 8; D 394978 8; D 449069 8; D 510567 8; D 580486 8;
   D 659981 8; D 750362 8; D 853121 8; D 969952 8; D 110278 9; D 12538 10; D 142551 9; D 162072 9; D 184267 9; D 209502 9; D 238192 9; D 270811 9;
   D 307898 9; D 350063 9; D 398002 9; D 452507 9; D 514476 9; D 584931 9; D 665034 9; D 756107 9; D 859653 9; D 977378 9; D 111123 10; D 12634 11;
   D 143642 10; D 163313 10; D 185678 10; D 211106 10; D 240016 10; D 272885 10; D 310255 10; D 352743 10; D 40105 11; D 455971 10; D 518415 10;
   D 589409 10; D 670126 10; D 761896 10; D 866235 10; D 984861 10; D 111973 11; D 127308 11; D 144742 11; D 164563 11; D 1871 13; D 212722 11;
   D 241853 11; D 274974 11; D 31263 12; D 355444 11; D 40412 12; D 459463 11; D 522384 11; D 593922 11; D 675257 11; D 76773 12; D 872867 11;
   D 992402 11; D 112831 12; D 128282 12; D 14585 13; D 165823 12; D 188532 12; D 214351 12; D 243705 12; D 277079 12; D 315024 12; D 358165 12;
   D 407214 12; D 46298 13; D 526383 12; D 598469 12; D 680427 12; D 773608 12; D 87955 13; D 1 18];
  [D 241425 7; D 275119 7; D 313517 7; D 357273 7; D 407137 7; D 463959 7; D 528712 7; D 602502 7; D 686591 7; D 782416 7; D 891615 7; D 101605 8;
   D 115786 8; D 131946 8; D 150361 8; D 171347 8; D 195261 8; D 222513 8; D 253568 8; D 288957 8; D 329286 8; D 375243 8; D 427615 8; D 487295 8;
   D 555305 8; D 632807 8; D 721125 8; D 82177 9; D 936462 8; D 106716 9; D 12161 10; D 138583 9; D 157924 9; D 179965 9; D 205082 9; D 233704 9;
   D 266322 9; D 303491 9; D 345848 9; D 394117 9; D 449123 9; D 511805 9; D 583236 9; D 664636 9; D 757396 9; D 863103 9; D 983563 9; D 112084 10;
   D 127727 10; D 145553 10; D 165867 10; D 189017 10; D 215397 10; D 245459 10; D 279717 10; D 318756 10; D 363244 10; D 41394 11; D 471712 10;
   D 537548 10; D 612571 10; D 698065 10; D 795492 10; D 906515 10; D 103303 11; D 117721 11; D 134151 11; D 152874 11; D 17421 12; D 198524 11;
   D 226231 11; D 257805 11; D 293786 11; D 334789 11; D 381514 11; D 434761 11; D 495438 11; D 564585 11; D 643382 11; D 733176 11; D 835503 11;
   D 952111 11; D 108499 12; D 123642 12; D 140898 12; D 160563 12; D 182972 12; D 208509 12; D 23761 13; D 270772 12; D 308563 12; D 351628 12;
   D 400703 12; D 456628 12; D 520358 12; D 592982 12; D 675743 12; D 770053 12; D 877527 12; D 1 18];
  [D 192213 7; D 219544 7; D 250762 7; D 286418 7; D 327145 7; D 373663 7; D 426795 7; D 487482 7; D 556799 7; D 635972 7; D 726403 7; D 829693 7;
   D 947669 7; D 108242 8; D 123633 8; D 141213 8; D 161293 8; D 184228 8; D 210424 8; D 240344 8; D 27452 9; D 313555 8; D 35814 9; D 409065 8;
   D 467231 8; D 533668 8; D 609552 8; D 696226 8; D 795225 8; D 908301 8; D 103745 9; D 118497 9; D 135347 9; D 154592 9; D 176574 9; D 201682 9;
   D 23036 10; D 263115 9; D 300529 9; D 343262 9; D 392071 9; D 447821 9; D 511498 9; D 58423 10; D 667303 9; D 762189 9; D 870568 9; D 994356 9;
   D 113575 10; D 129724 10; D 14817 11; D 169239 10; D 193304 10; D 22079 11; D 252185 10; D 288044 10; D 329002 10; D 375784 10; D 429217 10;
   D 490249 10; D 559959 10; D 639582 10; D 730526 10; D 834402 10; D 953048 10; D 108857 11; D 124335 11; D 142015 11; D 162208 11; D 185273 11;
   D 211618 11; D 241708 11; D 276078 11; D 315334 11; D 360173 11; D 411387 11; D 469883 11; D 536697 11; D 613012 11; D 700178 11; D 799739 11;
   D 913456 11; D 104334 12; D 11917 13; D 136115 12; D 15547 13; D 177577 12; D 202827 12; D 231667 12; D 264609 12; D 302234 12; D 34521 13;
   D 394297 12; D 450363 12; D 514401 12; D 587546 12; D 671091 12; D 766515 12; D 875509 12; D 1 18];
  [D 153032 7; D 175195 7; D 200568 7; D 229615 7; D 26287 8; D 30094 8; D 344524 7; D 39442 8; D 451543 7; D 516938 7; D 591804 7; D 677513 7;
   D 775634 7; D 887966 7; D 101657 8; D 116379 8; D 133234 8; D 15253 9; D 17462 9; D 19991 9; D 228862 8; D 262007 8; D 299953 8; D 343394 8;
   D 393126 8; D 450061 8; D 515242 8; D 589862 8; D 67529 9; D 773089 8; D 885053 8; D 101323 9; D 115997 9; D 132797 9; D 152029 9; D 174047 9;
   D 199254 9; D 228111 9; D 261148 9; D 298969 9; D 342267 9; D 391836 9; D 448584 9; D 513551 9; D 587927 9; D 673074 9; D 770553 9; D 882149 9;
   D 100991 10; D 115617 10; D 132361 10; D 151531 10; D 173476 10; D 1986 12; D 227363 10; D 260291 10; D 297988 10; D 341144 10; D 390551 10;
   D 447113 10; D 511866 10; D 585998 10; D 670866 10; D 768025 10; D 879255 10; D 100659 11; D 115238 11; D 131927 11; D 151033 11; D 172907 11;
   D 197949 11; D 226617 11; D 259437 11; D 29701 12; D 340025 11; D 389269 11; D 445646 11; D 510187 11; D 584075 11; D 668665 11; D 765505 11;
   D 87637 12; D 100329 12; D 114859 12; D 131494 12; D 150538 12; D 17234 13; D 197299 12; D 225873 12; D 258586 12; D 296036 12; D 338909 12;
   D 387992 12; D 444184 12; D 508513 12; D 582159 12; D 666471 12; D 762994 12; D 873495 12; D 1 18];
  [D 121838 7; D 139805 7; D 160421 7; D 184078 7; D 211223 7; D 242371 7; D 278112 7; D 319124 7; D 366184 7; D 420183 7; D 482145 7; D 553245 7;
   D 634829 7; D 728445 7; D 835865 7; D 959126 7; D 110056 8; D 126286 8; D 144909 8; D 166278 8; D 190798 8; D 218934 8; D 251219 8; D 288265 8;
   D 330774 8; D 379552 8; D 435523 8; D 499748 8; D 573443 8; D 658006 8; D 755039 8; D 866381 8; D 994142 8; D 114074 9; D 130896 9; D 150199 9;
   D 172348 9; D 197764 9; D 226927 9; D 260391 9; D 298789 9; D 34285 10; D 393409 9; D 451423 9; D 517992 9; D 594378 9; D 682029 9; D 782604 9;
   D 898011 9; D 103044 10; D 118239 10; D 135675 10; D 155683 10; D 17864 11; D 204984 10; D 235212 10; D 269897 10; D 309698 10; D 355367 10;
   D 407772 10; D 467904 10; D 536903 10; D 616078 10; D 706928 10; D 811176 10; D 930796 10; D 106806 11; D 122556 11; D 140628 11; D 161366 11;
   D 185162 11; D 212467 11; D 243799 11; D 279751 11; D 321004 11; D 368341 11; D 422659 11; D 484986 11; D 556505 11; D 63857 12; D 732737 11;
   D 84079 12; D 964778 11; D 110705 12; D 12703 13; D 145763 12; D 167257 12; D 191922 12; D 220224 12; D 252699 12; D 289964 12; D 332723 12;
   D 381789 12; D 438089 12; D 502692 12; D 576822 12; D 661883 12; D 759488 12; D 871486 12; D 1 18];
  [D 970024 6; D 111563 7; D 12831 8; D 147571 7; D 169723 7; D 1952 9; D 224502 7; D 258202 7; D 296961 7; D 341538 7; D 392806 7; D 45177 8;
   D 519586 7; D 597581 7; D 687284 7; D 790453 7; D 909108 7; D 104557 8; D 120253 8; D 138304 8; D 159065 8; D 182942 8; D 210403 8; D 241987 8;
   D 278312 8; D 32009 9; D 368138 8; D 4234 10; D 486957 8; D 560054 8; D 644124 8; D 740814 8; D 852018 8; D 979914 8; D 112701 9; D 129619 9;
   D 149076 9; D 171454 9; D 197191 9; D 226791 9; D 260835 9; D 299989 9; D 34502 10; D 396811 9; D 456377 9; D 524884 9; D 603674 9; D 694292 9;
   D 798513 9; D 918378 9; D 105624 10; D 121479 10; D 139714 10; D 160687 10; D 184807 10; D 212549 10; D 244455 10; D 28115 11; D 323353 10;
   D 371892 10; D 427717 10; D 491922 10; D 565765 10; D 650692 10; D 748368 10; D 860705 10; D 989906 10; D 11385 12; D 13094 12; D 150596 11;
   D 173202 11; D 199201 11; D 229103 11; D 263494 11; D 303047 11; D 348538 11; D 400857 11; D 46103 12; D 530236 11; D 60983 12; D 701371 11;
   D 806655 11; D 927742 11; D 106701 12; D 122717 12; D 141139 12; D 162325 12; D 186692 12; D 214716 12; D 246947 12; D 284017 12; D 326651 12;
   D 375684 12; D 432078 12; D 496938 12; D 571534 12; D 657327 12; D 755998 12; D 869482 12; D 1 18];
  [D 772293 6; D 89027 7; D 102627 7; D 118304 7; D 136377 7; D 15721 8; D 181226 7; D 20891 8; D 240824 7; D 277612 7; D 320021 7; D 368908 7;
   D 425263 7; D 490226 7; D 565114 7; D 651442 7; D 750958 7; D 865675 7; D 997917 7; D 115036 8; D 132609 8; D 152867 8; D 176219 8; D 203139 8;
   D 23417 9; D 269943 8; D 31118 9; D 358716 8; D 413514 8; D 476683 8; D 549502 8; D 633445 8; D 730211 8; D 84176 9; D 970349 8; D 111858 9;
   D 128946 9; D 148644 9; D 171351 9; D 197527 9; D 227701 9; D 262485 9; D 302583 9; D 348806 9; D 40209 10; D 463514 9; D 534322 9; D 615945 9;
   D 710038 9; D 818505 9; D 943541 9; D 108768 10; D 125383 10; D 144537 10; D 166617 10; D 19207 11; D 221411 10; D 255234 10; D 294224 10;
   D 33917 11; D 390982 10; D 450709 10; D 51956 11; D 598929 10; D 690423 10; D 795893 10; D 917475 10; D 105763 11; D 12192 12; D 140544 11;
   D 162014 11; D 186763 11; D 215294 11; D 248182 11; D 286095 11; D 3298 13; D 38018 12; D 438258 11; D 505207 11; D 582383 11; D 671349 11;
   D 773905 11; D 892128 11; D 102841 12; D 118551 12; D 136661 12; D 157538 12; D 181604 12; D 209346 12; D 241326 12; D 278191 12; D 320689 12;
   D 369677 12; D 42615 13; D 49125 13; D 566294 12; D 652802 12; D 752525 12; D 867482 12; D 1 18];
  [D 614869 6; D 710431 6; D 820846 6; D 948421 6; D 109582 7; D 126614 7; D 146292 7; D 169028 7; D 195299 7; D 225652 7; D 260722 7; D 301243 7;
   D 348063 7; D 402158 7; D 464661 7; D 536878 7; D 62032 8; D 716729 7; D 828123 7; D 956829 7; D 110554 8; D 127736 8; D 147589 8; D 170527 8;
   D 19703 9; D 227652 8; D 263034 8; D 303914 8; D 351148 8; D 405723 8; D 468781 8; D 541638 8; D 625819 8; D 723083 8; D 835464 8; D 965311 8;
   D 111534 9; D 128868 9; D 148897 9; D 172039 9; D 198777 9; D 22967 10; D 265365 9; D 306608 9; D 354261 9; D 40932 10; D 472936 9; D 54644 10;
   D 631367 9; D 729493 9; D 842871 9; D 973869 9; D 112523 10; D 130011 10; D 150217 10; D 173564 10; D 200539 10; D 231706 10; D 267718 10;
   D 309326 10; D 357402 10; D 412949 10; D 477129 10; D 551284 10; D 636964 10; D 735961 10; D 850343 10; D 982503 10; D 11352 12; D 131163 11;
   D 151549 11; D 175102 11; D 202317 11; D 233761 11; D 270091 11; D 312069 11; D 36057 12; D 41661 12; D 481359 11; D 556171 11; D 642611 11;
   D 742485 11; D 857881 11; D 991213 11; D 114527 12; D 132326 12; D 152892 12; D 176655 12; D 20411 13; D 235833 12; D 272486 12; D 314835 12;
   D 363767 12; D 420303 12; D 485626 12; D 561102 12; D 648308 12; D 749067 12; D 865487 12; D 1 18];
  [D 489534 6; D 56692 7; D 656541 6; D 760328 6; D 880523 6; D 101972 7; D 118092 7; D 13676 8; D 15838 8; D 183417 7; D 212412 7; D 24599 8;
   D 284877 7; D 329911 7; D 382064 7; D 442462 7; D 512408 7; D 59341 8; D 687218 7; D 795856 7; D 921667 7; D 106737 8; D 12361 9; D 14315 9;
   D 16578 9; D 191987 8; D 222337 8; D 257484 8; D 298188 8; D 345327 8; D 399917 8; D 463137 8; D 536351 8; D 621138 8; D 719329 8; D 833043 8;
   D 964733 8; D 111724 9; D 129386 9; D 149839 9; D 173526 9; D 200958 9; D 232726 9; D 269516 9; D 312121 9; D 361462 9; D 418603 9; D 484777 9;
   D 561412 9; D 650162 9; D 752941 9; D 871968 9; D 100981 10; D 116944 10; D 135431 10; D 156841 10; D 181635 10; D 210348 10; D 2436 12; D 282109 10;
   D 326706 10; D 378352 10; D 438163 10; D 507429 10; D 587645 10; D 680541 10; D 788123 10; D 912712 10; D 1057 13; D 122409 11; D 14176 12;
   D 164169 11; D 190122 11; D 220177 11; D 254983 11; D 295291 11; D 341971 11; D 396031 11; D 458637 11; D 531139 11; D 615103 11; D 712341 11;
   D 824949 11; D 95536 12; D 110639 12; D 128129 12; D 148383 12; D 17184 13; D 199005 12; D 230465 12; D 266897 12; D 309089 12; D 357951 12;
   D 414536 12; D 480067 12; D 555958 12; D 643845 12; D 745626 12; D 863496 12; D 1 18];
  [D 389747 6; D 452399 6; D 525124 6; D 609539 6; D 707523 6; D 821259 6; D 953279 6; D 110652 7; D 12844 8; D 149087 7; D 173053 7; D 200871 7;
   D 233162 7; D 270643 7; D 31415 8; D 36465 8; D 423268 7; D 49131 8; D 570289 7; D 661964 7; D 768376 7; D 891894 7; D 103527 8; D 120169 8;
   D 139486 8; D 161909 8; D 187937 8; D 218148 8; D 253216 8; D 293921 8; D 341169 8; D 396013 8; D 459673 8; D 533566 8; D 619338 8; D 718898 8;
   D 834463 8; D 968605 8; D 112431 9; D 130505 9; D 151483 9; D 175835 9; D 204101 9; D 23691 10; D 274994 9; D 3192 11; D 370512 9; D 430073 9;
   D 499208 9; D 579457 9; D 672606 9; D 780729 9; D 906234 9; D 105191 10; D 122101 10; D 141729 10; D 164512 10; D 190958 10; D 221655 10;
   D 257287 10; D 298646 10; D 346654 10; D 40238 11; D 467063 10; D 542144 10; D 629295 10; D 730456 10; D 847879 10; D 984177 10; D 114239 11;
   D 132603 11; D 153919 11; D 178662 11; D 207382 11; D 240719 11; D 279415 11; D 324332 11; D 376469 11; D 436987 11; D 507234 11; D 588773 11;
   D 68342 12; D 793281 11; D 920803 11; D 106882 12; D 124064 12; D 144008 12; D 167157 12; D 194028 12; D 225219 12; D 261423 12; D 303447 12;
   D 352227 12; D 408849 12; D 474572 12; D 550861 12; D 639413 12; D 7422 14; D 86151 13; D 1 18];
  [D 310301 6; D 361012 6; D 420012 6; D 488654 6; D 568513 6; D 661425 6; D 76952 7; D 895281 6; D 10416 8; D 121182 7; D 140987 7; D 164028 7;
   D 190835 7; D 222022 7; D 258307 7; D 300522 7; D 349636 7; D 406776 7; D 473255 7; D 550598 7; D 640581 7; D 74527 8; D 867068 7; D 100877 8;
   D 117363 8; D 136544 8; D 158859 8; D 184821 8; D 215026 8; D 250167 8; D 291051 8; D 338617 8; D 393957 8; D 458341 8; D 533246 8; D 620394 8;
   D 721784 8; D 839743 8; D 976981 8; D 113665 9; D 132241 9; D 153853 9; D 178996 9; D 20825 10; D 242283 9; D 281879 9; D 327946 9; D 381542 9;
   D 443897 9; D 516442 9; D 600843 9; D 699038 9; D 81328 10; D 946193 9; D 110083 10; D 128073 10; D 149004 10; D 173356 10; D 201687 10; D 234648 10;
   D 272996 10; D 317612 10; D 369518 10; D 429908 10; D 500167 10; D 581908 10; D 677009 10; D 787651 10; D 916375 10; D 106614 11; D 124037 11;
   D 144309 11; D 167893 11; D 195331 11; D 227254 11; D 264393 11; D 307603 11; D 357873 11; D 41636 12; D 484405 11; D 56357 12; D 655674 11;
   D 762829 11; D 887497 11; D 103254 12; D 120128 12; D 139761 12; D 162602 12; D 189175 12; D 220092 12; D 256061 12; D 297909 12; D 346596 12;
   D 403239 12; D 46914 13; D 54581 13; D 635011 12; D 73879 13; D 859529 12; D 1 18];
  [D 247049 6; D 288086 6; D 33594 7; D 391743 6; D 456815 6; D 532697 6; D 621184 6; D 724368 6; D 844693 6; D 985005 6; D 114862 7; D 133942 7;
   D 156191 7; D 182136 7; D 212391 7; D 247672 7; D 288812 7; D 336787 7; D 392731 7; D 457967 7; D 53404 8; D 62275 8; D 726195 7; D 846823 7;
   D 987489 7; D 115152 8; D 13428 9; D 156585 8; D 182596 8; D 212927 8; D 248296 8; D 28954 9; D 337636 8; D 393721 8; D 459122 8; D 535387 8;
   D 62432 9; D 728026 8; D 848958 8; D 989978 8; D 115442 9; D 134619 9; D 15698 10; D 183056 9; D 213463 9; D 248922 9; D 29027 10; D 338487 9;
   D 394713 9; D 460279 9; D 536736 9; D 625894 9; D 729861 9; D 851098 9; D 992474 9; D 115733 10; D 134958 10; D 157376 10; D 183518 10; D 214002 10;
   D 24955 11; D 291002 10; D 339341 10; D 395709 10; D 46144 11; D 53809 11; D 627472 10; D 731701 10; D 853244 10; D 994977 10; D 116025 11;
   D 135298 11; D 157773 11; D 18398 12; D 214541 11; D 250179 11; D 291736 11; D 340196 11; D 396706 11; D 462603 11; D 539446 11; D 629054 11;
   D 733546 11; D 855395 11; D 997485 11; D 116318 12; D 135639 12; D 15817 13; D 184444 12; D 215082 12; D 250809 12; D 292471 12; D 341054 12;
   D 397706 12; D 463769 12; D 540806 12; D 63064 13; D 735395 12; D 857552 12; D 1 18];
  [D 19669 7; D 229891 6; D 268696 6; D 314052 6; D 367063 6; D 429023 6; D 501441 6; D 586084 6; D 685013 6; D 800643 6; D 93579 7; D 109375 7;
   D 127837 7; D 149416 7; D 174637 7; D 204116 7; D 23857 8; D 27884 8; D 325908 7; D 380921 7; D 445219 7; D 520371 7; D 608209 7; D 710874 7;
   D 830868 7; D 971118 7; D 113504 8; D 132663 8; D 155057 8; D 18123 9; D 211821 8; D 247576 8; D 289367 8; D 338211 8; D 395301 8; D 462027 8;
   D 540017 8; D 63117 9; D 737711 8; D 862235 8; D 100778 9; D 117789 9; D 137672 9; D 16091 10; D 188072 9; D 219818 9; D 256923 9; D 300291 9;
   D 35098 10; D 410224 9; D 47947 10; D 560403 9; D 654998 9; D 765561 9; D 894786 9; D 104582 10; D 122236 10; D 142869 10; D 166985 10; D 195172 10;
   D 228117 10; D 266622 10; D 311628 10; D 36423 11; D 425711 10; D 49757 11; D 58156 11; D 679726 10; D 794462 10; D 928566 10; D 108531 11;
   D 12685 12; D 148263 11; D 173289 11; D 20254 12; D 236728 11; D 276688 11; D 323392 11; D 37798 12; D 441783 11; D 516355 11; D 603515 11;
   D 705387 11; D 824455 11; D 963621 11; D 112628 12; D 131639 12; D 15386 13; D 179831 12; D 210186 12; D 245665 12; D 287133 12; D 335601 12;
   D 39225 13; D 458461 12; D 535848 12; D 626298 12; D 732016 12; D 85558 13; D 1 18];
  [D 156597 6; D 183452 6; D 214912 6; D 251768 6; D 294945 6; D 345526 6; D 404781 6; D 474198 6; D 555519 6; D 650787 6; D 762392 6; D 893136 6;
   D 10463 8; D 122574 7; D 143594 7; D 168219 7; D 197068 7; D 230863 7; D 270455 7; D 316836 7; D 371171 7; D 434824 7; D 509393 7; D 59675 8;
   D 699089 7; D 818977 7; D 959426 7; D 112396 8; D 131671 8; D 154252 8; D 180705 8; D 211694 8; D 247998 8; D 290528 8; D 340352 8; D 39872 9;
   D 467097 8; D 547201 8; D 641042 8; D 750976 8; D 879762 8; D 103064 9; D 120738 9; D 141444 9; D 1657 11; D 194117 9; D 227406 9; D 266405 9;
   D 312091 9; D 365613 9; D 428313 9; D 501765 9; D 587814 9; D 68862 10; D 806714 9; D 945059 9; D 110713 10; D 129699 10; D 151942 10; D 177999 10;
   D 208524 10; D 244285 10; D 286178 10; D 335255 10; D 392749 10; D 460103 10; D 539007 10; D 631442 10; D 73973 11; D 866588 10; D 10152 12;
   D 11893 12; D 139326 11; D 163219 11; D 19121 12; D 224001 11; D 262416 11; D 307418 11; D 360138 11; D 421899 11; D 494252 11; D 579012 11;
   D 678309 11; D 794634 11; D 930907 11; D 109055 12; D 127757 12; D 149667 12; D 175333 12; D 205402 12; D 240627 12; D 281892 12; D 330235 12;
   D 386868 12; D 453213 12; D 530935 12; D 621987 12; D 728653 12; D 853612 12; D 1 18];
  [D 124676 6; D 146394 6; D 171894 6; D 201837 6; D 236996 6; D 278279 6; D 326753 6; D 383671 6; D 450504 6; D 528979 6; D 621124 6; D 729319 6;
   D 856362 6; D 100553 7; D 118069 7; D 138636 7; D 162785 7; D 191142 7; D 224437 7; D 263533 7; D 309438 7; D 36334 8; D 426632 7; D 500948 7;
   D 58821 8; D 690672 7; D 810982 7; D 95225 8; D 111813 8; D 13129 9; D 154159 8; D 181013 8; D 212544 8; D 249568 8; D 293041 8; D 344086 8;
   D 404024 8; D 474402 8; D 55704 9; D 654072 8; D 768007 8; D 901789 8; D 105887 9; D 124332 9; D 14599 10; D 171421 9; D 201281 9; D 236343 9;
   D 277512 9; D 325853 9; D 382614 9; D 449263 9; D 527522 9; D 619412 9; D 72731 10; D 854002 9; D 100276 10; D 117744 10; D 138254 10; D 162337 10;
   D 190615 10; D 223819 10; D 262806 10; D 308585 10; D 362339 10; D 425456 10; D 499568 10; D 586589 10; D 688769 10; D 808747 10; D 949626 10;
   D 111504 11; D 130928 11; D 153734 11; D 180514 11; D 211958 11; D 24888 12; D 292233 11; D 343138 11; D 402911 11; D 473095 11; D 555505 11;
   D 65227 12; D 765891 11; D 899304 11; D 105596 12; D 12399 13; D 145588 12; D 170948 12; D 200726 12; D 235691 12; D 276747 12; D 324955 12;
   D 38156 13; D 448025 12; D 526068 12; D 617705 12; D 725305 12; D 851649 12; D 1 18];
  [D 992619 5; D 116821 6; D 137487 6; D 161808 6; D 190432 6; D 22412 7; D 263767 6; D 310427 6; D 365342 6; D 429971 6; D 506032 6; D 595549 6;
   D 700902 6; D 824892 6; D 970815 6; D 114255 7; D 134467 7; D 158254 7; D 186249 7; D 219197 7; D 257973 7; D 303608 7; D 357317 7; D 420526 7;
   D 494917 7; D 582468 7; D 685506 7; D 806772 7; D 94949 8; D 111746 8; D 131513 8; D 154778 8; D 182158 8; D 214382 8; D 252306 8; D 296939 8;
   D 349468 8; D 411289 8; D 484046 8; D 569673 8; D 670448 8; D 789051 8; D 928634 8; D 109291 9; D 128624 9; D 151378 9; D 178157 9; D 209673 9;
   D 246764 9; D 290417 9; D 341791 9; D 402254 9; D 473413 9; D 55716 10; D 655721 9; D 771719 9; D 908236 9; D 10689 11; D 125799 10; D 148053 10;
   D 174244 10; D 205067 10; D 241344 10; D 284037 10; D 334284 10; D 393418 10; D 463014 10; D 544921 10; D 641318 10; D 754767 10; D 888285 10;
   D 104542 11; D 123036 11; D 144801 11; D 170416 11; D 200563 11; D 236042 11; D 277798 11; D 326941 11; D 384777 11; D 452844 11; D 532952 11;
   D 627231 11; D 738188 11; D 868773 11; D 102246 12; D 120333 12; D 14162 13; D 166673 12; D 196157 12; D 230857 12; D 271696 12; D 319759 12;
   D 376325 12; D 442896 12; D 521245 12; D 613453 12; D 721973 12; D 84969 13; D 1 18];
  [D 790283 5; D 932228 5; D 109967 6; D 129718 6; D 153017 6; D 180501 6; D 212922 6; D 251165 6; D 296278 6; D 349493 6; D 412267 6; D 486315 6;
   D 573664 6; D 676701 6; D 798246 6; D 941621 6; D 111075 7; D 131025 7; D 154559 7; D 18232 8; D 215067 7; D 253696 7; D 299263 7; D 353015 7;
   D 416421 7; D 491215 7; D 579444 7; D 68352 8; D 806289 7; D 951109 7; D 112194 8; D 132346 8; D 156116 8; D 184157 8; D 217234 8; D 256252 8;
   D 302278 8; D 356572 8; D 420616 8; D 496165 8; D 585282 8; D 690407 8; D 814413 8; D 960692 8; D 113324 9; D 133679 9; D 15769 10; D 186013 9;
   D 219423 9; D 258834 9; D 305324 9; D 360164 9; D 424854 9; D 501164 9; D 591179 9; D 697363 9; D 822619 9; D 970372 9; D 114466 10; D 135026 10;
   D 159278 10; D 187887 10; D 221634 10; D 261442 10; D 3084 12; D 363793 10; D 429135 10; D 506214 10; D 597136 10; D 70439 11; D 830907 10;
   D 980149 10; D 11562 12; D 136386 11; D 160883 11; D 18978 12; D 223867 11; D 264076 11; D 311508 11; D 367459 11; D 433459 11; D 511314 11;
   D 603153 11; D 711487 11; D 839279 11; D 990025 11; D 116785 12; D 137761 12; D 162504 12; D 191692 12; D 226123 12; D 266737 12; D 314647 12;
   D 371161 12; D 437827 12; D 516466 12; D 60923 13; D 718656 12; D 847736 12; D 1 18];
  [D 629191 5; D 743913 5; D 879552 5; D 103992 6; D 122953 6; D 145372 6; D 171878 6; D 203217 6; D 24027 7; D 284079 6; D 335875 6; D 397116 6;
   D 469524 6; D 555133 6; D 656352 6; D 776026 6; D 91752 7; D 108481 7; D 128261 7; D 151647 7; D 179297 7; D 211989 7; D 250642 7; D 296342 7;
   D 350374 7; D 414259 7; D 489792 7; D 579097 7; D 684685 7; D 809525 7; D 957127 7; D 113164 8; D 133798 8; D 158193 8; D 187037 8; D 22114 9;
   D 261461 8; D 309134 8; D 365499 8; D 432141 8; D 510935 8; D 604095 8; D 714241 8; D 84447 9; D 998444 8; D 118049 9; D 139573 9; D 165022 9;
   D 195111 9; D 230686 9; D 272748 9; D 322478 9; D 381277 9; D 450796 9; D 53299 10; D 630172 9; D 745072 9; D 880923 9; D 104154 10; D 123145 10;
   D 145598 10; D 172146 10; D 203534 10; D 240644 10; D 284521 10; D 336399 10; D 397735 10; D 470255 10; D 555998 10; D 657375 10; D 777235 10;
   D 91895 11; D 10865 12; D 128461 11; D 151884 11; D 179577 11; D 21232 12; D 251032 11; D 296804 11; D 35092 12; D 414905 11; D 490555 11;
   D 579999 11; D 685752 11; D 810786 11; D 958619 11; D 113341 12; D 134006 12; D 15844 13; D 187329 12; D 221485 12; D 261869 12; D 309616 12;
   D 366069 12; D 432815 12; D 511731 12; D 605036 12; D 715354 12; D 845786 12; D 1 18];
  [D 500936 5; D 593639 5; D 703496 5; D 833684 5; D 987963 5; D 117079 6; D 138746 6; D 164422 6; D 194849 6; D 230908 6; D 273639 6; D 324278 6;
   D 384289 6; D 455404 6; D 53968 7; D 639552 6; D 757907 6; D 898163 6; D 106438 7; D 126135 7; D 149477 7; D 177139 7; D 20992 8; D 248767 7;
   D 294803 7; D 349359 7; D 414011 7; D 490626 7; D 581421 7; D 689017 7; D 816525 7; D 96763 8; D 11467 9; D 13589 9; D 161038 8; D 190839 8;
   D 226155 8; D 268007 8; D 317604 8; D 376379 8; D 446031 8; D 528573 8; D 62639 9; D 742308 8; D 879678 8; D 104247 9; D 123539 9; D 1464 11;
   D 173493 9; D 205599 9; D 243647 9; D 288736 9; D 342169 9; D 40549 10; D 480529 9; D 569454 9; D 674836 9; D 79972 10; D 947715 9; D 11231 11;
   D 133093 10; D 157723 10; D 186911 10; D 221501 10; D 262491 10; D 311067 10; D 368633 10; D 436851 10; D 517694 10; D 613498 10; D 72703 11;
   D 861573 10; D 102101 11; D 120996 11; D 143387 11; D 169922 11; D 201368 11; D 238632 11; D 282793 11; D 335126 11; D 397144 11; D 470639 11;
   D 557734 11; D 660947 11; D 783261 11; D 92821 12; D 109998 12; D 130354 12; D 154477 12; D 183065 12; D 216942 12; D 257089 12; D 304665 12;
   D 361046 12; D 42786 13; D 507039 12; D 600871 12; D 712067 12; D 843841 12; D 1 18];
  [D 398825 5; D 47372 6; D 56268 6; D 668346 5; D 793854 5; D 942932 5; D 112001 6; D 133033 6; D 158015 6; D 187689 6; D 222935 6; D 2648 8;
   D 314527 6; D 373591 6; D 443748 6; D 527079 6; D 62606 7; D 743627 6; D 883273 6; D 104914 7; D 124616 7; D 148018 7; D 175814 7; D 20883 8;
   D 248046 7; D 294627 7; D 349954 7; D 415672 7; D 493731 7; D 586449 7; D 696578 7; D 827388 7; D 982763 7; D 116732 8; D 138653 8; D 16469 9;
   D 195617 8; D 232352 8; D 275985 8; D 327813 8; D 389373 8; D 462493 8; D 549344 8; D 652505 8; D 775039 8; D 920584 8; D 109346 9; D 12988 10;
   D 15427 10; D 183241 9; D 217651 9; D 258524 9; D 307072 9; D 364737 9; D 433231 9; D 514587 9; D 611221 9; D 726002 9; D 862338 9; D 102428 10;
   D 121663 10; D 144509 10; D 171647 10; D 20388 11; D 242167 10; D 287644 10; D 34166 11; D 40582 11; D 482029 10; D 572549 10; D 680068 10;
   D 807778 10; D 95947 11; D 113965 11; D 135366 11; D 160787 11; D 190981 11; D 226845 11; D 269444 11; D 320043 11; D 380144 11; D 451531 11;
   D 536324 11; D 63704 12; D 75667 12; D 898765 11; D 106754 12; D 126802 12; D 150614 12; D 178898 12; D 212493 12; D 252397 12; D 299794 12;
   D 356092 12; D 422963 12; D 502391 12; D 596735 12; D 708795 12; D 8419 14; D 1 18];
  [D 317528 5; D 378026 5; D 450051 5; D 535798 5; D 637883 5; D 759417 5; D 904107 5; D 107636 6; D 128144 6; D 152559 6; D 181626 6; D 216231 6;
   D 257429 6; D 306476 6; D 364869 6; D 434386 6; D 517149 6; D 61568 7; D 732985 6; D 872639 6; D 10389 8; D 123684 7; D 147249 7; D 175304 7;
   D 208705 7; D 248469 7; D 295809 7; D 352169 7; D 419267 7; D 499149 7; D 594251 7; D 707472 7; D 842265 7; D 100274 8; D 119379 8; D 142124 8;
   D 169203 8; D 20144 9; D 23982 9; D 285513 8; D 339911 8; D 404674 8; D 481775 8; D 573567 8; D 682847 8; D 812949 8; D 967838 8; D 115224 9;
   D 137177 9; D 163313 9; D 194429 9; D 231473 9; D 275575 9; D 32808 10; D 390588 9; D 465006 9; D 553603 9; D 65908 10; D 784653 9; D 934151 9;
   D 111213 10; D 132403 10; D 157629 10; D 187662 10; D 223416 10; D 265983 10; D 316661 10; D 376993 10; D 448821 10; D 534334 10; D 63614 11;
   D 757342 10; D 901637 10; D 107342 11; D 127794 11; D 152142 11; D 18113 12; D 21564 12; D 256726 11; D 305639 11; D 363872 11; D 433199 11;
   D 515736 11; D 613998 11; D 730982 11; D 870254 11; D 103606 12; D 123346 12; D 146847 12; D 174825 12; D 208134 12; D 24779 13; D 295001 12;
   D 351207 12; D 418121 12; D 497785 12; D 592627 12; D 705539 12; D 839964 12; D 1 18];
  [D 252803 5; D 301663 5; D 359966 5; D 429538 5; D 512555 5; D 611618 5; D 729827 5; D 870883 5; D 10392 7; D 124005 6; D 147972 6; D 17657 7;
   D 210697 6; D 251418 6; D 300011 6; D 357994 6; D 427185 6; D 509748 6; D 608268 6; D 725829 6; D 866112 6; D 103351 7; D 123326 7; D 147161 7;
   D 175603 7; D 209542 7; D 250041 7; D 298367 7; D 356033 7; D 424845 7; D 506955 7; D 604936 7; D 721853 7; D 861367 7; D 102785 8; D 12265 9;
   D 146355 8; D 174641 8; D 208394 8; D 248671 8; D 296733 8; D 354083 8; D 422517 8; D 504178 8; D 601622 8; D 717899 8; D 856649 8; D 102222 9;
   D 121978 9; D 145553 9; D 173685 9; D 207253 9; D 247309 9; D 295107 9; D 352143 9; D 420203 9; D 501416 9; D 598326 9; D 713966 9; D 851956 9;
   D 101662 10; D 12131 11; D 144756 10; D 172733 10; D 206118 10; D 245954 10; D 293491 10; D 350214 10; D 417901 10; D 49867 11; D 595049 10;
   D 710055 10; D 847289 10; D 101105 11; D 120645 11; D 143963 11; D 171787 11; D 204988 11; D 244607 11; D 291883 11; D 348296 11; D 415612 11;
   D 495938 11; D 591789 11; D 706165 11; D 842648 11; D 100551 12; D 119985 12; D 143174 12; D 170846 12; D 203866 12; D 243267 12; D 290284 12;
   D 346388 12; D 413335 12; D 493221 12; D 588547 12; D 702297 12; D 838032 12; D 1 18];
  [D 201272 5; D 240726 5; D 287913 5; D 344351 5; D 411852 5; D 492584 5; D 589142 5; D 704627 5; D 842751 5; D 100795 6; D 120553 6; D 144184 6;
   D 172448 6; D 206251 6; D 246681 6; D 295037 6; D 352871 6; D 422042 6; D 504772 6; D 603718 6; D 722061 6; D 863602 6; D 103289 7; D 123536 7;
   D 147752 7; D 176714 7; D 211354 7; D 252785 7; D 302336 7; D 361601 7; D 432484 7; D 51726 8; D 618655 7; D 739926 7; D 884969 7; D 105844 8;
   D 126592 8; D 151407 8; D 181087 8; D 216584 8; D 259039 8; D 309817 8; D 370548 8; D 443184 8; D 530058 8; D 633962 8; D 758233 8; D 906864 8;
   D 108463 9; D 129724 9; D 155153 9; D 185567 9; D 221942 9; D 265448 9; D 317482 9; D 379716 9; D 454149 9; D 543173 9; D 649647 9; D 776993 9;
   D 929302 9; D 111147 10; D 132934 10; D 158992 10; D 190158 10; D 227434 10; D 272016 10; D 325337 10; D 389111 10; D 465386 10; D 556612 10;
   D 665721 10; D 796217 10; D 952294 10; D 113897 11; D 136223 11; D 162926 11; D 194863 11; D 233061 11; D 278746 11; D 333387 11; D 398738 11;
   D 4769 13; D 570383 11; D 682192 11; D 815917 11; D 975856 11; D 116715 12; D 139593 12; D 166957 12; D 199684 12; D 238827 12; D 285643 12;
   D 341635 12; D 408604 12; D 488699 12; D 584496 12; D 69907 13; D 836104 12; D 1 18];
  [D 160244 5; D 192098 5; D 230283 5; D 276059 5; D 330934 5; D 396717 5; D 475576 5; D 570111 5; D 683438 5; D 819292 5; D 982151 5; D 117738 6;
   D 141142 6; D 169199 6; D 202832 6; D 243151 6; D 291485 6; D 349426 6; D 418885 6; D 502151 6; D 601969 6; D 721628 6; D 865074 6; D 103703 7;
   D 124317 7; D 149029 7; D 178653 7; D 214166 7; D 256738 7; D 307773 7; D 368952 7; D 442292 7; D 530211 7; D 635607 7; D 761953 7; D 913414 7;
   D 109498 8; D 131264 8; D 157357 8; D 188637 8; D 226134 8; D 271085 8; D 324971 8; D 389569 8; D 467007 8; D 559839 8; D 671124 8; D 80453 9;
   D 964455 8; D 115617 9; D 138599 9; D 16615 10; D 199177 9; D 23877 10; D 286233 9; D 34313 10; D 411338 9; D 493103 9; D 591123 9; D 708626 9;
   D 849487 9; D 101835 10; D 122078 10; D 146344 10; D 175435 10; D 210307 10; D 252112 10; D 302227 10; D 362304 10; D 434323 10; D 520658 10;
   D 624154 10; D 748224 10; D 896956 10; D 107525 11; D 128899 11; D 154522 11; D 185238 11; D 222059 11; D 2662 13; D 319116 11; D 38255 12;
   D 458593 11; D 549752 11; D 659032 11; D 790034 11; D 947078 11; D 113534 12; D 136102 12; D 163156 12; D 195589 12; D 234468 12; D 281076 12;
   D 336948 12; D 403926 12; D 484219 12; D 580472 12; D 695858 12; D 834181 12; D 1 18];
  [D 12758 6; D 153293 5; D 184188 5; D 22131 6; D 265914 5; D 319507 5; D 383902 5; D 461275 5; D 554242 5; D 665946 5; D 800163 5; D 96143 6;
   D 11552 7; D 138802 6; D 166777 6; D 20039 7; D 240777 6; D 289305 6; D 347612 6; D 417671 6; D 50185 7; D 602995 6; D 724525 6; D 870548 6;
   D 1046 9; D 125682 7; D 151012 7; D 181447 7; D 218017 7; D 261957 7; D 314753 7; D 378189 7; D 454411 7; D 545995 7; D 656036 7; D 788256 7;
   D 947125 7; D 113801 8; D 136737 8; D 164296 8; D 197408 8; D 237195 8; D 285 11; D 34244 9; D 411456 8; D 494383 8; D 594022 8; D 713744 8;
   D 857594 8; D 103044 9; D 123812 9; D 148765 9; D 178748 9; D 214773 9; D 258059 9; D 310069 9; D 372562 9; D 447649 9; D 53787 10; D 646275 9;
   D 776527 9; D 933032 9; D 112108 10; D 134702 10; D 161851 10; D 194471 10; D 233665 10; D 280759 10; D 337344 10; D 405334 10; D 487026 10;
   D 585183 10; D 703123 10; D 844834 10; D 10151 12; D 121969 11; D 146551 11; D 176088 11; D 211577 11; D 254219 11; D 305456 11; D 367018 11;
   D 440989 11; D 529867 11; D 636658 11; D 764973 11; D 919148 11; D 11044 13; D 132698 12; D 159443 12; D 191577 12; D 230188 12; D 276581 12;
   D 332325 12; D 399303 12; D 47978 13; D 576476 12; D 692661 12; D 832263 12; D 1 18];
  [D 101574 5; D 122327 5; D 14732 6; D 177419 5; D 213669 5; D 257324 5; D 309899 5; D 373215 5; D 449468 5; D 541301 5; D 651896 5; D 785087 5;
   D 945491 5; D 113867 6; D 137131 6; D 165149 6; D 198891 6; D 239527 6; D 288466 6; D 347404 6; D 418383 6; D 503864 6; D 606811 6; D 73079 7;
   D 8801 8; D 105992 7; D 127647 7; D 153727 7; D 185136 7; D 222962 7; D 268516 7; D 323377 7; D 389447 7; D 469017 7; D 564843 7; D 680248 7;
   D 819232 7; D 986613 7; D 118819 8; D 143095 8; D 172332 8; D 207541 8; D 249945 8; D 301012 8; D 362513 8; D 436579 8; D 525778 8; D 633202 8;
   D 762574 8; D 918378 8; D 110602 9; D 133199 9; D 160413 9; D 193188 9; D 232659 9; D 280194 9; D 337442 9; D 406385 9; D 489415 9; D 58941 10;
   D 709834 9; D 854863 9; D 102952 10; D 123987 10; D 149319 10; D 179827 10; D 216568 10; D 260816 10; D 314104 10; D 37828 11; D 455567 10;
   D 548646 10; D 660742 10; D 79574 11; D 95832 11; D 115412 11; D 138992 11; D 16739 12; D 20159 12; D 242778 11; D 29238 12; D 352118 11; D 42406 12;
   D 510701 11; D 615044 11; D 740706 11; D 892043 11; D 10743 13; D 129379 12; D 155813 12; D 187648 12; D 225987 12; D 272159 12; D 327765 12;
   D 394732 12; D 475381 12; D 572508 12; D 689479 12; D 830349 12; D 1 18];
  [D 808691 4; D 976163 4; D 117832 5; D 142233 5; D 171688 5; D 207243 5; D 250161 5; D 301967 5; D 364501 5; D 439986 5; D 531102 5; D 641088 5;
   D 773851 5; D 934108 5; D 112755 6; D 136106 6; D 164292 6; D 198315 6; D 239384 6; D 288958 6; D 348798 6; D 42103 7; D 508222 6; D 613469 6;
   D 740512 6; D 893865 6; D 107898 7; D 130242 7; D 157214 7; D 189771 7; D 229071 7; D 276509 7; D 333771 7; D 402892 7; D 486327 7; D 58704 8;
   D 70861 8; D 855356 7; D 103249 8; D 124631 8; D 150441 8; D 181595 8; D 219202 8; D 264596 8; D 319392 8; D 385534 8; D 465375 8; D 561749 8;
   D 678082 8; D 818505 8; D 988009 8; D 119262 9; D 143959 9; D 173772 9; D 209758 9; D 253197 9; D 305632 9; D 368925 9; D 445326 9; D 537548 9;
   D 648869 9; D 783243 9; D 945444 9; D 114124 10; D 137757 10; D 166286 10; D 200722 10; D 242289 10; D 292465 10; D 353031 10; D 42614 11;
   D 514389 10; D 620914 10; D 749499 10; D 904713 10; D 109207 11; D 131823 11; D 159122 11; D 192074 11; D 231851 11; D 279865 11; D 337822 11;
   D 407781 11; D 492229 11; D 594164 11; D 717209 11; D 865736 11; D 104502 12; D 126143 12; D 152266 12; D 183799 12; D 221862 12; D 267808 12;
   D 323268 12; D 390213 12; D 471023 12; D 568567 12; D 686311 12; D 828439 12; D 1 18];
  [D 643847 4; D 778973 4; D 942457 4; D 114025 5; D 137956 5; D 166909 5; D 201939 5; D 24432 6; D 295596 5; D 357634 5; D 432691 5; D 523501 5;
   D 63337 6; D 766297 5; D 927121 5; D 11217 7; D 135711 6; D 164193 6; D 198653 6; D 240345 6; D 290786 6; D 351814 6; D 42565 7; D 514983 6;
   D 623063 6; D 753827 6; D 912035 6; D 110345 7; D 133503 7; D 161521 7; D 19542 8; D 236434 7; D 286055 7; D 346089 7; D 418724 7; D 506603 7;
   D 612925 7; D 741561 7; D 897194 7; D 108549 8; D 13133 9; D 158893 8; D 19224 9; D 232586 8; D 2814 10; D 340458 8; D 41191 9; D 498359 8;
   D 602951 8; D 729494 8; D 882594 8; D 106783 9; D 129193 9; D 156307 9; D 189112 9; D 228802 9; D 276821 9; D 334918 9; D 405208 9; D 49025 10;
   D 593139 9; D 717623 9; D 868232 9; D 105045 10; D 127091 10; D 153764 10; D 186035 10; D 225078 10; D 272316 10; D 329468 10; D 398614 10;
   D 482272 10; D 583488 10; D 705946 10; D 854104 10; D 103336 11; D 125023 11; D 151262 11; D 183008 11; D 221416 11; D 267885 11; D 324107 11;
   D 392128 11; D 474424 11; D 573993 11; D 694458 11; D 840206 11; D 101654 12; D 122989 12; D 1488 14; D 18003 13; D 217813 12; D 263526 12;
   D 318832 12; D 385747 12; D 466704 12; D 564653 12; D 683158 12; D 826533 12; D 1 18];
  [D 512605 4; D 621616 4; D 75381 5; D 914116 4; D 110851 5; D 134425 5; D 163012 5; D 197679 5; D 239717 5; D 290696 5; D 352516 5; D 427482 5;
   D 518391 5; D 628633 5; D 762319 5; D 924434 5; D 112103 6; D 135943 6; D 164852 6; D 19991 7; D 242423 6; D 293977 6; D 356495 6; D 432307 6;
   D 524243 6; D 635729 6; D 770924 6; D 934869 6; D 113368 7; D 137477 7; D 166713 7; D 202167 7; D 24516 8; D 297296 7; D 360519 7; D 437187 7;
   D 53016 8; D 642905 7; D 779626 7; D 945422 7; D 114648 8; D 139029 8; D 168595 8; D 204449 8; D 247927 8; D 300651 8; D 364588 8; D 442122 8;
   D 536145 8; D 650162 8; D 788426 8; D 956094 8; D 115942 9; D 140598 9; D 170498 9; D 206756 9; D 250725 9; D 304045 9; D 368704 9; D 447113 9;
   D 542197 9; D 657501 9; D 797326 9; D 966886 9; D 117251 10; D 142185 10; D 172423 10; D 20909 11; D 253556 10; D 307477 10; D 372866 10; D 45216 11;
   D 548317 10; D 664923 10; D 806326 10; D 977801 10; D 118574 11; D 14379 12; D 174369 11; D 21145 12; D 256418 11; D 310948 11; D 377075 11;
   D 457264 11; D 554506 11; D 672428 11; D 815428 11; D 988838 11; D 119913 12; D 145413 12; D 176337 12; D 213837 12; D 259312 12; D 314458 12;
   D 381331 12; D 462425 12; D 560766 12; D 680019 12; D 824632 12; D 1 18];
  [D 408115 4; D 496046 4; D 602923 4; D 732827 4; D 890719 4; D 108263 5; D 131589 5; D 159941 5; D 194401 5; D 236286 5; D 287196 5; D 349074 5;
   D 424285 5; D 5157 7; D 626811 5; D 761862 5; D 92601 6; D 112553 6; D 136803 6; D 166278 6; D 202104 6; D 245648 6; D 298575 6; D 362905 6;
   D 441095 6; D 536132 6; D 651645 6; D 792047 6; D 962699 6; D 117012 7; D 142223 7; D 172866 7; D 210111 7; D 255381 7; D 310404 7; D 377283 7;
   D 458572 7; D 557374 7; D 677464 7; D 823428 7; D 100084 8; D 121648 8; D 147858 8; D 179715 8; D 218436 8; D 265499 8; D 322703 8; D 392231 8;
   D 47674 9; D 579457 8; D 704305 8; D 856053 8; D 10405 10; D 126468 9; D 153716 9; D 186835 9; D 22709 10; D 276018 9; D 335488 9; D 407772 9;
   D 495629 9; D 602416 9; D 73221 10; D 88997 10; D 108172 10; D 131478 10; D 159806 10; D 194238 10; D 236088 10; D 286954 10; D 348781 10;
   D 423928 10; D 515266 10; D 626284 10; D 761221 10; D 925231 10; D 112458 11; D 136688 11; D 166138 11; D 201934 11; D 245442 11; D 298324 11;
   D 3626 13; D 440724 11; D 535681 11; D 651097 11; D 791381 11; D 961889 11; D 116914 12; D 142103 12; D 17272 13; D 209934 12; D 255166 12;
   D 310143 12; D 376966 12; D 458186 12; D 556905 12; D 676894 12; D 822736 12; D 1 18];
  [D 324925 4; D 395842 4; D 482238 4; D 587491 4; D 715716 4; D 871928 4; D 106223 5; D 129408 5; D 157652 5; D 192061 5; D 23398 6; D 285048 5;
   D 347262 5; D 423055 5; D 515391 5; D 627879 5; D 764919 5; D 93187 6; D 113526 6; D 138304 6; D 16849 7; D 205264 6; D 250065 6; D 304644 6;
   D 371135 6; D 452139 6; D 550822 6; D 671044 6; D 817505 6; D 995933 6; D 12133 8; D 147812 7; D 180073 7; D 219376 7; D 267256 7; D 325587 7;
   D 39665 8; D 483222 7; D 588689 7; D 717176 7; D 873706 7; D 10644 9; D 129671 8; D 157973 8; D 192453 8; D 234457 8; D 285629 8; D 34797 9;
   D 423918 8; D 516442 8; D 62916 9; D 76648 9; D 933771 8; D 113757 9; D 138586 9; D 168834 9; D 205683 9; D 250575 9; D 305265 9; D 371892 9;
   D 453061 9; D 551946 9; D 672413 9; D 819173 9; D 997964 9; D 121578 10; D 148113 10; D 18044 11; D 219823 10; D 267801 10; D 326251 10; D 397459 10;
   D 484208 10; D 58989 11; D 718639 10; D 875488 10; D 106657 11; D 129936 11; D 158296 11; D 192845 11; D 234935 11; D 286212 11; D 34868 12;
   D 424783 11; D 517495 11; D 630443 11; D 768043 11; D 935675 11; D 113989 12; D 138869 12; D 169178 12; D 206103 12; D 251086 12; D 305888 12;
   D 372651 12; D 453985 12; D 553072 12; D 673784 12; D 820844 12; D 1 18];
  [D 258692 4; D 31588 5; D 385711 4; D 470979 4; D 575097 4; D 702232 4; D 857472 4; D 104703 5; D 12785 6; D 156113 5; D 190624 5; D 232765 5;
   D 284222 5; D 347054 5; D 423776 5; D 517459 5; D 631852 5; D 771534 5; D 942095 5; D 115036 6; D 140467 6; D 17152 7; D 209437 6; D 255736 6;
   D 312271 6; D 381304 6; D 465598 6; D 568527 6; D 694209 6; D 847676 6; D 103507 7; D 126389 7; D 154329 7; D 188447 7; D 230106 7; D 280975 7;
   D 343089 7; D 418935 7; D 511548 7; D 624634 7; D 76272 8; D 931333 7; D 113722 8; D 138862 8; D 16956 9; D 207044 8; D 252815 8; D 308704 8;
   D 376948 8; D 460279 8; D 562032 8; D 686279 8; D 837993 8; D 102325 9; D 124945 9; D 152566 9; D 186294 9; D 227477 9; D 277765 9; D 33917 10;
   D 414149 9; D 505704 9; D 617499 9; D 754007 9; D 920693 9; D 112423 10; D 137276 10; D 167623 10; D 204679 10; D 249927 10; D 305177 10;
   D 372642 10; D 455021 10; D 555611 10; D 678439 10; D 82842 11; D 101156 11; D 123518 11; D 150824 11; D 184166 11; D 224879 11; D 274592 11;
   D 335295 11; D 409418 11; D 499927 11; D 610444 11; D 745393 11; D 910176 11; D 111139 12; D 135708 12; D 165708 12; D 202341 12; D 247072 12;
   D 301691 12; D 368385 12; D 449823 12; D 549264 12; D 670689 12; D 818956 12; D 1 18];
  [D 20596 5; D 252071 4; D 308505 4; D 377573 4; D 462105 4; D 565562 4; D 692182 4; D 847149 4; D 103681 5; D 126893 5; D 155302 5; D 190072 5;
   D 232626 5; D 284706 5; D 348447 5; D 426458 5; D 521934 5; D 638786 5; D 781799 5; D 956829 5; D 117105 6; D 143322 6; D 17541 7; D 214681 6;
   D 262744 6; D 321567 6; D 39356 7; D 481672 6; D 589509 6; D 72149 7; D 883018 6; D 108071 7; D 132266 7; D 161878 7; D 19812 8; D 242475 7;
   D 296761 7; D 363201 7; D 444515 7; D 544034 7; D 665833 7; D 814901 7; D 997343 7; D 122063 8; D 149391 8; D 182837 8; D 22377 9; D 273869 8;
   D 335183 8; D 410224 8; D 502066 8; D 61447 9; D 752039 8; D 920407 8; D 112647 9; D 137867 9; D 168732 9; D 206509 9; D 252742 9; D 309327 9;
   D 378579 9; D 463336 9; D 567069 9; D 694026 9; D 849405 9; D 103957 10; D 127231 10; D 155716 10; D 190578 10; D 233245 10; D 285465 10;
   D 349375 10; D 427594 10; D 523325 10; D 640488 10; D 783881 10; D 959378 10; D 117417 11; D 143704 11; D 175877 11; D 215252 11; D 263444 11;
   D 322424 11; D 394609 11; D 482955 11; D 59108 12; D 723412 11; D 885371 11; D 108359 12; D 132619 12; D 162309 12; D 198648 12; D 243121 12;
   D 297552 12; D 364168 12; D 445699 12; D 545483 12; D 667607 12; D 817072 12; D 1 18];
  [D 163977 4; D 201151 4; D 246753 4; D 302692 4; D 371314 4; D 455492 4; D 558753 4; D 685424 4; D 840812 4; D 103143 5; D 126526 5; D 155209 5;
   D 190396 5; D 233559 5; D 286508 5; D 35146 6; D 431137 5; D 528878 5; D 648776 5; D 795856 5; D 976279 5; D 11976 7; D 146911 6; D 180216 6;
   D 221071 6; D 271189 6; D 332668 6; D 408085 6; D 5006 8; D 614087 6; D 753303 6; D 924079 6; D 113357 7; D 139056 7; D 17058 8; D 209251 7;
   D 256689 7; D 314881 7; D 386266 7; D 473834 7; D 581253 7; D 713025 7; D 874671 7; D 107296 8; D 131621 8; D 161459 8; D 198063 8; D 242964 8;
   D 298045 8; D 365613 8; D 448499 8; D 550175 8; D 674901 8; D 827904 8; D 101559 9; D 124583 9; D 152826 9; D 187473 9; D 229973 9; D 282109 9;
   D 346064 9; D 424518 9; D 520758 9; D 638816 9; D 783637 9; D 96129 10; D 117922 10; D 144655 10; D 177449 10; D 217677 10; D 267025 10; D 327561 10;
   D 40182 11; D 492914 10; D 604659 10; D 741738 10; D 909892 10; D 111617 11; D 136921 11; D 167961 11; D 206038 11; D 252748 11; D 310047 11;
   D 380336 11; D 466559 11; D 572329 11; D 702078 11; D 861242 11; D 105649 12; D 1296 14; D 158981 12; D 195022 12; D 239234 12; D 293469 12; D 36 16;
   D 441613 12; D 541728 12; D 66454 13; D 815193 12; D 1 18];
  [D 130552 4; D 160517 4; D 197361 4; D 242662 4; D 29836 5; D 366843 4; D 451045 4; D 554574 4; D 681866 4; D 838376 4; D 103081 5; D 126741 5;
   D 155832 5; D 191601 5; D 235579 5; D 289652 5; D 356136 5; D 43788 6; D 538387 5; D 661964 5; D 813905 5; D 100072 6; D 123042 6; D 151284 6;
   D 186008 6; D 228703 6; D 281197 6; D 345741 6; D 425099 6; D 522673 6; D 642643 6; D 790149 6; D 971513 6; D 119451 7; D 146868 7; D 180579 7;
   D 222028 7; D 27299 8; D 33565 8; D 412692 7; D 507417 7; D 623886 7; D 767087 7; D 943157 7; D 115964 8; D 142582 8; D 175308 8; D 215547 8;
   D 265022 8; D 325853 8; D 400646 8; D 492607 8; D 605676 8; D 744697 8; D 915629 8; D 112579 9; D 13842 10; D 170192 9; D 209256 9; D 257287 9;
   D 316342 9; D 388952 9; D 478229 9; D 587998 9; D 722961 9; D 888904 9; D 109293 10; D 13438 11; D 165224 10; D 203148 10; D 249777 10; D 307109 10;
   D 3776 12; D 464271 10; D 570835 10; D 70186 11; D 862958 10; D 106103 11; D 130457 11; D 160402 11; D 197219 11; D 242487 11; D 298145 11;
   D 366578 11; D 45072 12; D 554174 11; D 681374 11; D 837771 11; D 103007 12; D 12665 13; D 15572 13; D 191462 12; D 235409 12; D 289443 12;
   D 355879 12; D 437564 12; D 537999 12; D 661486 12; D 813318 12; D 1 18];
  [D 10394 5; D 128092 4; D 157856 4; D 194537 4; D 23974 5; D 295448 4; D 364099 4; D 448704 4; D 552967 4; D 681457 4; D 839805 4; D 103495 5;
   D 127543 5; D 15718 6; D 193703 5; D 238713 5; D 294182 5; D 362539 5; D 446781 5; D 550598 5; D 678538 5; D 836207 5; D 103051 6; D 126997 6;
   D 156506 6; D 192873 6; D 23769 7; D 292921 6; D 360986 6; D 444867 6; D 548239 6; D 675631 6; D 832624 6; D 10261 8; D 126453 7; D 155836 7;
   D 192047 7; D 236672 7; D 291666 7; D 35944 8; D 442961 7; D 54589 8; D 672736 7; D 829056 7; D 10217 9; D 125911 8; D 155168 8; D 191224 8;
   D 235658 8; D 290417 8; D 357899 8; D 441063 8; D 543551 8; D 669853 8; D 825504 8; D 101732 9; D 125371 9; D 154503 9; D 190405 9; D 234648 9;
   D 289172 9; D 356366 9; D 439173 9; D 541222 9; D 666983 9; D 821967 9; D 101296 10; D 124834 10; D 153841 10; D 189589 10; D 233643 10; D 287933 10;
   D 354839 10; D 437292 10; D 538903 10; D 664126 10; D 818446 10; D 100862 11; D 124299 11; D 153182 11; D 188777 11; D 232642 11; D 2867 13;
   D 353319 11; D 435418 11; D 536594 11; D 66128 12; D 814939 11; D 10043 13; D 123767 12; D 152526 12; D 187968 12; D 231645 12; D 285471 12;
   D 351805 12; D 433553 12; D 534295 12; D 658447 12; D 811448 12; D 1 18];
  [D 827528 3; D 102217 4; D 126259 4; D 155956 4; D 192638 4; D 237947 4; D 293914 4; D 363044 4; D 448435 4; D 553909 4; D 684192 4; D 845119 4;
   D 10439 6; D 128943 5; D 159271 5; D 196733 5; D 243005 5; D 300162 5; D 370762 5; D 457967 5; D 565684 5; D 698737 5; D 863084 5; D 106609 6;
   D 131684 6; D 162657 6; D 200915 6; D 248171 6; D 306542 6; D 378643 6; D 467702 6; D 577709 6; D 71359 7; D 881431 6; D 108875 7; D 134483 7;
   D 166114 7; D 205186 7; D 253446 7; D 313059 7; D 386692 7; D 477645 7; D 58999 8; D 728759 7; D 900168 7; D 111189 8; D 137342 8; D 169646 8;
   D 209547 8; D 258834 8; D 319714 8; D 394912 8; D 487798 8; D 602532 8; D 744251 8; D 919304 8; D 113553 9; D 140261 9; D 173252 9; D 214002 9;
   D 264336 9; D 32651 10; D 403307 9; D 498168 9; D 61534 10; D 760072 9; D 938846 9; D 115967 10; D 143243 10; D 176935 10; D 218551 10; D 269955 10;
   D 333451 10; D 41188 11; D 508757 10; D 62842 11; D 776229 10; D 958803 10; D 118432 11; D 146288 11; D 180696 11; D 223197 11; D 275694 11;
   D 340539 11; D 420636 11; D 519572 11; D 641779 11; D 79273 12; D 979185 11; D 12095 13; D 149398 12; D 184537 12; D 227941 12; D 281555 12;
   D 347778 12; D 429578 12; D 530617 12; D 655422 12; D 809581 12; D 1 18];
  [D 658844 3; D 815684 3; D 100986 4; D 125026 4; D 154789 4; D 191637 4; D 237258 4; D 293738 4; D 363663 4; D 450234 4; D 557415 4; D 690109 4;
   D 854392 4; D 105778 5; D 130959 5; D 162135 5; D 200732 5; D 248517 5; D 307677 5; D 380921 5; D 4716 7; D 583866 5; D 722858 5; D 894937 5;
   D 110798 6; D 137174 6; D 169829 6; D 210257 6; D 26031 7; D 322278 6; D 398997 6; D 49398 7; D 611574 6; D 757161 6; D 937406 6; D 116056 7;
   D 143684 7; D 177888 7; D 220235 7; D 272663 7; D 337571 7; D 417931 7; D 517422 7; D 640596 7; D 793092 7; D 981891 7; D 121563 8; D 150502 8;
   D 18633 9; D 230686 8; D 285602 8; D 353591 8; D 437764 8; D 541976 8; D 670995 8; D 830728 8; D 102849 9; D 127332 9; D 157644 9; D 195172 9;
   D 241633 9; D 299155 9; D 37037 10; D 458538 9; D 567695 9; D 702837 9; D 87015 10; D 107729 10; D 133375 10; D 165125 10; D 204434 10; D 2531 12;
   D 313351 10; D 387946 10; D 480298 10; D 594635 10; D 73619 11; D 911443 10; D 112842 11; D 139704 11; D 172961 11; D 214135 11; D 265111 11;
   D 328221 11; D 406356 11; D 50309 12; D 622853 11; D 771126 11; D 954695 11; D 118196 12; D 146334 12; D 181169 12; D 224297 12; D 277691 12;
   D 343797 12; D 425639 12; D 526964 12; D 65241 13; D 807719 12; D 1 18];
  [D 524545 3; D 650912 3; D 807722 3; D 100231 4; D 124377 4; D 154341 4; D 191523 4; D 237662 4; D 294917 4; D 365964 4; D 454128 4; D 563531 4;
   D 69929 5; D 867755 4; D 10768 6; D 133621 5; D 165812 5; D 205757 5; D 255326 5; D 316836 5; D 393164 5; D 487881 5; D 605415 5; D 751264 5;
   D 93225 6; D 115684 6; D 143553 6; D 178136 6; D 22105 7; D 274303 6; D 340384 6; D 422386 6; D 524142 6; D 650412 6; D 807101 6; D 100154 7;
   D 124282 7; D 154222 7; D 191375 7; D 237479 7; D 29469 8; D 365683 7; D 453779 7; D 563098 7; D 698753 7; D 867088 7; D 107598 8; D 133519 8;
   D 165685 8; D 205599 8; D 25513 9; D 316593 8; D 392862 8; D 487506 8; D 60495 9; D 750687 8; D 931534 8; D 115595 9; D 143442 9; D 177999 9;
   D 22088 10; D 274092 9; D 340123 9; D 422061 9; D 523739 9; D 649912 9; D 806481 9; D 100077 10; D 124186 10; D 154104 10; D 191228 10; D 237297 10;
   D 294464 10; D 365402 10; D 453431 10; D 562666 10; D 698216 10; D 866422 10; D 107515 11; D 133416 11; D 165557 11; D 205441 11; D 254934 11;
   D 316349 11; D 39256 12; D 487131 11; D 604485 11; D 75011 12; D 930818 11; D 115506 12; D 143332 12; D 177862 12; D 220711 12; D 273881 12;
   D 339862 12; D 421737 12; D 523337 12; D 649413 12; D 805862 12; D 1 18];
  [D 417621 3; D 519424 3; D 646043 3; D 803529 3; D 999403 3; D 124303 4; D 154604 4; D 192291 4; D 239166 4; D 297467 4; D 36998 5; D 46017 5;
   D 572344 4; D 711864 4; D 885394 4; D 110123 5; D 136967 5; D 170355 5; D 211882 5; D 263533 5; D 327774 5; D 407675 5; D 507053 5; D 630656 5;
   D 78439 6; D 9756 7; D 121342 6; D 150921 6; D 187711 6; D 233469 6; D 290382 6; D 361168 6; D 449209 6; D 558713 6; D 694909 6; D 864306 6;
   D 1075 9; D 133705 7; D 166298 7; D 206836 7; D 257256 7; D 319967 7; D 397965 7; D 494976 7; D 615636 7; D 765708 7; D 952364 7; D 118452 8;
   D 147327 8; D 183241 8; D 227909 8; D 283466 8; D 352566 8; D 43851 9; D 545405 8; D 678358 8; D 84372 9; D 104939 9; D 13052 10; D 162337 9;
   D 20191 10; D 251129 9; D 312346 9; D 388486 9; D 483187 9; D 600973 9; D 747471 9; D 929681 9; D 115631 10; D 143818 10; D 178876 10; D 222481 10;
   D 276714 10; D 344169 10; D 428066 10; D 532415 10; D 662201 10; D 823625 10; D 10244 12; D 127411 11; D 15847 12; D 197101 11; D 245147 11;
   D 304907 11; D 379233 11; D 471678 11; D 586659 11; D 729668 11; D 907538 11; D 112877 12; D 140392 12; D 174616 12; D 217182 12; D 270124 12;
   D 335971 12; D 417871 12; D 519734 12; D 646429 12; D 804008 12; D 1 18];
  [D 332493 3; D 414498 3; D 516728 3; D 644171 3; D 803047 3; D 100111 4; D 124802 4; D 155582 4; D 193954 4; D 24179 5; D 301424 4; D 375766 4;
   D 468444 4; D 583979 4; D 728009 4; D 907562 4; D 11314 6; D 141044 5; D 175831 5; D 219197 5; D 273259 5; D 340654 5; D 424672 5; D 529411 5;
   D 659982 5; D 822757 5; D 102568 6; D 127865 6; D 159401 6; D 198715 6; D 247725 6; D 308823 6; D 384989 6; D 479942 6; D 598312 6; D 745878 6;
   D 929838 6; D 115917 7; D 144506 7; D 180146 7; D 224577 7; D 279966 7; D 349015 7; D 435095 7; D 542405 7; D 676181 7; D 842952 7; D 105085 8;
   D 131003 8; D 163313 8; D 203592 8; D 253805 8; D 316403 8; D 394439 8; D 491722 8; D 612998 8; D 764185 8; D 95266 9; D 118762 9; D 148053 9;
   D 184568 9; D 230089 9; D 286837 9; D 357582 9; D 445774 9; D 555718 9; D 692778 9; D 863642 9; D 107665 10; D 134219 10; D 167322 10; D 208589 10;
   D 260035 10; D 324169 10; D 40412 11; D 503791 10; D 628044 10; D 782942 10; D 976043 10; D 121677 11; D 151687 11; D 189098 11; D 235737 11;
   D 293878 11; D 366359 11; D 456716 11; D 569358 11; D 709782 11; D 88484 12; D 110307 12; D 137513 12; D 171429 12; D 213709 12; D 266417 12;
   D 332125 12; D 414039 12; D 516156 12; D 643459 12; D 802159 12; D 1 18];
  [D 264717 3; D 330767 3; D 413296 3; D 516418 3; D 645269 3; D 80627 4; D 100744 4; D 125881 4; D 157289 4; D 196534 4; D 245572 4; D 306844 4;
   D 383405 4; D 479068 4; D 5986 6; D 747956 4; D 934578 4; D 116776 5; D 145913 5; D 18232 6; D 227811 5; D 284652 5; D 355675 5; D 444419 5;
   D 555306 5; D 69386 6; D 866985 5; D 108331 6; D 13536 7; D 169134 6; D 211334 6; D 264064 6; D 329951 6; D 412276 6; D 515143 6; D 643676 6;
   D 80428 7; D 100496 7; D 12557 8; D 156901 7; D 196049 7; D 244966 7; D 306087 7; D 382458 7; D 477885 7; D 597122 7; D 74611 8; D 932271 7;
   D 116488 8; D 145553 8; D 18187 9; D 227248 8; D 283949 8; D 354797 8; D 443322 8; D 553935 8; D 692147 8; D 864845 8; D 108063 9; D 135026 9;
   D 168716 9; D 210812 9; D 263412 9; D 329136 9; D 411259 9; D 513872 9; D 642087 9; D 802294 9; D 100247 10; D 12526 11; D 156514 10; D 195565 10;
   D 244361 10; D 305331 10; D 381514 10; D 476706 10; D 595648 10; D 744268 10; D 92997 11; D 116201 11; D 145194 11; D 181421 11; D 226687 11;
   D 283248 11; D 353921 11; D 442228 11; D 552568 11; D 690439 11; D 86271 12; D 107796 12; D 134693 12; D 1683 14; D 210292 12; D 262762 12;
   D 328324 12; D 410244 12; D 512603 12; D 640503 12; D 800314 12; D 1 18];
  [D 210757 3; D 26395 4; D 330569 3; D 414001 3; D 518491 3; D 649352 3; D 813242 3; D 10185 5; D 127555 4; D 159749 4; D 200068 4; D 250564 4;
   D 313803 4; D 393004 4; D 492194 4; D 616419 4; D 771997 4; D 966841 4; D 121086 5; D 151647 5; D 189921 5; D 237856 5; D 297888 5; D 373072 5;
   D 467232 5; D 585156 5; D 732844 5; D 917806 5; D 114945 6; D 143956 6; D 180289 6; D 225792 6; D 28278 7; D 354151 6; D 443535 6; D 555479 6;
   D 695676 6; D 871258 6; D 109115 7; D 136655 7; D 171145 7; D 214341 7; D 268438 7; D 336189 7; D 42104 8; D 527307 7; D 660394 7; D 82707 8;
   D 103581 8; D 129724 8; D 162465 8; D 20347 9; D 254824 8; D 319139 8; D 399686 8; D 500563 8; D 6269 10; D 785124 8; D 983281 8; D 123145 9;
   D 154226 9; D 193151 9; D 2419 11; D 302953 9; D 379415 9; D 475176 9; D 595106 9; D 745305 9; D 933412 9; D 1169 12; D 146404 10; D 183355 10;
   D 229632 10; D 287588 10; D 360173 10; D 451077 10; D 564924 10; D 707505 10; D 886072 10; D 110971 11; D 138979 11; D 174055 11; D 217985 11;
   D 273003 11; D 341906 11; D 428199 11; D 536273 11; D 671622 11; D 841133 11; D 105343 12; D 13193 13; D 165228 12; D 20693 13; D 259157 12;
   D 324565 12; D 406482 12; D 509074 12; D 63756 13; D 798473 12; D 1 18];
  [D 167796 3; D 210631 3; D 2644 5; D 331895 3; D 416621 3; D 522974 3; D 656478 3; D 824061 3; D 103443 4; D 129849 4; D 162997 4; D 204606 4;
   D 256837 4; D 322401 4; D 404703 4; D 508015 4; D 637699 4; D 800489 4; D 100484 5; D 126135 5; D 158334 5; D 198753 5; D 24949 6; D 313179 5;
   D 393126 5; D 493483 5; D 619457 5; D 777591 5; D 976092 5; D 122527 6; D 153805 6; D 193068 6; D 242353 6; D 30422 7; D 381881 6; D 479366 6;
   D 601738 6; D 755347 6; D 94817 7; D 119022 7; D 149405 7; D 187545 7; D 235421 7; D 295518 7; D 370957 7; D 465654 7; D 584525 7; D 73374 8;
   D 921047 7; D 115617 8; D 145131 8; D 18218 9; D 228686 8; D 287065 8; D 360346 8; D 452334 8; D 567804 8; D 712751 8; D 8947 10; D 11231 10;
   D 14098 10; D 176969 9; D 222145 9; D 278853 9; D 350038 9; D 439395 9; D 551562 9; D 692363 9; D 869107 9; D 109097 10; D 136947 10; D 171906 10;
   D 21579 11; D 270876 10; D 340025 10; D 426825 10; D 535784 10; D 672558 10; D 844246 10; D 105976 11; D 13303 12; D 166989 11; D 209617 11;
   D 263128 11; D 330298 11; D 414616 11; D 520458 11; D 653319 11; D 820096 11; D 102945 12; D 129224 12; D 162212 12; D 203621 12; D 255601 12;
   D 32085 13; D 402756 12; D 50557 13; D 63463 13; D 796637 12; D 1 18];
  [D 133593 3; D 168082 3; D 211476 3; D 266073 3; D 334766 3; D 421192 3; D 529932 3; D 666745 3; D 838879 3; D 105545 4; D 132794 4; D 167077 4;
   D 210212 4; D 264483 4; D 332764 4; D 418674 4; D 526764 4; D 662758 4; D 833863 4; D 104914 5; D 132 8; D 166079 5; D 208955 5; D 262901 5;
   D 330775 5; D 416171 5; D 523614 5; D 658796 5; D 828878 5; D 104287 6; D 131211 6; D 165086 6; D 207706 6; D 261329 6; D 328797 6; D 413683 6;
   D 520484 6; D 654857 6; D 823922 6; D 103663 7; D 130426 7; D 164099 7; D 206464 7; D 259767 7; D 326831 7; D 41121 8; D 517372 7; D 650942 7;
   D 818996 7; D 103044 8; D 129647 8; D 163118 8; D 20523 9; D 258214 8; D 324877 8; D 408751 8; D 514279 8; D 64705 9; D 8141 10; D 102428 9;
   D 128871 9; D 162142 9; D 204003 9; D 25667 10; D 322935 9; D 406307 9; D 511204 9; D 643182 9; D 809233 9; D 101815 10; D 128101 10; D 161173 10;
   D 202783 10; D 255136 10; D 321004 10; D 403878 10; D 508148 10; D 639336 10; D 804394 10; D 101207 11; D 127335 11; D 160209 11; D 201571 11;
   D 25361 12; D 319085 11; D 401463 11; D 50511 12; D 635514 11; D 799585 11; D 100601 12; D 126574 12; D 159251 12; D 200366 12; D 252094 12;
   D 317177 12; D 399063 12; D 50209 13; D 631715 12; D 794805 12; D 1 18];
  [D 106361 3; D 134129 3; D 169146 3; D 213305 3; D 268993 3; D 339219 3; D 42778 4; D 53946 4; D 680298 3; D 857904 3; D 108188 4; D 136433 4;
   D 172051 4; D 216969 4; D 273613 4; D 345045 4; D 435127 4; D 548726 4; D 691982 4; D 872639 4; D 110046 5; D 138776 5; D 175006 5; D 220695 5;
   D 278312 5; D 350971 5; D 4426 7; D 55815 6; D 703867 5; D 887626 5; D 111936 6; D 141159 6; D 178012 6; D 224486 6; D 283092 6; D 356999 6;
   D 450202 6; D 567736 6; D 715956 6; D 902871 6; D 113858 7; D 143584 7; D 181069 7; D 228341 7; D 287954 7; D 363131 7; D 457934 7; D 577487 7;
   D 728252 7; D 918378 7; D 115814 8; D 14605 9; D 184179 8; D 232263 8; D 2929 10; D 369368 8; D 465799 8; D 587406 8; D 74076 9; D 934151 8;
   D 117803 9; D 148558 9; D 187342 9; D 236252 9; D 297931 9; D 375712 9; D 473799 9; D 597494 9; D 753483 9; D 950195 9; D 119826 10; D 15111 11;
   D 19056 11; D 24031 11; D 303048 10; D 382164 10; D 481937 10; D 607756 10; D 766424 10; D 966515 10; D 121884 11; D 153705 11; D 193833 11;
   D 244437 11; D 308252 11; D 388728 11; D 490214 11; D 618195 11; D 779587 11; D 983115 11; D 123978 12; D 156345 12; D 197162 12; D 248635 12;
   D 313547 12; D 395405 12; D 498633 12; D 628812 12; D 792977 12; D 1 18];
  [D 846803 2; D 107034 3; D 135289 3; D 171002 3; D 216143 3; D 2732 5; D 345319 3; D 436475 3; D 551695 3; D 697331 3; D 881411 3; D 111408 4;
   D 140818 4; D 177991 4; D 224976 4; D 284365 4; D 359431 4; D 454313 4; D 574242 4; D 725829 4; D 917432 4; D 115961 5; D 146573 5; D 185265 5;
   D 234171 5; D 295986 5; D 37412 6; D 47288 6; D 59771 6; D 755492 5; D 954926 5; D 120701 6; D 152563 6; D 192836 6; D 243741 6; D 308083 6;
   D 38941 7; D 492206 6; D 622137 6; D 786368 6; D 993952 6; D 125633 7; D 158798 7; D 200717 7; D 253702 7; D 320674 7; D 405324 7; D 512321 7;
   D 647563 7; D 818505 7; D 103457 8; D 130768 8; D 165288 8; D 20892 9; D 26407 9; D 333779 8; D 421889 8; D 533259 8; D 674028 8; D 851956 8;
   D 107685 9; D 136112 9; D 172043 9; D 217458 9; D 274862 9; D 34742 10; D 439131 9; D 555052 9; D 701574 9; D 886774 9; D 112086 10; D 141675 10;
   D 179074 10; D 226345 10; D 286095 10; D 361618 10; D 457078 10; D 577736 10; D 730246 10; D 923015 10; D 116667 11; D 147465 11; D 186392 11;
   D 235595 11; D 297787 11; D 376397 11; D 475757 11; D 601347 11; D 760089 11; D 960737 11; D 121435 12; D 153491 12; D 19401 13; D 245224 12;
   D 309958 12; D 39178 13; D 495201 12; D 625923 12; D 791153 12; D 1 18];
  [D 67419 3; D 854126 2; D 108209 3; D 137089 3; D 173676 3; D 220029 3; D 278753 3; D 35315 4; D 447403 3; D 566812 3; D 718089 3; D 909741 3;
   D 115254 4; D 146015 4; D 184985 4; D 234356 4; D 296904 4; D 376145 4; D 476535 4; D 603718 4; D 764846 4; D 968977 4; D 122759 5; D 155522 5;
   D 19703 6; D 249616 5; D 316236 5; D 400637 5; D 507564 5; D 643028 5; D 814647 5; D 103207 6; D 130752 6; D 165649 6; D 209859 6; D 265869 6;
   D 336827 6; D 426724 6; D 540613 6; D 684898 6; D 867692 6; D 109927 7; D 139266 7; D 176435 7; D 223524 7; D 28318 8; D 358759 7; D 454509 7;
   D 575814 7; D 729494 7; D 92419 8; D 117085 8; D 148334 8; D 187923 8; D 238078 8; D 301619 8; D 382119 8; D 484103 8; D 613307 8; D 776993 8;
   D 984366 8; D 124709 9; D 157992 9; D 200159 9; D 25358 10; D 321258 9; D 407 12; D 515625 9; D 653241 9; D 827586 9; D 104846 10; D 132829 10;
   D 16828 11; D 213192 10; D 270091 10; D 342177 10; D 433501 10; D 549199 10; D 695775 10; D 881472 10; D 111673 11; D 141478 11; D 179237 11;
   D 227074 11; D 287678 11; D 364457 11; D 461727 11; D 584959 11; D 741079 11; D 938867 11; D 118944 12; D 15069 13; D 190908 12; D 241859 12;
   D 306409 12; D 388188 12; D 491792 12; D 623047 12; D 789333 12; D 1 18];
  [D 536763 2; D 681588 2; D 865489 2; D 109901 3; D 139554 3; D 177207 3; D 225019 3; D 285732 3; D 362827 3; D 460722 3; D 58503 4; D 742879 3;
   D 943316 3; D 119783 4; D 152103 4; D 193142 4; D 245254 4; D 311426 4; D 395453 4; D 502151 4; D 637638 4; D 80968 5; D 102814 5; D 130555 5;
   D 16578 6; D 21051 6; D 267308 5; D 339431 5; D 431013 5; D 547306 5; D 694976 5; D 882489 5; D 11206 7; D 142295 6; D 180687 6; D 229439 6;
   D 291345 6; D 369953 6; D 469771 6; D 596521 6; D 75747 7; D 961845 6; D 122136 7; D 15509 8; D 196935 7; D 250071 7; D 317543 7; D 40322 8;
   D 512014 7; D 650162 7; D 825584 7; D 104834 8; D 133119 8; D 169036 8; D 214644 8; D 272558 8; D 346098 8; D 439479 8; D 558056 8; D 708626 8;
   D 899822 8; D 114261 9; D 145089 9; D 184236 9; D 233946 9; D 297067 9; D 37722 10; D 478998 9; D 608238 9; D 772348 9; D 980737 9; D 124535 10;
   D 158136 10; D 200803 10; D 254983 10; D 32378 11; D 41114 11; D 522071 10; D 662932 10; D 841799 10; D 106893 11; D 135734 11; D 172356 11;
   D 21886 12; D 277911 11; D 352895 11; D 448111 11; D 569017 11; D 722545 11; D 917496 11; D 116505 12; D 147939 12; D 187855 12; D 238541 12;
   D 302902 12; D 384629 12; D 488406 12; D 620184 12; D 787518 12; D 1 18];
  [D 427349 2; D 543904 2; D 692248 2; D 881051 2; D 112135 3; D 142719 3; D 181644 3; D 231185 3; D 294238 3; D 374489 3; D 476627 3; D 606622 3;
   D 772071 3; D 982646 3; D 125065 4; D 159175 4; D 202589 4; D 257843 4; D 328167 4; D 417671 4; D 531587 4; D 676571 4; D 861099 4; D 109595 5;
   D 139487 5; D 17753 6; D 22595 6; D 287575 5; D 366008 5; D 465833 5; D 592884 5; D 754587 5; D 960393 5; D 122233 6; D 155571 6; D 198001 6;
   D 252004 6; D 320735 6; D 408212 6; D 519548 6; D 66125 7; D 841598 6; D 107114 7; D 136328 7; D 17351 8; D 220833 7; D 281062 7; D 357719 7;
   D 455284 7; D 579457 7; D 737498 7; D 938643 7; D 119465 8; D 152048 8; D 193517 8; D 246297 8; D 313472 8; D 398968 8; D 507782 8; D 646275 8;
   D 82254 9; D 104688 9; D 13324 10; D 16958 10; D 215832 9; D 274697 9; D 349618 9; D 444973 9; D 566335 9; D 720797 9; D 917387 9; D 116759 10;
   D 148604 10; D 189135 10; D 240719 10; D 306373 10; D 389933 10; D 496283 10; D 631639 10; D 803912 10; D 102317 11; D 130223 11; D 16574 12;
   D 210944 11; D 268477 11; D 341701 11; D 434896 11; D 55351 12; D 704474 11; D 896611 11; D 114115 12; D 145239 12; D 184852 12; D 235268 12;
   D 299435 12; D 381102 12; D 485044 12; D 617335 12; D 785707 12; D 1 18];
  [D 340238 2; D 434032 2; D 553684 2; D 70632 3; D 901033 2; D 114942 3; D 146629 3; D 187051 3; D 238616 3; D 304396 3; D 38831 4; D 495356 3;
   D 631913 3; D 806115 3; D 102834 4; D 131183 4; D 167346 4; D 213479 4; D 27233 5; D 347404 4; D 443174 4; D 565345 4; D 721196 4; D 92001 5;
   D 117363 5; D 149717 5; D 19099 6; D 243641 5; D 310807 5; D 396488 5; D 505789 5; D 645222 5; D 823093 5; D 105 9; D 133945 6; D 170871 6;
   D 217975 6; D 278065 6; D 35472 7; D 452508 6; D 577252 6; D 736385 6; D 939387 6; D 119835 7; D 15287 8; D 195013 7; D 248773 7; D 317353 7;
   D 404839 7; D 516442 7; D 658811 7; D 840428 7; D 107211 8; D 136767 8; D 174469 8; D 222566 8; D 283922 8; D 362191 8; D 462038 8; D 58941 9;
   D 751894 8; D 959172 8; D 122359 9; D 15609 10; D 19912 10; D 254012 9; D 324037 9; D 413365 9; D 527319 9; D 672687 9; D 858129 9; D 109469 10;
   D 139647 10; D 178144 10; D 227254 10; D 289901 10; D 36982 11; D 471769 10; D 601823 10; D 76773 11; D 979373 10; D 124936 11; D 159378 11;
   D 203314 11; D 259362 11; D 330861 11; D 422071 11; D 538425 11; D 686854 11; D 876202 11; D 111775 12; D 142588 12; D 181896 12; D 23204 13;
   D 296007 12; D 377608 12; D 481705 12; D 614499 12; D 7839 14; D 1 18];
  [D 270884 2; D 346356 2; D 442855 2; D 566241 2; D 724004 2; D 925722 2; D 118364 3; D 151342 3; D 193508 3; D 247422 3; D 316358 3; D 404499 3;
   D 517199 3; D 661298 3; D 845545 3; D 108113 4; D 138234 4; D 176748 4; D 225993 4; D 288958 4; D 369466 4; D 472404 4; D 604023 4; D 772312 4;
   D 987489 4; D 126262 5; D 16144 6; D 20642 6; D 263931 5; D 337466 5; D 431489 5; D 551708 5; D 705422 5; D 901962 5; D 115326 6; D 147458 6;
   D 188542 6; D 241072 6; D 308238 6; D 394118 6; D 503924 6; D 644325 6; D 823843 6; D 105338 7; D 134686 7; D 172212 7; D 220193 7; D 281541 7;
   D 359983 7; D 460279 7; D 58852 8; D 75249 8; D 962144 7; D 123021 8; D 157297 8; D 201122 8; D 257157 8; D 328805 8; D 420414 8; D 537548 8;
   D 687317 8; D 878813 8; D 112366 9; D 143673 9; D 183702 9; D 234885 9; D 300327 9; D 384002 9; D 490991 9; D 627788 9; D 802699 9; D 102634 10;
   D 13123 11; D 167792 10; D 214541 10; D 274315 10; D 350744 10; D 448466 10; D 573415 10; D 733177 10; D 93745 11; D 119864 11; D 153259 11;
   D 19596 12; D 250557 11; D 320366 11; D 409624 11; D 523751 11; D 669676 11; D 856257 11; D 109482 12; D 139986 12; D 178988 12; D 228856 12;
   D 292619 12; D 374147 12; D 478389 12; D 611675 12; D 782097 12; D 1 18];
  [D 215666 2; D 27639 3; D 354211 2; D 453943 2; D 581756 2; D 745556 2; D 955476 2; D 12245 4; D 156928 3; D 201112 3; D 257738 3; D 330307 3;
   D 423309 3; D 542497 3; D 695243 3; D 890997 3; D 114187 4; D 146337 4; D 18754 5; D 240345 4; D 308016 4; D 394742 4; D 505887 4; D 648325 4;
   D 830868 4; D 106481 5; D 136462 5; D 174884 5; D 224125 5; D 28723 6; D 368103 5; D 471747 5; D 604573 5; D 774798 5; D 992951 5; D 127253 6;
   D 163082 6; D 209 9; D 267847 6; D 343262 6; D 439912 6; D 563774 6; D 722511 6; D 925943 6; D 118665 7; D 152077 7; D 194896 7; D 249771 7;
   D 320097 7; D 410224 7; D 525728 7; D 673753 7; D 863456 7; D 110657 8; D 141814 8; D 181744 8; D 232916 8; D 298496 8; D 382541 8; D 49025 9;
   D 628285 8; D 805186 8; D 10319 10; D 132244 9; D 169479 9; D 217197 9; D 278352 9; D 356725 9; D 457165 9; D 585886 9; D 750849 9; D 962259 9;
   D 123319 10; D 158042 10; D 20254 11; D 259568 10; D 332652 10; D 426314 10; D 546348 10; D 700178 10; D 897322 10; D 114997 11; D 147376 11;
   D 188872 11; D 242051 11; D 310203 11; D 397544 11; D 509478 11; D 652927 11; D 836767 11; D 107237 12; D 137431 12; D 176126 12; D 225716 12;
   D 289269 12; D 370716 12; D 475096 12; D 608865 12; D 780298 12; D 1 18];
  [D 171705 2; D 220558 2; D 28331 3; D 363916 2; D 467456 2; D 600455 2; D 771294 2; D 99074 3; D 127262 3; D 16347 4; D 20998 4; D 269723 3;
   D 346463 3; D 445038 3; D 571658 3; D 734304 3; D 943226 3; D 121159 4; D 155631 4; D 19991 5; D 256788 4; D 329848 4; D 423695 4; D 544243 4;
   D 699089 4; D 897991 4; D 115348 5; D 148167 5; D 190323 5; D 244473 5; D 314029 5; D 403375 5; D 518142 5; D 665562 5; D 854925 5; D 109816 6;
   D 141061 6; D 181195 6; D 232748 6; D 298969 6; D 38403 7; D 493293 6; D 633643 6; D 813924 6; D 10455 8; D 134296 7; D 172505 7; D 221586 7;
   D 284631 7; D 365613 7; D 469636 7; D 603255 7; D 77489 8; D 995359 7; D 127855 8; D 164232 8; D 210959 8; D 270981 8; D 348079 8; D 447113 8;
   D 574324 8; D 737728 8; D 947624 8; D 121724 9; D 156356 9; D 200842 9; D 257985 9; D 331386 9; D 42567 10; D 54678 10; D 702348 9; D 902178 9;
   D 115886 10; D 148858 10; D 19121 11; D 245612 10; D 315493 10; D 405256 10; D 520558 10; D 668665 10; D 858911 10; D 110329 11; D 141719 11;
   D 18204 12; D 233833 11; D 300363 11; D 385821 11; D 495593 11; D 636597 11; D 817719 11; D 105037 12; D 134922 12; D 17331 13; D 222619 12;
   D 285958 12; D 367318 12; D 471825 12; D 606067 12; D 778503 12; D 1 18];
  [D 136704 2; D 176004 2; D 226601 2; D 291744 2; D 375613 2; D 483593 2; D 622616 2; D 801603 2; D 103205 3; D 132874 3; D 171072 3; D 220251 3;
   D 283568 3; D 365088 3; D 470042 3; D 605168 3; D 77914 4; D 100313 4; D 12915 5; D 166278 4; D 214079 4; D 275622 4; D 354857 4; D 45687 5;
   D 58821 5; D 757307 4; D 975015 4; D 125531 5; D 161618 5; D 20808 6; D 267898 5; D 344913 5; D 444067 5; D 571727 5; D 736085 5; D 947693 5;
   D 122013 6; D 157089 6; D 202249 6; D 260391 6; D 335247 6; D 431623 6; D 555705 6; D 715458 6; D 921136 6; D 118594 7; D 152687 7; D 196581 7;
   D 253094 7; D 325853 7; D 419528 7; D 540133 7; D 695409 7; D 895323 7; D 115271 8; D 148409 8; D 191073 8; D 246002 8; D 316722 8; D 407772 8;
   D 524997 8; D 675922 8; D 870234 8; D 112041 9; D 14425 10; D 185718 9; D 239108 9; D 307846 9; D 396345 9; D 510285 9; D 65698 10; D 845847 9;
   D 108901 10; D 140207 10; D 180514 10; D 232408 10; D 29922 11; D 385238 10; D 495986 10; D 63857 11; D 822145 10; D 105849 11; D 136278 11;
   D 175455 11; D 225895 11; D 290835 11; D 374443 11; D 482087 11; D 620676 11; D 799106 11; D 102883 12; D 13246 13; D 170539 12; D 219565 12;
   D 282685 12; D 36395 13; D 468577 12; D 603283 12; D 776713 12; D 1 18];
  [D 108839 2; D 14045 3; D 181243 2; D 233884 2; D 301815 2; D 389476 2; D 502597 2; D 648574 2; D 836949 2; D 108004 3; D 139373 3; D 179853 3;
   D 232091 3; D 2995 5; D 386488 3; D 498742 3; D 6436 5; D 83053 4; D 107175 4; D 138304 4; D 178474 4; D 23031 5; D 297203 4; D 383524 4; D 494917 4;
   D 638663 4; D 82416 5; D 106353 5; D 137243 5; D 177105 5; D 228544 5; D 294923 5; D 380583 5; D 491121 5; D 633765 5; D 817838 5; D 105538 6;
   D 13619 7; D 175746 6; D 226791 6; D 292661 6; D 377663 6; D 487354 6; D 628904 6; D 811566 6; D 104728 7; D 135146 7; D 174398 7; D 225052 7;
   D 290417 7; D 374767 7; D 483616 7; D 62408 8; D 805341 7; D 103925 8; D 134109 8; D 173061 8; D 223325 8; D 288189 8; D 371892 8; D 479907 8;
   D 619293 8; D 799164 8; D 103128 9; D 133081 9; D 171733 9; D 221612 9; D 285979 9; D 36904 10; D 476226 9; D 614543 9; D 793034 9; D 102337 10;
   D 13206 11; D 170416 10; D 219913 10; D 283785 10; D 366209 10; D 472573 10; D 60983 11; D 786952 10; D 101552 11; D 131047 11; D 169109 11;
   D 218226 11; D 281609 11; D 363401 11; D 468949 11; D 605152 11; D 780916 11; D 100773 12; D 130042 12; D 167812 12; D 216552 12; D 279449 12;
   D 360613 12; D 465352 12; D 600511 12; D 774926 12; D 1 18];
  [D 866528 1; D 112078 2; D 144965 2; D 1875 4; D 242516 2; D 313675 2; D 405714 2; D 524759 2; D 678733 2; D 877887 2; D 113548 3; D 146865 3;
   D 189958 3; D 245695 3; D 317787 3; D 411032 3; D 531638 3; D 687631 3; D 889395 3; D 115036 4; D 14879 5; D 192448 4; D 248916 4; D 321953 4;
   D 416421 4; D 538607 4; D 696645 4; D 901054 4; D 116544 5; D 150741 5; D 194971 5; D 252179 5; D 326174 5; D 421879 5; D 545667 5; D 705777 5;
   D 912866 5; D 118072 6; D 152717 6; D 197527 6; D 255485 6; D 330449 6; D 42741 7; D 55282 7; D 715029 6; D 924833 6; D 11962 8; D 154719 7;
   D 200116 7; D 258834 7; D 334781 7; D 433013 7; D 560067 7; D 724402 7; D 936956 7; D 121188 8; D 156747 8; D 202739 8; D 262227 8; D 33917 9;
   D 438689 8; D 567409 8; D 733898 8; D 949239 8; D 122776 9; D 158802 9; D 205397 9; D 265665 9; D 343616 9; D 44444 10; D 574847 9; D 743519 9;
   D 961682 9; D 124386 10; D 160883 10; D 20809 11; D 269147 10; D 34812 11; D 450266 10; D 582383 10; D 753266 10; D 974289 10; D 126016 11;
   D 162992 11; D 210817 11; D 272675 11; D 352684 11; D 456168 11; D 590017 11; D 76314 12; D 987061 11; D 127668 12; D 165129 12; D 213581 12;
   D 27625 13; D 357307 12; D 462148 12; D 597752 12; D 773144 12; D 1 18];
  [D 689894 1; D 89438 2; D 115948 2; D 150315 2; D 194868 2; D 252627 2; D 327507 2; D 42458 3; D 550426 2; D 713573 2; D 925078 2; D 119927 3;
   D 155474 3; D 201557 3; D 261298 3; D 338748 3; D 439153 3; D 569318 3; D 738065 3; D 956829 3; D 124043 4; D 16081 5; D 208475 4; D 270267 4;
   D 350374 4; D 454226 4; D 588859 4; D 763398 4; D 98967 5; D 128301 5; D 16633 6; D 21563 6; D 279543 5; D 3624 7; D 469816 5; D 60907 6; D 7896 7;
   D 102364 6; D 132705 6; D 172039 6; D 223031 6; D 289138 6; D 374839 6; D 485942 6; D 629975 6; D 816701 6; D 105877 7; D 137259 7; D 177943 7;
   D 230686 7; D 299062 7; D 387704 7; D 502621 7; D 651598 7; D 844733 7; D 109511 8; D 141971 8; D 184051 8; D 238604 8; D 309327 8; D 401011 8;
   D 519872 8; D 673963 8; D 873726 8; D 11327 10; D 146843 9; D 190368 9; D 246794 9; D 319944 9; D 414775 9; D 537715 9; D 697095 9; D 903715 9;
   D 117158 10; D 151884 10; D 196902 10; D 255264 10; D 330925 10; D 429012 10; D 556171 10; D 721021 10; D 934733 10; D 121179 11; D 157097 11;
   D 20366 12; D 264026 11; D 342283 11; D 443737 11; D 575261 11; D 745769 11; D 966816 11; D 125338 12; D 162489 12; D 210651 12; D 273088 12;
   D 354031 12; D 458967 12; D 595005 12; D 771366 12; D 1 18];
  [D 549266 1; D 713711 1; D 927389 1; D 120504 2; D 156582 2; D 203461 2; D 264375 2; D 343526 2; D 446374 2; D 580014 2; D 753665 2; D 979305 2;
   D 12725 4; D 165347 3; D 214851 3; D 279175 3; D 362757 3; D 471363 3; D 612484 3; D 795856 3; D 103413 4; D 134373 4; D 174604 4; D 226878 4;
   D 294803 4; D 383064 4; D 49775 5; D 646772 4; D 840409 4; D 109202 5; D 141896 5; D 184378 5; D 239579 5; D 311307 5; D 404509 5; D 525615 5;
   D 682979 5; D 887456 5; D 115315 6; D 149839 6; D 1947 8; D 252991 6; D 328734 6; D 427154 6; D 555039 6; D 721212 6; D 937136 6; D 121771 7;
   D 158227 7; D 205599 7; D 267154 7; D 347137 7; D 451066 7; D 586111 7; D 761587 7; D 989598 7; D 128587 8; D 167085 8; D 217109 8; D 282109 8;
   D 36657 9; D 476317 8; D 618922 8; D 804221 8; D 1045 11; D 135786 9; D 176439 9; D 229263 9; D 297902 9; D 387091 9; D 502982 9; D 65357 10;
   D 849242 9; D 11035 11; D 143387 10; D 186316 10; D 242097 10; D 314579 10; D 408761 10; D 53114 11; D 690157 10; D 896784 10; D 116527 11;
   D 151414 11; D 196746 11; D 25565 12; D 332189 11; D 431643 11; D 560873 11; D 728793 11; D 946987 11; D 123051 12; D 159891 12; D 20776 13;
   D 269962 12; D 350786 12; D 455807 12; D 592272 12; D 769592 12; D 1 18];
  [D 437303 1; D 569537 1; D 741757 1; D 966054 1; D 125817 2; D 163863 2; D 213413 2; D 277945 2; D 361992 2; D 471453 2; D 614014 2; D 799683 2;
   D 10415 4; D 135643 3; D 176659 3; D 230079 3; D 299651 3; D 390261 3; D 50827 4; D 661964 3; D 862132 3; D 112283 4; D 146236 4; D 190455 4;
   D 248046 4; D 323052 4; D 420738 4; D 547963 4; D 713659 4; D 929459 4; D 121051 5; D 157656 5; D 205328 5; D 267417 5; D 34828 6; D 453594 5;
   D 590755 5; D 76939 6; D 100204 6; D 130505 6; D 169967 6; D 221363 6; D 2883 8; D 375478 6; D 489017 6; D 636888 6; D 829474 6; D 10803 8;
   D 140696 7; D 183241 7; D 23865 8; D 310814 7; D 4048 9; D 527205 7; D 686625 7; D 89425 8; D 116466 8; D 151683 8; D 19755 9; D 257287 8;
   D 335086 8; D 436412 8; D 568376 8; D 740245 8; D 964084 8; D 125561 9; D 163529 9; D 212978 9; D 277379 9; D 361254 9; D 470492 9; D 612762 9;
   D 798053 9; D 103937 10; D 135366 10; D 176299 10; D 22961 11; D 29904 11; D 389466 10; D 507234 10; D 660615 10; D 860375 10; D 112054 11;
   D 145937 11; D 190067 11; D 24754 12; D 322393 11; D 41988 12; D 546846 11; D 712204 11; D 927564 11; D 120805 12; D 157334 12; D 20491 13;
   D 266871 12; D 34757 13; D 45267 13; D 58955 13; D 767822 12; D 1 18];
  [D 348163 1; D 454488 1; D 593283 1; D 774464 1; D 101098 2; D 131972 2; D 172274 2; D 224885 2; D 293562 2; D 383212 2; D 50024 3; D 653007 2;
   D 852427 2; D 111275 3; D 145257 3; D 189617 3; D 247523 3; D 323114 3; D 421789 3; D 550598 3; D 718744 3; D 938239 3; D 122477 4; D 159879 4;
   D 208705 4; D 272441 4; D 355641 4; D 464249 4; D 606025 4; D 791098 4; D 103269 5; D 134806 5; D 175974 5; D 229714 5; D 299867 5; D 391442 5;
   D 510984 5; D 667032 5; D 870735 5; D 113665 6; D 148377 6; D 193689 6; D 252839 6; D 330053 6; D 430848 6; D 562423 6; D 73418 7; D 95839 7;
   D 125107 7; D 163313 7; D 213187 7; D 278292 7; D 363279 7; D 47422 8; D 619041 7; D 808088 7; D 105487 8; D 137701 8; D 179754 8; D 234648 8;
   D 306307 8; D 399849 8; D 521958 8; D 681358 8; D 889437 8; D 116106 9; D 151563 9; D 197849 9; D 25827 10; D 337142 9; D 440101 9; D 574503 9;
   D 749949 9; D 978974 9; D 127794 10; D 166821 10; D 217766 10; D 284269 10; D 371081 10; D 484405 10; D 632336 10; D 825444 10; D 107752 11;
   D 140659 11; D 183614 11; D 239688 11; D 312886 11; D 408437 11; D 533169 11; D 695992 11; D 90854 12; D 1186 14; D 154819 12; D 202098 12;
   D 263817 12; D 344383 12; D 449553 12; D 586842 12; D 766056 12; D 1 18];
  [D 277193 1; D 362679 1; D 474528 1; D 620871 1; D 812346 1; D 106287 2; D 139066 2; D 181953 2; D 238067 2; D 311486 2; D 407548 2; D 533234 2;
   D 697682 2; D 912845 2; D 119436 3; D 15627 4; D 204463 3; D 267519 3; D 350022 3; D 457967 3; D 599203 3; D 783995 3; D 102578 4; D 134212 4;
   D 175603 4; D 229759 4; D 300616 4; D 393324 4; D 514625 4; D 673333 4; D 880987 4; D 115268 5; D 150816 5; D 197328 5; D 258183 5; D 337806 5;
   D 441985 5; D 578291 5; D 756635 5; D 989979 5; D 129529 6; D 169475 6; D 22174 7; D 290124 6; D 379598 6; D 496665 6; D 649835 6; D 850242 6;
   D 111245 7; D 145553 7; D 190441 7; D 249173 7; D 326017 7; D 42656 8; D 558109 7; D 730229 7; D 955429 7; D 125008 8; D 16356 9; D 214002 8;
   D 279999 8; D 36635 9; D 479331 8; D 627156 8; D 820569 8; D 107363 9; D 140473 9; D 183795 9; D 240477 9; D 314639 9; D 411673 9; D 538632 9;
   D 704744 9; D 922085 9; D 120645 10; D 157852 10; D 206533 10; D 270227 10; D 353565 10; D 462603 10; D 605269 10; D 791932 10; D 103616 11;
   D 135571 11; D 177381 11; D 232084 11; D 303659 11; D 397306 11; D 519834 11; D 680149 11; D 889905 11; D 116435 12; D 152343 12; D 199325 12;
   D 260797 12; D 341226 12; D 446459 12; D 584145 12; D 764294 12; D 1 18];
  [D 22069 2; D 289416 1; D 379544 1; D 497739 1; D 652741 1; D 856013 1; D 112259 2; D 147218 2; D 193063 2; D 253185 2; D 332031 2; D 43543 3;
   D 571028 2; D 748854 2; D 982057 2; D 128788 3; D 168895 3; D 221491 3; D 290466 3; D 380921 3; D 499544 3; D 655109 3; D 859119 3; D 112666 4;
   D 147752 4; D 193763 4; D 254104 4; D 333235 4; D 437009 4; D 5731 6; D 75157 5; D 985619 4; D 129255 5; D 169507 5; D 222294 5; D 291519 5;
   D 382302 5; D 501357 5; D 657486 5; D 862235 5; D 113075 6; D 148288 6; D 194466 6; D 255026 6; D 334444 6; D 438595 6; D 575179 6; D 754297 6;
   D 989195 6; D 129724 7; D 170122 7; D 223101 7; D 292577 7; D 383689 7; D 503175 7; D 659871 7; D 865363 7; D 113485 8; D 148826 8; D 195172 8;
   D 255951 8; D 335657 8; D 440186 8; D 577265 8; D 757033 8; D 992784 8; D 130195 9; D 170739 9; D 22391 10; D 293638 9; D 385081 9; D 505001 9;
   D 662265 9; D 868503 9; D 113897 10; D 149366 10; D 19588 11; D 25688 11; D 336875 10; D 441783 10; D 57936 11; D 75978 11; D 996385 10; D 130667 11;
   D 171359 11; D 224722 11; D 294704 11; D 386478 11; D 506833 11; D 664667 11; D 871653 11; D 11431 13; D 149907 12; D 196591 12; D 257811 12;
   D 338097 12; D 443385 12; D 581461 12; D 762536 12; D 1 18];
  [D 175704 1; D 230952 1; D 303572 1; D 399026 1; D 524494 1; D 689415 1; D 906192 1; D 119113 2; D 156567 2; D 205797 2; D 270507 2; D 355564 2;
   D 467366 2; D 614323 2; D 807489 2; D 106139 3; D 139513 3; D 183381 3; D 241043 3; D 316836 3; D 416461 3; D 547411 3; D 719537 3; D 945786 3;
   D 124317 4; D 163407 4; D 214789 4; D 282326 4; D 3711 6; D 487787 4; D 641165 4; D 84277 5; D 110777 5; D 145609 5; D 191394 5; D 251575 5;
   D 330679 5; D 434657 5; D 571329 5; D 750976 5; D 98711 6; D 129749 6; D 170547 6; D 224173 6; D 294662 6; D 387314 6; D 5091 8; D 669179 6;
   D 879593 6; D 115617 7; D 151971 7; D 199756 7; D 262567 7; D 345128 7; D 453648 7; D 596292 7; D 783788 7; D 103024 8; D 135418 8; D 177999 8;
   D 233968 8; D 307536 8; D 404237 8; D 531344 8; D 698417 8; D 918025 8; D 120669 9; D 158611 9; D 208484 9; D 274039 9; D 360207 9; D 47347 10;
   D 622346 9; D 818034 9; D 107525 10; D 141335 10; D 185776 10; D 244191 10; D 320973 10; D 421899 10; D 55456 11; D 728933 10; D 958136 10;
   D 125941 11; D 165541 11; D 217594 11; D 286013 11; D 375946 11; D 494157 11; D 649538 11; D 853776 11; D 112223 12; D 147511 12; D 193893 12;
   D 25486 13; D 334998 12; D 440333 12; D 57879 13; D 760782 12; D 1 18];
  [D 139889 1; D 184299 1; D 242807 1; D 31989 2; D 421445 1; D 55524 2; D 73151 2; D 963739 1; D 126969 2; D 167278 2; D 220383 2; D 290347 2;
   D 382523 2; D 503961 2; D 663952 2; D 874734 2; D 115243 3; D 151829 3; D 20003 4; D 263533 3; D 347195 3; D 457418 3; D 602633 3; D 793949 3;
   D 1046 6; D 137807 4; D 181556 4; D 239194 4; D 315131 4; D 415174 4; D 546978 4; D 720625 4; D 949399 4; D 12508 6; D 164789 5; D 217104 5;
   D 286027 5; D 376831 5; D 496462 5; D 654072 5; D 861718 5; D 113529 6; D 14957 7; D 197053 6; D 259611 6; D 342029 6; D 450612 6; D 593666 6;
   D 782135 6; D 103044 7; D 135757 7; D 178855 7; D 235635 7; D 310442 7; D 408996 7; D 538839 7; D 709902 7; D 935272 7; D 123219 8; D 162337 8;
   D 213873 8; D 281771 8; D 371224 8; D 489075 8; D 64434 9; D 848896 8; D 111839 9; D 147344 9; D 194121 9; D 255748 9; D 33694 10; D 443907 9;
   D 584833 9; D 770497 9; D 10151 11; D 133737 10; D 176194 10; D 232129 10; D 305822 10; D 402911 10; D 530821 10; D 699339 10; D 921356 10;
   D 121386 11; D 159921 11; D 210691 11; D 277578 11; D 3657 13; D 481798 11; D 634752 11; D 836265 11; D 110175 12; D 145152 12; D 191233 12;
   D 251943 12; D 331926 12; D 437302 12; D 57613 13; D 759033 12; D 1 18];
  [D 111374 1; D 147069 1; D 194206 1; D 256449 1; D 338642 1; D 447178 1; D 5905 3; D 779758 1; D 102967 2; D 135969 2; D 179547 2; D 237093 2;
   D 313082 2; D 413425 2; D 545929 2; D 720902 2; D 951953 2; D 125706 3; D 165995 3; D 219197 3; D 28945 4; D 38222 4; D 504723 3; D 666489 3;
   D 8801 5; D 116218 4; D 153466 4; D 202652 4; D 267603 4; D 35337 5; D 466627 4; D 616182 4; D 813671 4; D 107446 5; D 141882 5; D 187356 5;
   D 247404 5; D 326698 5; D 431406 5; D 569673 5; D 752256 5; D 993356 5; D 131173 6; D 173214 6; D 22873 7; D 302039 6; D 398844 6; D 526675 6;
   D 695476 6; D 918378 6; D 121272 7; D 16014 8; D 211466 7; D 279241 7; D 368739 7; D 486921 7; D 642982 7; D 849059 7; D 112119 8; D 148053 8;
   D 195505 8; D 258164 8; D 340907 8; D 450169 8; D 59445 9; D 784973 8; D 103656 9; D 136878 9; D 180748 9; D 238678 9; D 315176 9; D 41619 10;
   D 549581 9; D 725723 9; D 95832 10; D 126547 10; D 167105 10; D 220663 10; D 291386 10; D 384777 10; D 508099 10; D 670946 10; D 885987 10;
   D 116995 11; D 154492 11; D 204007 11; D 269393 11; D 355734 11; D 469748 11; D 620304 11; D 819113 11; D 108164 12; D 142831 12; D 188609 12;
   D 249059 12; D 328883 12; D 434291 12; D 573483 12; D 757287 12; D 1 18];
  [D 886712 0; D 117361 1; D 155332 1; D 20559 2; D 272108 1; D 360148 1; D 476672 1; D 630899 1; D 835024 1; D 110519 2; D 146278 2; D 193606 2;
   D 256246 2; D 339154 2; D 448887 2; D 594123 2; D 78635 3; D 104077 3; D 137751 3; D 18232 4; D 241309 3; D 319384 3; D 42272 4; D 55949 4;
   D 740512 3; D 980103 3; D 129721 4; D 171692 4; D 227243 4; D 300767 4; D 398079 4; D 526877 4; D 697347 4; D 922972 4; D 12216 6; D 161684 5;
   D 213997 5; D 283235 5; D 374875 5; D 496165 5; D 656698 5; D 86917 6; D 115039 6; D 152259 6; D 201523 6; D 266725 6; D 353023 6; D 467243 6;
   D 618418 6; D 818505 6; D 108333 7; D 143384 7; D 189776 7; D 251177 7; D 332445 7; D 440006 7; D 582369 7; D 770794 7; D 102018 8; D 135026 8;
   D 178713 8; D 236536 8; D 313066 8; D 414358 8; D 548422 8; D 725863 8; D 960714 8; D 127155 9; D 168296 9; D 222748 9; D 294817 9; D 390204 9;
   D 516454 9; D 683551 9; D 904713 9; D 119743 10; D 158486 10; D 209763 10; D 277632 10; D 367459 10; D 486349 10; D 643706 10; D 851976 10;
   D 112763 11; D 149247 11; D 197536 11; D 261448 11; D 346039 11; D 457999 11; D 606184 11; D 802313 11; D 10619 13; D 140547 12; D 186021 12;
   D 246208 12; D 325868 12; D 431302 12; D 570848 12; D 755545 12; D 1 18];
  [D 705964 0; D 936531 0; D 12424 2; D 164817 1; D 218646 1; D 290055 1; D 384787 1; D 510457 1; D 677172 1; D 898336 1; D 119173 2; D 158095 2;
   D 209728 2; D 278226 2; D 369094 2; D 489639 2; D 649555 2; D 861698 2; D 114313 3; D 151647 3; D 201175 3; D 266878 3; D 354041 3; D 46967 4;
   D 623063 3; D 826555 3; D 109651 4; D 145462 4; D 19297 5; D 255994 4; D 339602 4; D 450515 4; D 597653 4; D 792845 4; D 105179 5; D 13953 6;
   D 1851 7; D 245554 5; D 325751 5; D 432141 5; D 573278 5; D 76051 6; D 100889 6; D 133839 6; D 177551 6; D 235539 6; D 312466 6; D 414517 6;
   D 549898 6; D 729494 6; D 967745 6; D 128381 7; D 17031 8; D 225933 7; D 299723 7; D 397611 7; D 527471 7; D 699742 7; D 928277 7; D 123145 8;
   D 163364 8; D 216719 8; D 287499 8; D 381395 8; D 505959 8; D 671204 8; D 890419 8; D 118123 9; D 156702 9; D 20788 10; D 275773 9; D 365841 9;
   D 485324 9; D 64383 10; D 854104 9; D 113305 10; D 150311 10; D 199402 10; D 264526 10; D 35092 11; D 465531 10; D 617572 10; D 81927 11;
   D 108684 11; D 14418 12; D 19127 12; D 253738 11; D 336609 11; D 446544 11; D 592385 11; D 785858 11; D 104252 12; D 1383 14; D 183469 12;
   D 24339 13; D 32288 13; D 428333 12; D 568226 12; D 753807 12; D 1 18]].

(** sigma_nu_p, ParamTables.cxx:2300-4596 *)
Definition sigma_nu_proton : list (list decimal) := [
  [D 149873 6; D 153254 7; D 578771 7; D 152603 8; D 329075 8; D 62152 9; D 10661 10; D 170088 9; D 25642 10; D 369192 9; D 512205 9; D 688492 9;
   D 900235 9; D 114947 10; D 143817 10; D 176764 10; D 213824 10; D 254983 10; D 300196 10; D 349399 10; D 402512 10; D 459409 10; D 519918 10;
   D 583849 10; D 650982 10; D 7211 12; D 793977 10; D 86937 11; D 947021 10; D 102667 11; D 110806 11; D 119092 11; D 127501 11; D 136007 11;
   D 144586 11; D 153216 11; D 161872 11; D 170532 11; D 179175 11; D 187782 11; D 196335 11; D 204816 11; D 213207 11; D 221491 11; D 229656 11;
   D 237689 11; D 245579 11; D 253312 11; D 260878 11; D 268267 11; D 275472 11; D 282486 11; D 289304 11; D 295922 11; D 302329 11; D 308526 11;
   D 314508 11; D 320276 11; D 325829 11; D 331161 11; D 336277 11; D 341176 11; D 345862 11; D 350337 11; D 354602 11; D 35866 12; D 362515 11;
   D 36617 12; D 369631 11; D 372899 11; D 37598 12; D 378877 11; D 381596 11; D 384141 11; D 386515 11; D 388722 11; D 390768 11; D 39266 12;
   D 3944 13; D 395994 11; D 397444 11; D 398755 11; D 399934 11; D 400985 11; D 401912 11; D 402722 11; D 403418 11; D 404005 11; D 40449 12;
   D 404878 11; D 405176 11; D 405389 11; D 405525 11; D 40559 12; D 405591 11; D 405539 11; D 40544 12; D 405305 11; D 405143 11; D 404966 11];
  [D 239602 6; D 240687 7; D 91687 8; D 243592 8; D 527598 8; D 997793 8; D 17119 10; D 272951 9; D 410816 9; D 590474 9; D 817276 9; D 10947 11;
   D 142602 10; D 181427 10; D 226153 10; D 27683 11; D 333426 10; D 395869 10; D 464065 10; D 53787 11; D 61705 11; D 701325 10; D 790377 10;
   D 883868 10; D 981458 10; D 108278 11; D 118744 11; D 129503 11; D 140515 11; D 151741 11; D 163141 11; D 174677 11; D 186314 11; D 198014 11;
   D 209741 11; D 221463 11; D 233148 11; D 24477 12; D 2563 13; D 267709 11; D 278974 11; D 290072 11; D 300985 11; D 311698 11; D 322185 11;
   D 332434 11; D 34243 12; D 352165 11; D 361625 11; D 370807 11; D 379695 11; D 388286 11; D 396576 11; D 404562 11; D 412243 11; D 419614 11;
   D 426676 11; D 433434 11; D 43989 12; D 446047 11; D 451907 11; D 457476 11; D 462758 11; D 46776 12; D 472487 11; D 476945 11; D 48114 12;
   D 485077 11; D 488764 11; D 492205 11; D 495405 11; D 498374 11; D 501119 11; D 503645 11; D 505955 11; D 508055 11; D 509953 11; D 511655 11;
   D 513165 11; D 51449 12; D 515635 11; D 516605 11; D 517407 11; D 518047 11; D 518532 11; D 518868 11; D 519061 11; D 519118 11; D 519048 11;
   D 518859 11; D 51856 12; D 51816 12; D 517669 11; D 517099 11; D 516461 11; D 515768 11; D 515034 11; D 514273 11; D 513501 11; D 512735 11];
  [D 379464 6; D 375203 7; D 143904 8; D 384373 8; D 834974 8; D 15809 10; D 271201 9; D 431883 9; D 648871 9; D 930684 9; D 128393 10; D 171318 10;
   D 22236 11; D 281842 10; D 349871 10; D 426395 10; D 511317 10; D 604479 10; D 705634 10; D 814398 10; D 930335 10; D 105294 11; D 11817 12;
   D 131608 11; D 145549 11; D 159931 11; D 174694 11; D 189775 11; D 205117 11; D 22066 12; D 23635 12; D 252132 11; D 267949 11; D 283753 11;
   D 2995 13; D 315147 11; D 33065 12; D 34597 12; D 36107 12; D 375923 11; D 390503 11; D 404774 11; D 418715 11; D 432303 11; D 445526 11;
   D 458364 11; D 470808 11; D 482839 11; D 494452 11; D 50564 12; D 516403 11; D 526732 11; D 536628 11; D 546093 11; D 555134 11; D 563755 11;
   D 571958 11; D 579752 11; D 587143 11; D 594142 11; D 600754 11; D 60699 12; D 612858 11; D 618368 11; D 623527 11; D 628342 11; D 632824 11;
   D 636986 11; D 640835 11; D 644376 11; D 647616 11; D 650564 11; D 653228 11; D 655617 11; D 657737 11; D 659593 11; D 661193 11; D 662543 11;
   D 663652 11; D 664526 11; D 665171 11; D 665595 11; D 665805 11; D 665811 11; D 66562 12; D 665242 11; D 664686 11; D 663964 11; D 663087 11;
   D 662066 11; D 660916 11; D 659649 11; D 658281 11; D 656828 11; D 655308 11; D 653739 11; D 652143 11; D 650543 11; D 64896 12; D 647422 11];
  [D 593379 6; D 579193 7; D 2235 10; D 599831 8; D 13063 10; D 247478 9; D 424267 9; D 674476 9; D 101142 10; D 144661 10; D 198794 10; D 264287 10;
   D 341743 10; D 431376 10; D 533137 10; D 646883 10; D 77238 11; D 909229 10; D 105686 11; D 121458 11; D 138162 11; D 155721 11; D 174048 11;
   D 193055 11; D 212647 11; D 232734 11; D 253223 11; D 274028 11; D 295064 11; D 316247 11; D 337494 11; D 358731 11; D 37989 12; D 40091 12;
   D 421721 11; D 442266 11; D 462497 11; D 482371 11; D 501844 11; D 520871 11; D 53942 12; D 557467 11; D 574983 11; D 591955 11; D 608354 11;
   D 62417 12; D 639394 11; D 654025 11; D 66805 12; D 681471 11; D 694293 11; D 706528 11; D 718176 11; D 729248 11; D 739754 11; D 749708 11;
   D 759121 11; D 768006 11; D 776377 11; D 784247 11; D 791628 11; D 798531 11; D 804972 11; D 810968 11; D 816531 11; D 821665 11; D 826385 11;
   D 8307 13; D 834623 11; D 838164 11; D 84133 12; D 844131 11; D 846573 11; D 848669 11; D 850424 11; D 851846 11; D 852944 11; D 853726 11;
   D 854201 11; D 854378 11; D 854267 11; D 853879 11; D 853223 11; D 852311 11; D 851155 11; D 849769 11; D 848165 11; D 846358 11; D 844365 11;
   D 842202 11; D 839887 11; D 837441 11; D 834886 11; D 832243 11; D 829539 11; D 826803 11; D 824065 11; D 821358 11; D 818718 11; D 816186 11];
  [D 914909 6; D 88359 8; D 343479 8; D 926847 8; D 202225 9; D 383083 9; D 655888 9; D 104078 10; D 155712 10; D 221907 10; D 303776 10; D 402386 10;
   D 518179 10; D 651214 10; D 80125 11; D 967988 10; D 115084 11; D 134894 11; D 156127 11; D 178665 11; D 202391 11; D 227176 11; D 252883 11;
   D 279374 11; D 306509 11; D 334157 11; D 362189 11; D 390479 11; D 418903 11; D 447345 11; D 475704 11; D 503885 11; D 531786 11; D 559322 11;
   D 586421 11; D 61302 12; D 639048 11; D 664449 11; D 689173 11; D 713187 11; D 736454 11; D 758945 11; D 780631 11; D 801499 11; D 821543 11;
   D 84075 12; D 859117 11; D 876654 11; D 893373 11; D 90928 12; D 924389 11; D 938717 11; D 952284 11; D 965108 11; D 977208 11; D 988605 11;
   D 99932 12; D 100937 12; D 101877 12; D 102755 12; D 103572 12; D 104331 12; D 105033 12; D 105679 12; D 10627 13; D 106809 12; D 107297 12;
   D 107734 12; D 108123 12; D 108463 12; D 108756 12; D 109004 12; D 109206 12; D 109365 12; D 109481 12; D 109555 12; D 109588 12; D 109582 12;
   D 109537 12; D 109455 12; D 109338 12; D 109185 12; D 109 15; D 108783 12; D 108536 12; D 10826 13; D 107957 12; D 10763 13; D 107281 12;
   D 106911 12; D 106524 12; D 106122 12; D 105707 12; D 105285 12; D 104857 12; D 104429 12; D 104004 12; D 103588 12; D 103186 12; D 102804 12];
  [D 139118 7; D 133581 8; D 523893 8; D 141802 9; D 309762 9; D 586612 9; D 10028 11; D 158826 10; D 236912 10; D 336304 10; D 45869 11; D 605172 10;
   D 775921 10; D 970742 10; D 118918 11; D 143047 11; D 169337 11; D 197634 11; D 227766 11; D 259559 11; D 292819 11; D 327342 11; D 362921 11;
   D 399353 11; D 436444 11; D 474007 11; D 511855 11; D 549808 11; D 587709 11; D 625414 11; D 662775 11; D 699662 11; D 73596 12; D 771578 11;
   D 806412 11; D 840376 11; D 873401 11; D 905434 11; D 936431 11; D 966335 11; D 995122 11; D 102277 12; D 104927 12; D 107461 12; D 10988 13;
   D 112184 12; D 114377 12; D 116458 12; D 118432 12; D 1203 14; D 122065 12; D 123731 12; D 1253 14; D 126776 12; D 128161 12; D 129458 12;
   D 13067 13; D 131802 12; D 132853 12; D 133828 12; D 134727 12; D 135555 12; D 136311 12; D 136999 12; D 13762 13; D 138176 12; D 138667 12;
   D 139096 12; D 139463 12; D 139771 12; D 14002 13; D 140212 12; D 140348 12; D 140429 12; D 140457 12; D 140433 12; D 140359 12; D 140236 12;
   D 140065 12; D 139847 12; D 139586 12; D 139281 12; D 138935 12; D 138549 12; D 138126 12; D 137668 12; D 137177 12; D 136655 12; D 136105 12;
   D 135531 12; D 134936 12; D 134323 12; D 133697 12; D 133063 12; D 132425 12; D 13179 13; D 131163 12; D 130553 12; D 129968 12; D 129416 12];
  [D 208794 7; D 200792 8; D 791418 8; D 215095 9; D 47016 10; D 889446 9; D 151782 10; D 239863 10; D 356482 10; D 504112 10; D 684961 10; D 899817 10;
   D 114854 11; D 143053 11; D 174489 11; D 208984 11; D 246324 11; D 286255 11; D 328519 11; D 372832 11; D 418891 11; D 466394 11; D 515043 11;
   D 564556 11; D 614657 11; D 665072 11; D 715551 11; D 765871 11; D 815823 11; D 865197 11; D 913814 11; D 961533 11; D 100821 12; D 105371 12;
   D 109792 12; D 114077 12; D 118219 12; D 122211 12; D 126047 12; D 129727 12; D 133248 12; D 136608 12; D 139809 12; D 142856 12; D 145747 12;
   D 148489 12; D 151083 12; D 153535 12; D 155849 12; D 15803 13; D 160082 12; D 162008 12; D 163814 12; D 165506 12; D 167086 12; D 168559 12;
   D 169927 12; D 171194 12; D 172364 12; D 17344 13; D 174424 12; D 175318 12; D 176126 12; D 176848 12; D 177487 12; D 178046 12; D 178524 12;
   D 178926 12; D 179252 12; D 179504 12; D 179684 12; D 179793 12; D 179834 12; D 179807 12; D 179715 12; D 179559 12; D 17934 13; D 17906 13;
   D 178721 12; D 178325 12; D 177873 12; D 177367 12; D 176808 12; D 176201 12; D 175545 12; D 174845 12; D 174103 12; D 173322 12; D 172505 12;
   D 171657 12; D 170783 12; D 169887 12; D 168975 12; D 168054 12; D 167132 12; D 166217 12; D 165319 12; D 164448 12; D 163618 12; D 162841 12];
  [D 309637 7; D 299454 8; D 118735 9; D 323431 9; D 707252 9; D 133644 10; D 227612 10; D 358685 10; D 530974 10; D 748096 10; D 10123 12; D 132388 11;
   D 168223 11; D 208616 11; D 253354 11; D 302126 11; D 354574 11; D 41032 12; D 468952 11; D 530028 11; D 593108 11; D 657755 11; D 723562 11;
   D 790122 11; D 857041 11; D 923965 11; D 990583 11; D 105658 12; D 112166 12; D 118561 12; D 124822 12; D 130927 12; D 13686 13; D 142608 12;
   D 148161 12; D 153508 12; D 158643 12; D 163562 12; D 168262 12; D 172742 12; D 177003 12; D 181052 12; D 18489 13; D 188522 12; D 191955 12;
   D 195195 12; D 198248 12; D 201123 12; D 203824 12; D 206358 12; D 208734 12; D 210957 12; D 213033 12; D 214967 12; D 216764 12; D 218431 12;
   D 21997 13; D 221385 12; D 222681 12; D 223862 12; D 224929 12; D 225886 12; D 226736 12; D 227481 12; D 228125 12; D 228669 12; D 229117 12;
   D 22947 13; D 229731 12; D 229902 12; D 229985 12; D 229982 12; D 229894 12; D 229724 12; D 229473 12; D 229143 12; D 228735 12; D 228251 12;
   D 227693 12; D 227062 12; D 22636 13; D 22559 13; D 224752 12; D 22385 13; D 222887 12; D 221864 12; D 220786 12; D 219656 12; D 21848 13;
   D 217263 12; D 216011 12; D 214731 12; D 213432 12; D 212123 12; D 210817 12; D 209524 12; D 208261 12; D 207042 12; D 205887 12; D 204816 12];
  [D 45522 8; D 442798 8; D 176824 9; D 482712 9; D 10551 11; D 199082 10; D 338399 10; D 531398 10; D 783599 10; D 109979 11; D 148171 11; D 1929 13;
   D 244033 11; D 301316 11; D 364338 11; D 432594 11; D 505541 11; D 582588 11; D 6631 13; D 746433 11; D 831955 11; D 919073 11; D 10072 13;
   D 109576 12; D 118426 12; D 127224 12; D 135926 12; D 144492 12; D 152892 12; D 161094 12; D 16907 13; D 176801 12; D 184268 12; D 191459 12;
   D 19836 13; D 204965 12; D 211272 12; D 217275 12; D 22298 13; D 228391 12; D 233514 12; D 238355 12; D 242926 12; D 247233 12; D 251289 12;
   D 255102 12; D 258682 12; D 262039 12; D 265184 12; D 268127 12; D 270874 12; D 273433 12; D 275813 12; D 278021 12; D 280061 12; D 281941 12;
   D 283666 12; D 28524 13; D 286667 12; D 287952 12; D 2891 14; D 290113 12; D 290997 12; D 291754 12; D 292388 12; D 292902 12; D 293299 12;
   D 293581 12; D 293752 12; D 293814 12; D 293768 12; D 293617 12; D 293363 12; D 293007 12; D 29255 13; D 291994 12; D 291341 12; D 290592 12;
   D 289747 12; D 288809 12; D 287779 12; D 286659 12; D 28545 13; D 284156 12; D 282779 12; D 281324 12; D 279794 12; D 278196 12; D 276535 12;
   D 274819 12; D 273058 12; D 271261 12; D 269441 12; D 267612 12; D 26579 13; D 263992 12; D 26224 13; D 260557 12; D 25897 13; D 257511 12];
  [D 66664 8; D 651415 8; D 261404 9; D 714954 9; D 156239 10; D 294223 10; D 498973 10; D 78054 11; D 114665 11; D 16027 12; D 214953 11; D 278583 11;
   D 350895 11; D 43137 12; D 51932 12; D 61398 12; D 714509 11; D 820006 11; D 929538 11; D 104219 12; D 11571 13; D 127341 12; D 139032 12;
   D 150709 12; D 16231 13; D 173767 12; D 185029 12; D 196052 12; D 20679 13; D 217207 12; D 227278 12; D 23698 13; D 246292 12; D 255201 12;
   D 263704 12; D 271792 12; D 279469 12; D 286743 12; D 293621 12; D 300114 12; D 306235 12; D 311997 12; D 317416 12; D 322506 12; D 32728 13;
   D 331753 12; D 335943 12; D 339861 12; D 343518 12; D 346926 12; D 350097 12; D 353041 12; D 355765 12; D 358278 12; D 360589 12; D 362704 12;
   D 364628 12; D 36637 13; D 367934 12; D 369327 12; D 370554 12; D 371619 12; D 372529 12; D 373288 12; D 373898 12; D 374365 12; D 374691 12;
   D 374879 12; D 374932 12; D 374852 12; D 374642 12; D 374301 12; D 373833 12; D 373237 12; D 372515 12; D 371667 12; D 370695 12; D 369597 12;
   D 368376 12; D 367031 12; D 365565 12; D 363978 12; D 362274 12; D 360456 12; D 358526 12; D 356491 12; D 354357 12; D 352131 12; D 349822 12;
   D 34744 13; D 344997 12; D 342508 12; D 33999 13; D 337462 12; D 334946 12; D 332469 12; D 33006 13; D 327753 12; D 325588 12; D 32361 13];
  [D 971212 7; D 953338 8; D 384281 9; D 105203 10; D 229646 10; D 431727 10; D 730004 10; D 113747 11; D 166464 11; D 231655 11; D 309282 11;
   D 399067 11; D 500454 11; D 612538 11; D 734243 11; D 864421 11; D 100178 12; D 1145 14; D 129274 12; D 144377 12; D 159685 12; D 175082 12;
   D 190463 12; D 205735 12; D 220806 12; D 235602 12; D 250061 12; D 264118 12; D 277727 12; D 290851 12; D 303461 12; D 315528 12; D 327042 12;
   D 337996 12; D 348385 12; D 358218 12; D 367508 12; D 376267 12; D 384514 12; D 392269 12; D 399553 12; D 406388 12; D 412792 12; D 418787 12;
   D 4244 14; D 429645 12; D 43454 13; D 439103 12; D 44335 13; D 447295 12; D 45095 13; D 454329 12; D 457441 12; D 460296 12; D 462905 12;
   D 465277 12; D 46742 13; D 469343 12; D 471055 12; D 472562 12; D 473872 12; D 47499 13; D 475922 12; D 476674 12; D 47725 13; D 477652 12;
   D 477886 12; D 477954 12; D 477857 12; D 477597 12; D 477175 12; D 476592 12; D 475847 12; D 474941 12; D 473872 12; D 472641 12; D 471247 12;
   D 469688 12; D 467966 12; D 466082 12; D 464035 12; D 46183 13; D 459467 12; D 456952 12; D 45429 13; D 451487 12; D 44855 13; D 445489 12;
   D 442315 12; D 439042 12; D 435687 12; D 43227 13; D 428812 12; D 425342 12; D 42189 13; D 418493 12; D 415195 12; D 412044 12; D 409099 12;
   D 406424 12];
  [D 140655 8; D 138648 9; D 561168 9; D 153777 10; D 335343 10; D 629159 10; D 106021 11; D 164561 11; D 23987 12; D 332305 11; D 441654 11;
   D 567376 11; D 708402 11; D 863277 11; D 10304 13; D 120802 12; D 139422 12; D 158712 12; D 178489 12; D 198579 12; D 218812 12; D 239036 12;
   D 25912 13; D 278931 12; D 298363 12; D 317328 12; D 335736 12; D 353524 12; D 370641 12; D 387046 12; D 402706 12; D 417609 12; D 431741 12;
   D 445109 12; D 45773 13; D 469617 12; D 480797 12; D 491298 12; D 501149 12; D 51038 13; D 519022 12; D 527104 12; D 534663 12; D 541724 12;
   D 54831 13; D 554448 12; D 560164 12; D 565475 12; D 5704 14; D 574959 12; D 579166 12; D 583036 12; D 586583 12; D 589822 12; D 592765 12;
   D 595425 12; D 597814 12; D 599942 12; D 60182 13; D 603456 12; D 604858 12; D 606033 12; D 606988 12; D 607728 12; D 608258 12; D 608581 12;
   D 608698 12; D 608613 12; D 608324 12; D 607833 12; D 607138 12; D 606237 12; D 605131 12; D 603815 12; D 602288 12; D 600549 12; D 598596 12;
   D 596429 12; D 594046 12; D 591449 12; D 588639 12; D 585619 12; D 58239 13; D 578956 12; D 575325 12; D 571502 12; D 567497 12; D 563324 12;
   D 558995 12; D 554529 12; D 549948 12; D 545278 12; D 540552 12; D 535806 12; D 531087 12; D 526446 12; D 521946 12; D 517658 12; D 513667 12;
   D 510068 12];
  [D 202436 8; D 200456 9; D 815226 9; D 223488 10; D 486593 10; D 910964 10; D 152941 11; D 236479 11; D 34324 12; D 473347 11; D 626312 11;
   D 801068 11; D 995789 11; D 120827 12; D 143612 12; D 167669 12; D 192727 12; D 218523 12; D 244808 12; D 271336 12; D 297888 12; D 324271 12;
   D 350299 12; D 375817 12; D 4007 14; D 424821 12; D 448092 12; D 470445 12; D 491816 12; D 512171 12; D 531492 12; D 549764 12; D 567004 12;
   D 583237 12; D 598486 12; D 612794 12; D 626198 12; D 638745 12; D 650478 12; D 661436 12; D 671672 12; D 681228 12; D 690136 12; D 698435 12;
   D 70616 13; D 71334 13; D 720003 12; D 726177 12; D 731881 12; D 73714 13; D 741974 12; D 746403 12; D 750447 12; D 754124 12; D 757451 12;
   D 760445 12; D 763118 12; D 765485 12; D 767557 12; D 769345 12; D 770857 12; D 772101 12; D 773085 12; D 77381 13; D 774283 12; D 774502 12;
   D 77447 13; D 774186 12; D 773647 12; D 772851 12; D 771795 12; D 770475 12; D 768887 12; D 76703 13; D 764899 12; D 762492 12; D 759807 12;
   D 756842 12; D 753595 12; D 750067 12; D 746255 12; D 742162 12; D 737789 12; D 733142 12; D 728225 12; D 723048 12; D 71762 13; D 711957 12;
   D 706078 12; D 700008 12; D 693776 12; D 68742 13; D 680984 12; D 674523 12; D 668101 12; D 661792 12; D 655684 12; D 649881 12; D 644499 12;
   D 639678 12];
  [D 289548 8; D 288749 9; D 117816 10; D 322931 10; D 701992 10; D 131107 11; D 219236 11; D 337687 11; D 487967 11; D 669878 11; D 882465 11;
   D 112373 12; D 139077 12; D 168036 12; D 19889 13; D 231255 12; D 264752 12; D 299024 12; D 333721 12; D 368519 12; D 403141 12; D 43732 13;
   D 47083 13; D 503492 12; D 535126 12; D 565607 12; D 594836 12; D 622728 12; D 649236 12; D 674339 12; D 698019 12; D 72031 13; D 74124 13;
   D 760856 12; D 779215 12; D 796377 12; D 812405 12; D 827357 12; D 8413 14; D 854304 12; D 866417 12; D 877692 12; D 888181 12; D 897932 12;
   D 90698 13; D 915369 12; D 923129 12; D 930292 12; D 936891 12; D 942954 12; D 94851 13; D 953586 12; D 958207 12; D 962396 12; D 966175 12;
   D 969562 12; D 972575 12; D 975229 12; D 977538 12; D 979513 12; D 981163 12; D 982494 12; D 983511 12; D 984216 12; D 98461 13; D 984692 12;
   D 984458 12; D 983906 12; D 98303 13; D 981826 12; D 980288 12; D 978413 12; D 976194 12; D 973628 12; D 970709 12; D 967433 12; D 963794 12;
   D 959788 12; D 95541 13; D 950658 12; D 945529 12; D 940021 12; D 934136 12; D 927876 12; D 921248 12; D 914261 12; D 906929 12; D 899274 12;
   D 891321 12; D 883104 12; D 874667 12; D 866059 12; D 857344 12; D 848596 12; D 839902 12; D 831367 12; D 823113 12; D 815283 12; D 808045 12;
   D 801593 12];
  [D 411654 8; D 414086 9; D 169349 10; D 464237 10; D 100739 11; D 18759 12; D 312446 11; D 479355 11; D 689525 11; D 942326 11; D 123593 12;
   D 15669 13; D 19309 13; D 232313 12; D 273831 12; D 317102 12; D 361609 12; D 406857 12; D 452373 12; D 49775 13; D 542609 12; D 586615 12;
   D 629509 12; D 671035 12; D 71101 13; D 749295 12; D 78577 13; D 820368 12; D 85306 13; D 883831 12; D 912727 12; D 939793 12; D 965099 12;
   D 988727 12; D 101076 13; D 10313 14; D 105042 13; D 106821 13; D 108478 13; D 110018 13; D 11145 14; D 11278 14; D 114014 13; D 115158 13;
   D 116217 13; D 117195 13; D 118098 13; D 118929 13; D 119692 13; D 120392 13; D 121032 13; D 121616 13; D 122146 13; D 122626 13; D 123058 13;
   D 123445 13; D 123788 13; D 124088 13; D 124349 13; D 12457 14; D 124751 13; D 124895 13; D 125 16; D 125066 13; D 125094 13; D 125083 13;
   D 125031 13; D 124939 13; D 124806 13; D 124632 13; D 124415 13; D 124155 13; D 123851 13; D 123502 13; D 123108 13; D 122667 13; D 122178 13;
   D 121641 13; D 121054 13; D 120418 13; D 11973 14; D 118992 13; D 118202 13; D 117362 13; D 116471 13; D 115532 13; D 114545 13; D 113515 13;
   D 112445 13; D 111339 13; D 110203 13; D 109043 13; D 107868 13; D 106689 13; D 105516 13; D 104364 13; D 10325 14; D 102194 13; D 10122 14;
   D 100354 13];
  [D 582706 8; D 590866 9; D 242414 10; D 664032 10; D 143815 11; D 266933 11; D 44291 12; D 67664 12; D 968863 11; D 131821 12; D 172132 12;
   D 217271 12; D 266604 12; D 319419 12; D 374962 12; D 432483 12; D 491282 12; D 550672 12; D 61005 13; D 66888 13; D 726663 12; D 783019 12;
   D 837585 12; D 890084 12; D 940319 12; D 988118 12; D 103338 13; D 107607 13; D 111617 13; D 115374 13; D 118884 13; D 122159 13; D 12521 14;
   D 128048 13; D 130688 13; D 13314 14; D 135419 13; D 137535 13; D 1395 15; D 141323 13; D 143015 13; D 144581 13; D 146032 13; D 147373 13;
   D 14861 14; D 149751 13; D 150801 13; D 151766 13; D 152651 13; D 153461 13; D 154201 13; D 154876 13; D 155488 13; D 156042 13; D 15654 14;
   D 156985 13; D 15738 14; D 157724 13; D 158021 13; D 15827 14; D 158471 13; D 158625 13; D 158732 13; D 15879 14; D 1588 15; D 15876 14; D 158671 13;
   D 15853 14; D 158337 13; D 158092 13; D 157792 13; D 157438 13; D 157027 13; D 156557 13; D 156028 13; D 155438 13; D 154785 13; D 154068 13;
   D 153284 13; D 152434 13; D 151515 13; D 150527 13; D 149471 13; D 148347 13; D 147155 13; D 145899 13; D 14458 14; D 143201 13; D 141767 13;
   D 140285 13; D 13876 14; D 137203 13; D 135623 13; D 134035 13; D 132454 13; D 1309 15; D 129396 13; D 12797 14; D 126655 13; D 125489 13];
  [D 823012 8; D 839744 9; D 345384 10; D 945426 10; D 204364 11; D 37793 12; D 624664 11; D 950102 11; D 135426 12; D 183445 12; D 238485 12;
   D 299719 12; D 366219 12; D 436952 12; D 510856 12; D 58692 13; D 664174 12; D 741716 12; D 818774 12; D 894622 12; D 96868 13; D 104044 13;
   D 110949 13; D 117552 13; D 12383 14; D 129766 13; D 135356 13; D 140596 13; D 145496 13; D 150064 13; D 154316 13; D 158267 13; D 161936 13;
   D 165339 13; D 168495 13; D 171422 13; D 174135 13; D 17665 14; D 178979 13; D 181136 13; D 183131 13; D 184975 13; D 186678 13; D 188248 13;
   D 189694 13; D 191024 13; D 192247 13; D 19337 14; D 1944 15; D 195342 13; D 196203 13; D 196987 13; D 1977 15; D 198344 13; D 198924 13;
   D 199442 13; D 199899 13; D 200297 13; D 200636 13; D 200918 13; D 20114 14; D 201304 13; D 201408 13; D 201452 13; D 201435 13; D 201356 13;
   D 201215 13; D 201009 13; D 200738 13; D 2004 15; D 199992 13; D 199513 13; D 198961 13; D 198333 13; D 197626 13; D 196838 13; D 195967 13;
   D 19501 14; D 193965 13; D 192831 13; D 191607 13; D 190292 13; D 188887 13; D 18739 14; D 185805 13; D 184131 13; D 182373 13; D 180534 13;
   D 17862 14; D 176637 13; D 174595 13; D 172505 13; D 170382 13; D 168243 13; D 166111 13; D 164012 13; D 161978 13; D 160049 13; D 158269 13;
   D 156694 13];
  [D 115908 9; D 118977 10; D 490057 10; D 134017 11; D 289053 11; D 532503 11; D 87675 12; D 132755 12; D 188374 12; D 254044 12; D 328811 12;
   D 411468 12; D 500655 12; D 594901 12; D 692751 12; D 792832 12; D 893822 12; D 994581 12; D 109407 13; D 119138 13; D 128582 13; D 137674 13;
   D 146368 13; D 154631 13; D 162437 13; D 169777 13; D 176647 13; D 183057 13; D 189021 13; D 194559 13; D 199695 13; D 204453 13; D 208857 13;
   D 212932 13; D 216704 13; D 220194 13; D 223421 13; D 226406 13; D 229165 13; D 231714 13; D 234066 13; D 236234 13; D 238231 13; D 24007 14;
   D 241761 13; D 243316 13; D 244744 13; D 246056 13; D 247259 13; D 248361 13; D 249368 13; D 250287 13; D 251123 13; D 251879 13; D 252559 13;
   D 253164 13; D 253697 13; D 254158 13; D 254546 13; D 254862 13; D 255105 13; D 255275 13; D 255371 13; D 255393 13; D 255338 13; D 255207 13;
   D 254996 13; D 254704 13; D 254328 13; D 253866 13; D 253315 13; D 252671 13; D 25193 14; D 25109 14; D 250146 13; D 249095 13; D 247934 13;
   D 246661 13; D 245273 13; D 243769 13; D 242146 13; D 240403 13; D 23854 14; D 236556 13; D 234452 13; D 232229 13; D 229891 13; D 227441 13;
   D 224886 13; D 222235 13; D 219499 13; D 216694 13; D 213838 13; D 210957 13; D 208079 13; D 205243 13; D 202491 13; D 199878 13; D 197467 13;
   D 195333 13];
  [D 162695 9; D 167946 10; D 69279 11; D 189182 11; D 407111 11; D 747011 11; D 122501 12; D 184643 12; D 26083 13; D 350211 12; D 451297 12;
   D 562347 12; D 681392 12; D 806378 12; D 935335 12; D 106639 13; D 119781 13; D 132812 13; D 145595 13; D 158027 13; D 17001 14; D 181476 13;
   D 192374 13; D 202663 13; D 212329 13; D 221362 13; D 229777 13; D 23759 14; D 244831 13; D 25153 14; D 257722 13; D 26344 14; D 26872 14;
   D 273598 13; D 278101 13; D 282258 13; D 286095 13; D 289636 13; D 292901 13; D 295909 13; D 298679 13; D 301227 13; D 303571 13; D 305727 13;
   D 307709 13; D 309532 13; D 311207 13; D 312746 13; D 314159 13; D 315455 13; D 316643 13; D 317727 13; D 318713 13; D 319605 13; D 320405 13;
   D 321115 13; D 321736 13; D 322268 13; D 322709 13; D 323062 13; D 323325 13; D 323497 13; D 323577 13; D 323565 13; D 323458 13; D 323253 13;
   D 322948 13; D 322539 13; D 322022 13; D 321393 13; D 320647 13; D 31978 14; D 318786 13; D 317662 13; D 316403 13; D 315005 13; D 313465 13;
   D 311779 13; D 309943 13; D 307955 13; D 30581 14; D 303507 13; D 301043 13; D 298416 13; D 295627 13; D 292675 13; D 289564 13; D 286299 13;
   D 282887 13; D 279339 13; D 275672 13; D 271905 13; D 268064 13; D 264182 13; D 260299 13; D 256466 13; D 252741 13; D 249197 13; D 245922 13;
   D 243019 13];
  [D 227558 9; D 236127 10; D 975446 10; D 266056 11; D 570966 11; D 104363 12; D 170426 12; D 2557 14; D 359616 12; D 480714 12; D 616791 12;
   D 765325 12; D 923516 12; D 108854 13; D 125775 13; D 14286 14; D 15989 14; D 176666 13; D 193025 13; D 208831 13; D 223972 13; D 238371 13;
   D 251967 13; D 264731 13; D 276647 13; D 287729 13; D 298002 13; D 307501 13; D 316271 13; D 324359 13; D 331811 13; D 338678 13; D 345007 13;
   D 350837 13; D 356209 13; D 361159 13; D 365717 13; D 369913 13; D 373773 13; D 377321 13; D 380582 13; D 38358 14; D 386335 13; D 388869 13;
   D 391199 13; D 393344 13; D 395316 13; D 397132 13; D 398802 13; D 400336 13; D 401743 13; D 403028 13; D 404197 13; D 405251 13; D 406194 13;
   D 407025 13; D 407745 13; D 408356 13; D 408857 13; D 409247 13; D 409526 13; D 409694 13; D 409747 13; D 409684 13; D 4095 15; D 409193 13;
   D 408756 13; D 408185 13; D 407473 13; D 406615 13; D 405605 13; D 404437 13; D 403106 13; D 401607 13; D 399935 13; D 398083 13; D 396047 13;
   D 393822 13; D 3914 15; D 388777 13; D 385946 13; D 382903 13; D 379643 13; D 376163 13; D 372461 13; D 368536 13; D 364393 13; D 360036 13;
   D 355476 13; D 350728 13; D 345812 13; D 340754 13; D 335589 13; D 330358 13; D 325117 13; D 31993 14; D 314878 13; D 31006 14; D 305594 13;
   D 301622 13];
  [D 317121 9; D 331044 10; D 136898 11; D 37276 12; D 797673 11; D 145228 12; D 236133 12; D 352677 12; D 493824 12; D 6572 14; D 839629 12;
   D 103747 13; D 12468 14; D 146382 13; D 168491 13; D 190676 13; D 212652 13; D 234162 13; D 255011 13; D 275023 13; D 294077 13; D 312082 13;
   D 32898 14; D 344749 13; D 359393 13; D 372946 13; D 385455 13; D 396979 13; D 407584 13; D 417332 13; D 426294 13; D 434537 13; D 442113 13;
   D 44908 14; D 455485 13; D 461373 13; D 466783 13; D 47175 14; D 47631 14; D 480496 13; D 484339 13; D 487871 13; D 491117 13; D 494104 13;
   D 496854 13; D 499387 13; D 501723 13; D 503877 13; D 505861 13; D 507685 13; D 509358 13; D 510886 13; D 512271 13; D 513516 13; D 514622 13;
   D 515592 13; D 516426 13; D 517124 13; D 517688 13; D 518116 13; D 518406 13; D 518556 13; D 518562 13; D 51842 14; D 518124 13; D 517667 13;
   D 517043 13; D 516244 13; D 515262 13; D 514092 13; D 512727 13; D 51116 14; D 509385 13; D 507393 13; D 505179 13; D 502733 13; D 500047 13;
   D 497111 13; D 493916 13; D 490452 13; D 486711 13; D 482683 13; D 478362 13; D 473742 13; D 468819 13; D 463594 13; D 45807 14; D 452255 13;
   D 446161 13; D 439805 13; D 433213 13; D 426419 13; D 419466 13; D 41241 14; D 405321 13; D 398288 13; D 391418 13; D 384845 13; D 37873 14;
   D 373269 13];
  [D 440328 9; D 462866 10; D 191497 11; D 52055 12; D 111019 12; D 201356 12; D 325934 12; D 484606 12; D 675548 12; D 895111 12; D 113872 13;
   D 140119 13; D 167713 13; D 196142 13; D 224918 13; D 253617 13; D 28186 14; D 309342 13; D 335804 13; D 361047 13; D 384933 13; D 40736 14;
   D 428286 13; D 447701 13; D 465647 13; D 48218 14; D 497381 13; D 511338 13; D 52414 14; D 535881 13; D 546655 13; D 556536 13; D 565603 13;
   D 573922 13; D 581553 13; D 588551 13; D 594965 13; D 600843 13; D 606232 13; D 611175 13; D 615712 13; D 619882 13; D 623718 13; D 627252 13;
   D 630511 13; D 633519 13; D 636298 13; D 638864 13; D 641229 13; D 643404 13; D 645396 13; D 64721 14; D 648848 13; D 650313 13; D 65161 14;
   D 652738 13; D 653699 13; D 654495 13; D 655124 13; D 655583 13; D 655869 13; D 655978 13; D 655904 13; D 655637 13; D 655171 13; D 654496 13;
   D 653604 13; D 652488 13; D 651139 13; D 64955 14; D 647713 13; D 645619 13; D 643258 13; D 640618 13; D 637689 13; D 634456 13; D 630907 13;
   D 627027 13; D 622801 13; D 618215 13; D 613255 13; D 607909 13; D 602168 13; D 596023 13; D 589471 13; D 582509 13; D 575141 13; D 567373 13;
   D 55922 14; D 550703 13; D 541853 13; D 532711 13; D 523334 13; D 513794 13; D 504186 13; D 494625 13; D 48526 14; D 47627 14; D 467875 13;
   D 460342 13];
  [D 609723 9; D 64519 11; D 266969 11; D 724456 11; D 153982 12; D 27818 13; D 448258 12; D 663503 12; D 920849 12; D 121484 13; D 153895 13;
   D 188588 13; D 224831 13; D 261933 13; D 299252 13; D 336241 13; D 372412 13; D 407392 13; D 440856 13; D 472585 13; D 502414 13; D 530258 13;
   D 556081 13; D 579925 13; D 601859 13; D 621987 13; D 640429 13; D 657308 13; D 672748 13; D 686886 13; D 699822 13; D 711664 13; D 722508 13;
   D 732434 13; D 741518 13; D 749828 13; D 757431 13; D 764389 13; D 770764 13; D 77661 14; D 781978 13; D 786916 13; D 791465 13; D 795663 13;
   D 799542 13; D 803131 13; D 806448 13; D 809513 13; D 812338 13; D 814932 13; D 817301 13; D 819447 13; D 821381 13; D 823102 13; D 824615 13;
   D 825923 13; D 827027 13; D 827923 13; D 828611 13; D 829085 13; D 829339 13; D 829364 13; D 829151 13; D 828688 13; D 827968 13; D 82698 14;
   D 825716 13; D 824167 13; D 822324 13; D 820176 13; D 817712 13; D 814917 13; D 811776 13; D 808273 13; D 804389 13; D 800104 13; D 795397 13;
   D 790248 13; D 784636 13; D 778542 13; D 771947 13; D 764837 13; D 757196 13; D 749013 13; D 74028 14; D 730991 13; D 721147 13; D 710753 13;
   D 699824 13; D 688386 13; D 676474 13; D 664144 13; D 651469 13; D 638545 13; D 625496 13; D 612482 13; D 5997 15; D 587392 13; D 575856 13;
   D 565453 13];
  [D 843035 9; D 896494 10; D 371173 11; D 100527 12; D 212862 12; D 383033 12; D 614389 12; D 905387 12; D 125101 13; D 164329 13; D 2073 15;
   D 252997 13; D 300437 13; D 348691 13; D 396929 13; D 444432 13; D 490608 13; D 534969 13; D 577146 13; D 616887 13; D 654017 13; D 68847 14;
   D 720255 13; D 749462 13; D 776218 13; D 800682 13; D 823026 13; D 843414 13; D 862037 13; D 879038 13; D 894565 13; D 908752 13; D 92171 14;
   D 933544 13; D 944348 13; D 954214 13; D 963229 13; D 971475 13; D 979027 13; D 985957 13; D 992327 13; D 998194 13; D 100361 14; D 100862 14;
   D 101325 14; D 101754 14; D 102152 14; D 102518 14; D 102855 14; D 103164 14; D 103444 14; D 103698 14; D 103926 14; D 104127 14; D 104304 14;
   D 104454 14; D 104579 14; D 104679 14; D 104751 14; D 104797 14; D 104813 14; D 1048 16; D 104756 14; D 10468 15; D 104571 14; D 104429 14;
   D 104251 14; D 104038 14; D 103787 14; D 103497 14; D 103166 14; D 102793 14; D 102374 14; D 101907 14; D 101389 14; D 100818 14; D 100191 14;
   D 995046 13; D 987567 13; D 979446 13; D 970658 13; D 961181 13; D 950992 13; D 940072 13; D 928404 13; D 915978 13; D 902789 13; D 888841 13;
   D 874149 13; D 858744 13; D 842673 13; D 826009 13; D 808848 13; D 791318 13; D 773588 13; D 755867 13; D 73842 14; D 721572 13; D 705723 13;
   D 691358 13];
  [D 116346 10; D 12429 12; D 514542 11; D 139063 12; D 293357 12; D 525713 12; D 839414 12; D 123152 13; D 169413 13; D 221589 13; D 278369 13;
   D 338366 13; D 40026 14; D 462813 13; D 524962 13; D 585775 13; D 644525 13; D 700603 13; D 753599 13; D 803207 13; D 849288 13; D 891793 13;
   D 930825 13; D 966527 13; D 999111 13; D 102881 14; D 105584 14; D 108047 14; D 11029 15; D 112334 14; D 114197 14; D 115895 14; D 117443 14;
   D 118853 14; D 120137 14; D 121309 14; D 122379 14; D 123357 14; D 124254 14; D 125078 14; D 125836 14; D 126536 14; D 127183 14; D 127782 14;
   D 128338 14; D 128852 14; D 129327 14; D 129765 14; D 130166 14; D 130533 14; D 130865 14; D 131164 14; D 131431 14; D 131667 14; D 13187 15;
   D 132042 14; D 132181 14; D 132287 14; D 132359 14; D 132395 14; D 132394 14; D 132354 14; D 132275 14; D 132156 14; D 131996 14; D 131793 14;
   D 131545 14; D 131252 14; D 130911 14; D 130519 14; D 130073 14; D 129571 14; D 129008 14; D 128382 14; D 127688 14; D 126923 14; D 126084 14;
   D 125166 14; D 124166 14; D 123081 14; D 121907 14; D 12064 15; D 119277 14; D 117815 14; D 11625 15; D 114582 14; D 112809 14; D 110931 14;
   D 10895 15; D 106871 14; D 104699 14; D 102445 14; D 10012 15; D 977419 13; D 953331 13; D 929214 13; D 90542 14; D 882384 13; D 860642 13;
   D 840845 13];
  [D 160224 10; D 171918 11; D 71128 12; D 191839 12; D 403104 12; D 719348 12; D 114336 13; D 167007 13; D 228735 13; D 297915 13; D 372708 13;
   D 451239 13; D 531738 13; D 612585 13; D 692407 13; D 770029 13; D 844539 13; D 915216 13; D 981589 13; D 104334 14; D 110036 14; D 115269 14;
   D 120051 14; D 124408 14; D 128371 14; D 131971 14; D 135241 14; D 138214 14; D 140915 14; D 143371 14; D 145605 14; D 147636 14; D 149482 14;
   D 151162 14; D 15269 15; D 154082 14; D 155354 14; D 156518 14; D 157585 14; D 158567 14; D 159473 14; D 16031 15; D 161086 14; D 161805 14;
   D 162471 14; D 163087 14; D 163655 14; D 164176 14; D 164654 14; D 165088 14; D 16548 15; D 165832 14; D 166144 14; D 166416 14; D 166649 14;
   D 16684 15; D 16699 15; D 167097 14; D 167159 14; D 167174 14; D 167142 14; D 167062 14; D 166932 14; D 166751 14; D 166519 14; D 166232 14;
   D 165888 14; D 165484 14; D 165018 14; D 164485 14; D 16388 15; D 1632 16; D 16244 15; D 161595 14; D 160661 14; D 159632 14; D 158505 14;
   D 157273 14; D 155933 14; D 154477 14; D 152902 14; D 151201 14; D 149369 14; D 147403 14; D 145296 14; D 143048 14; D 140657 14; D 138122 14;
   D 135447 14; D 132637 14; D 1297 16; D 126648 14; D 123499 14; D 120276 14; D 117006 14; D 113729 14; D 11049 15; D 107349 14; D 104376 14;
   D 10166 15];
  [D 220142 10; D 237186 11; D 98089 12; D 263908 12; D 552388 12; D 981473 12; D 155296 13; D 225832 13; D 307957 13; D 399408 13; D 497639 13;
   D 600131 13; D 704518 13; D 808717 13; D 910928 13; D 100973 14; D 110394 14; D 119277 14; D 127565 14; D 135231 14; D 142268 14; D 148697 14;
   D 154546 14; D 159856 14; D 164671 14; D 169032 14; D 172986 14; D 176571 14; D 179822 14; D 182772 14; D 185449 14; D 187876 14; D 190079 14;
   D 19208 15; D 193899 14; D 195556 14; D 19707 15; D 198458 14; D 199732 14; D 200906 14; D 201992 14; D 202997 14; D 203929 14; D 204792 14;
   D 20559 15; D 206327 14; D 207004 14; D 207624 14; D 20819 15; D 208703 14; D 209165 14; D 209577 14; D 209938 14; D 210249 14; D 210509 14;
   D 210716 14; D 210869 14; D 210965 14; D 211003 14; D 210983 14; D 210902 14; D 210761 14; D 210558 14; D 21029 15; D 209955 14; D 209549 14;
   D 20907 15; D 208512 14; D 207871 14; D 20714 15; D 206314 14; D 205387 14; D 204355 14; D 20321 15; D 201946 14; D 200558 14; D 199038 14;
   D 197378 14; D 195571 14; D 19361 15; D 191486 14; D 189191 14; D 186718 14; D 184061 14; D 181216 14; D 178177 14; D 174944 14; D 171518 14;
   D 167901 14; D 164101 14; D 160129 14; D 156001 14; D 15174 15; D 147375 14; D 142947 14; D 138506 14; D 134114 14; D 12985 15; D 125809 14;
   D 122107 14];
  [D 30174 11; D 326399 11; D 134919 12; D 362089 12; D 754935 12; D 133541 13; D 210354 13; D 304546 13; D 413505 13; D 534058 13; D 662711 13;
   D 796104 13; D 931097 13; D 106502 14; D 119555 14; D 132093 14; D 143975 14; D 155107 14; D 16543 15; D 174921 14; D 183591 14; D 191473 14;
   D 198617 14; D 205082 14; D 210923 14; D 216207 14; D 220984 14; D 225306 14; D 229218 14; D 232759 14; D 235963 14; D 238864 14; D 241492 14;
   D 243877 14; D 246045 14; D 248021 14; D 249828 14; D 251486 14; D 253012 14; D 254422 14; D 255726 14; D 256934 14; D 258053 14; D 259089 14;
   D 260044 14; D 260923 14; D 26173 15; D 262466 14; D 263135 14; D 26374 15; D 26428 15; D 264758 14; D 265171 14; D 26552 15; D 265801 14;
   D 266013 14; D 266154 14; D 266223 14; D 266219 14; D 266141 14; D 265987 14; D 265757 14; D 265446 14; D 265053 14; D 264572 14; D 263998 14;
   D 263326 14; D 262549 14; D 26166 15; D 260651 14; D 259517 14; D 258249 14; D 25684 15; D 255282 14; D 253567 14; D 251684 14; D 249623 14;
   D 247374 14; D 244926 14; D 242268 14; D 239388 14; D 236277 14; D 232925 14; D 229325 14; D 22547 15; D 221356 14; D 21698 15; D 212345 14;
   D 207453 14; D 202315 14; D 196947 14; D 191369 14; D 185614 14; D 179722 14; D 173747 14; D 167755 14; D 161833 14; D 156084 14; D 150634 14;
   D 145637 14];
  [D 412575 10; D 44834 12; D 185141 12; D 495559 12; D 102915 13; D 181228 13; D 284198 13; D 409636 13; D 553819 13; D 712305 13; D 880362 13;
   D 105351 14; D 122763 14; D 139928 14; D 156558 14; D 172426 14; D 187372 14; D 201286 14; D 214112 14; D 225837 14; D 236497 14; D 246147 14;
   D 254863 14; D 262724 14; D 269811 14; D 276206 14; D 281975 14; D 287184 14; D 291888 14; D 296136 14; D 299971 14; D 303437 14; D 306574 14;
   D 30942 15; D 312008 14; D 31437 15; D 316532 14; D 318519 14; D 320352 14; D 322047 14; D 323616 14; D 325069 14; D 326413 14; D 327653 14;
   D 328794 14; D 329842 14; D 330799 14; D 331672 14; D 332461 14; D 333169 14; D 333796 14; D 334342 14; D 334805 14; D 335183 14; D 335472 14;
   D 335672 14; D 335782 14; D 3358 16; D 335726 14; D 335559 14; D 335296 14; D 334934 14; D 334468 14; D 333893 14; D 333201 14; D 332385 14;
   D 331437 14; D 330347 14; D 329108 14; D 327711 14; D 326147 14; D 324405 14; D 322475 14; D 320346 14; D 318003 14; D 315435 14; D 312625 14;
   D 309559 14; D 306223 14; D 302601 14; D 29868 15; D 294448 14; D 289892 14; D 285003 14; D 279772 14; D 274195 14; D 268269 14; D 261996 14;
   D 255383 14; D 248444 14; D 241201 14; D 233685 14; D 22594 15; D 218021 14; D 210002 14; D 201972 14; D 194046 14; D 18636 15; D 179081 14;
   D 172411 14];
  [D 562972 10; D 614622 11; D 253529 12; D 676532 12; D 139952 13; D 245328 13; D 38302 14; D 549647 13; D 739953 13; D 947779 13; D 116676 14;
   D 139094 14; D 1615 16; D 183445 14; D 204575 14; D 22461 15; D 243363 14; D 260712 14; D 27661 15; D 29107 15; D 304154 14; D 315954 14;
   D 326577 14; D 336128 14; D 344725 14; D 35246 15; D 359426 14; D 365701 14; D 371354 14; D 376446 14; D 381036 14; D 385179 14; D 388928 14;
   D 392328 14; D 395424 14; D 398252 14; D 400847 14; D 403236 14; D 405442 14; D 407483 14; D 409371 14; D 411118 14; D 412729 14; D 414211 14;
   D 415572 14; D 416817 14; D 417953 14; D 418982 14; D 419907 14; D 420729 14; D 421447 14; D 422058 14; D 42256 15; D 422951 14; D 423228 14;
   D 423391 14; D 423439 14; D 423373 14; D 423191 14; D 422888 14; D 422461 14; D 421904 14; D 421209 14; D 420367 14; D 419368 14; D 418202 14;
   D 416858 14; D 415326 14; D 413595 14; D 411653 14; D 409488 14; D 407085 14; D 404428 14; D 4015 16; D 398283 14; D 394757 14; D 390904 14;
   D 386702 14; D 382134 14; D 377182 14; D 371827 14; D 366055 14; D 359851 14; D 353202 14; D 346099 14; D 338536 14; D 330512 14; D 32203 15;
   D 313105 14; D 303757 14; D 294018 14; D 283934 14; D 273565 14; D 262989 14; D 252302 14; D 241628 14; D 231114 14; D 220942 14; D 21133 15;
   D 202537 14];
  [D 767348 10; D 840761 11; D 346397 12; D 921552 12; D 189876 13; D 331327 13; D 514991 13; D 735795 13; D 986373 13; D 125824 14; D 154291 14;
   D 183246 14; D 212008 14; D 24 18; D 266784 14; D 29202 15; D 315493 14; D 337079 14; D 356742 14; D 374544 14; D 390583 14; D 404996 14; D 41793 15;
   D 429535 14; D 439953 14; D 449309 14; D 457715 14; D 465271 14; D 47206 15; D 478164 14; D 483659 14; D 488615 14; D 4931 16; D 497171 14;
   D 500881 14; D 504277 14; D 507399 14; D 510277 14; D 512936 14; D 515395 14; D 517667 14; D 519762 14; D 521689 14; D 523458 14; D 525078 14;
   D 526557 14; D 527898 14; D 529105 14; D 530179 14; D 53112 15; D 531924 14; D 532588 14; D 53311 15; D 533487 14; D 53372 15; D 53381 15;
   D 533755 14; D 533554 14; D 533203 14; D 532694 14; D 532022 14; D 531174 14; D 53014 15; D 528907 14; D 527462 14; D 525792 14; D 523885 14;
   D 521727 14; D 519303 14; D 516596 14; D 513587 14; D 510254 14; D 506575 14; D 502525 14; D 498081 14; D 493216 14; D 487905 14; D 482125 14;
   D 475852 14; D 469064 14; D 461738 14; D 453856 14; D 445398 14; D 436352 14; D 426706 14; D 416457 14; D 405607 14; D 394167 14; D 382159 14;
   D 369617 14; D 356589 14; D 34314 15; D 329354 14; D 315335 14; D 301215 14; D 287157 14; D 273354 14; D 260043 14; D 247504 14; D 236071 14];
  [D 104456 11; D 114769 12; D 472341 12; D 125247 13; D 257024 13; D 446458 13; D 690894 13; D 98282 14; D 131199 14; D 166682 14; D 203602 14;
   D 240918 14; D 277753 14; D 313383 14; D 347251 14; D 37897 15; D 408283 14; D 435079 14; D 459365 14; D 481244 14; D 500883 14; D 518474 14;
   D 534212 14; D 548307 14; D 560928 14; D 57224 15; D 58238 15; D 591471 14; D 599623 14; D 60694 15; D 613521 14; D 619458 14; D 624831 14;
   D 629715 14; D 634173 14; D 638262 14; D 642025 14; D 645496 14; D 648703 14; D 651664 14; D 654392 14; D 656901 14; D 659204 14; D 661313 14;
   D 663237 14; D 664985 14; D 666559 14; D 667963 14; D 669194 14; D 670249 14; D 671124 14; D 671815 14; D 672324 14; D 67265 15; D 672794 14;
   D 672757 14; D 672534 14; D 672121 14; D 671509 14; D 670688 14; D 669645 14; D 668364 14; D 66683 15; D 665027 14; D 662939 14; D 660551 14;
   D 657845 14; D 654801 14; D 651396 14; D 647606 14; D 643402 14; D 638754 14; D 633632 14; D 628003 14; D 621835 14; D 615097 14; D 607758 14;
   D 599789 14; D 591159 14; D 581841 14; D 571809 14; D 561038 14; D 549509 14; D 537208 14; D 524127 14; D 510269 14; D 495643 14; D 480274 14;
   D 464198 14; D 447467 14; D 430153 14; D 412347 14; D 394164 14; D 375747 14; D 357272 14; D 338949 14; D 321033 14; D 303825 14; D 287684 14;
   D 273031 14];
  [D 14198 12; D 156419 12; D 642885 12; D 169876 13; D 347182 13; D 600329 13; D 92489 14; D 131001 14; D 174146 14; D 220357 14; D 268135 14;
   D 316126 14; D 363194 14; D 408444 14; D 451184 14; D 490959 14; D 527495 14; D 560695 14; D 590639 14; D 6175 16; D 641523 14; D 662971 14;
   D 682122 14; D 699228 14; D 714515 14; D 728185 14; D 740412 14; D 751346 14; D 761133 14; D 769909 14; D 777799 14; D 784919 14; D 791369 14;
   D 797241 14; D 80261 15; D 807543 14; D 812086 14; D 816276 14; D 820142 14; D 823702 14; D 826972 14; D 829974 14; D 832721 14; D 835229 14;
   D 837506 14; D 83956 15; D 841393 14; D 843003 14; D 844385 14; D 845536 14; D 846451 14; D 847132 14; D 84758 15; D 847797 14; D 847784 14;
   D 847535 14; D 847045 14; D 846302 14; D 845292 14; D 843998 14; D 842399 14; D 840477 14; D 838213 14; D 835587 14; D 832578 14; D 829166 14;
   D 825321 14; D 821016 14; D 816217 14; D 810886 14; D 804986 14; D 798476 14; D 791315 14; D 783463 14; D 774882 14; D 765533 14; D 755376 14;
   D 744375 14; D 732494 14; D 719699 14; D 705959 14; D 691251 14; D 675556 14; D 658865 14; D 64118 15; D 622514 14; D 602892 14; D 582358 14;
   D 560971 14; D 53881 15; D 515978 14; D 492603 14; D 468842 14; D 444886 14; D 420966 14; D 397356 14; D 374379 14; D 352417 14; D 33192 15;
   D 319265 14];
  [D 192671 11; D 212827 12; D 873274 12; D 229953 13; D 467983 13; D 805571 13; D 123562 14; D 174261 14; D 230694 14; D 290752 14; D 352451 14;
   D 414042 14; D 474067 14; D 531413 14; D 585236 14; D 635012 14; D 680458 14; D 72153 15; D 758396 14; D 791337 14; D 8207 16; D 846838 14;
   D 870131 14; D 890884 14; D 909396 14; D 92591 15; D 940642 14; D 953792 14; D 965545 14; D 976078 14; D 985549 14; D 994101 14; D 100186 15;
   D 100894 15; D 101542 15; D 102138 15; D 102687 15; D 103192 15; D 103658 15; D 104085 15; D 104477 15; D 104835 15; D 105162 15; D 105459 15;
   D 105727 15; D 105967 15; D 106177 15; D 106359 15; D 10651 16; D 106631 15; D 106721 15; D 106782 15; D 106814 15; D 106816 15; D 106788 15;
   D 10673 16; D 106639 15; D 106514 15; D 106352 15; D 106151 15; D 105909 15; D 105623 15; D 105291 15; D 10491 16; D 104478 15; D 10399 16;
   D 103443 15; D 102832 15; D 102153 15; D 101401 15; D 10057 16; D 996551 14; D 986519 14; D 975552 14; D 963602 14; D 950618 14; D 936555 14;
   D 921367 14; D 905013 14; D 887456 14; D 868666 14; D 848625 14; D 827322 14; D 804762 14; D 780962 14; D 755955 14; D 729793 14; D 702547 14;
   D 674308 14; D 645195 14; D 615351 14; D 584955 14; D 554217 14; D 52339 15; D 492769 14; D 462704 14; D 433601 14; D 415199 14; D 388738 14;
   D 364947 14];
  [D 261016 11; D 289049 12; D 118415 13; D 310672 13; D 629593 13; D 107889 14; D 164752 14; D 231363 14; D 305025 14; D 382925 14; D 462445 14;
   D 541332 14; D 617737 14; D 690257 14; D 757912 14; D 820078 14; D 876503 14; D 92724 15; D 972575 14; D 101293 15; D 104879 15; D 108065 15;
   D 110896 15; D 113414 15; D 115654 15; D 117648 15; D 119423 15; D 121004 15; D 122416 15; D 123682 15; D 12482 16; D 12585 16; D 126785 15;
   D 127639 15; D 128423 15; D 129144 15; D 129807 15; D 130416 15; D 130975 15; D 131488 15; D 131956 15; D 132384 15; D 132772 15; D 133122 15;
   D 133435 15; D 133711 15; D 133949 15; D 134147 15; D 134307 15; D 134428 15; D 134511 15; D 134556 15; D 134563 15; D 134532 15; D 134461 15;
   D 134349 15; D 134193 15; D 13399 16; D 133737 15; D 13343 16; D 133068 15; D 132646 15; D 132162 15; D 131612 15; D 13099 16; D 130292 15;
   D 129512 15; D 128644 15; D 127681 15; D 126616 15; D 125444 15; D 124158 15; D 122752 15; D 12122 16; D 119556 15; D 117753 15; D 115807 15;
   D 113712 15; D 111465 15; D 109061 15; D 106499 15; D 103779 15; D 100901 15; D 978677 14; D 946841 14; D 913566 14; D 878939 14; D 843072 14;
   D 806105 14; D 768206 14; D 729577 14; D 690455 14; D 651119 14; D 611892 14; D 573148 14; D 549499 14; D 51207 15; D 4766 16; D 443803 14;
   D 414513 14];
  [D 352987 11; D 391871 12; D 160304 13; D 418995 13; D 845384 13; D 144222 14; D 219267 14; D 306613 14; D 40258 15; D 50343 15; D 605724 14;
   D 706569 14; D 803638 14; D 895184 14; D 980052 14; D 105756 15; D 11275 16; D 119009 15; D 124579 15; D 12952 16; D 133897 15; D 137777 15;
   D 141218 15; D 144271 15; D 146982 15; D 149388 15; D 151526 15; D 153428 15; D 155126 15; D 156649 15; D 158019 15; D 15926 16; D 16039 16;
   D 161424 15; D 162372 15; D 163244 15; D 164044 15; D 164778 15; D 165449 15; D 166063 15; D 166622 15; D 16713 16; D 167589 15; D 167999 15;
   D 16836 16; D 168672 15; D 168934 15; D 169145 15; D 169306 15; D 169418 15; D 169482 15; D 169496 15; D 169462 15; D 169377 15; D 169238 15;
   D 169043 15; D 168787 15; D 168467 15; D 168078 15; D 167617 15; D 16708 16; D 166463 15; D 16576 16; D 164966 15; D 164072 15; D 163073 15;
   D 161959 15; D 160722 15; D 159354 15; D 157848 15; D 156195 15; D 154388 15; D 152419 15; D 15028 16; D 147965 15; D 145466 15; D 142777 15;
   D 139895 15; D 136816 15; D 133538 15; D 130061 15; D 126388 15; D 122523 15; D 118472 15; D 114245 15; D 109851 15; D 105306 15; D 100627 15;
   D 958328 14; D 909479 14; D 859993 14; D 81018 15; D 760396 14; D 731967 14; D 682315 14; D 633973 14; D 587579 14; D 543874 14; D 503715 14;
   D 4681 16];
  [D 476584 11; D 530546 12; D 216627 13; D 564073 13; D 113311 14; D 192447 14; D 2913 16; D 405624 14; D 530421 14; D 660742 14; D 792104 14;
   D 920779 14; D 104387 15; D 115923 15; D 12655 16; D 136197 15; D 144855 15; D 152566 15; D 159402 15; D 165447 15; D 170789 15; D 175514 15;
   D 179694 15; D 183395 15; D 186673 15; D 189577 15; D 192152 15; D 194442 15; D 196486 15; D 19832 16; D 199973 15; D 201473 15; D 20284 16;
   D 204092 15; D 20524 16; D 206293 15; D 207258 15; D 20814 16; D 208945 15; D 209679 15; D 210345 15; D 210946 15; D 211484 15; D 211959 15;
   D 21237 16; D 212716 15; D 212995 15; D 21321 16; D 213362 15; D 213451 15; D 213477 15; D 21344 16; D 213337 15; D 213166 15; D 212922 15;
   D 212599 15; D 212193 15; D 211698 15; D 211111 15; D 210427 15; D 209638 15; D 208739 15; D 207721 15; D 206574 15; D 20529 16; D 203858 15;
   D 202266 15; D 200506 15; D 198566 15; D 196437 15; D 194109 15; D 191573 15; D 18882 16; D 185839 15; D 182625 15; D 179169 15; D 175468 15;
   D 171518 15; D 167319 15; D 162873 15; D 158183 15; D 153257 15; D 148103 15; D 142734 15; D 137166 15; D 131415 15; D 125504 15; D 119457 15;
   D 113303 15; D 107072 15; D 100799 15; D 97515 15; D 911535 14; D 848649 14; D 787073 14; D 727472 14; D 670607 14; D 617355 14; D 568732 14;
   D 525918 14];
  [D 642865 11; D 717264 12; D 292274 13; D 758129 13; D 15161 15; D 256353 14; D 386341 14; D 535709 14; D 697713 14; D 865817 14; D 103421 15;
   D 119812 15; D 135393 15; D 149905 15; D 163188 15; D 175176 15; D 18588 16; D 195372 15; D 203756 15; D 211147 15; D 217665 15; D 223415 15;
   D 228493 15; D 232978 15; D 236941 15; D 240444 15; D 243547 15; D 246306 15; D 24877 16; D 250982 15; D 25298 16; D 254796 15; D 256453 15;
   D 25797 16; D 259359 15; D 260631 15; D 261792 15; D 262851 15; D 263815 15; D 264691 15; D 265481 15; D 266188 15; D 266814 15; D 267356 15;
   D 267813 15; D 268185 15; D 268473 15; D 268678 15; D 268803 15; D 268846 15; D 268808 15; D 268686 15; D 268474 15; D 268168 15; D 267761 15;
   D 267246 15; D 266618 15; D 26587 16; D 264995 15; D 263987 15; D 262835 15; D 261529 15; D 260056 15; D 258404 15; D 25656 16; D 254509 15;
   D 252239 15; D 249737 15; D 246992 15; D 243989 15; D 240718 15; D 237168 15; D 233326 15; D 229185 15; D 224738 15; D 219979 15; D 214907 15;
   D 209524 15; D 203833 15; D 197841 15; D 191559 15; D 185002 15; D 178185 15; D 17113 16; D 163861 15; D 156405 15; D 148792 15; D 141057 15;
   D 133237 15; D 129528 15; D 121531 15; D 113555 15; D 105656 15; D 978937 14; D 903379 14; D 830666 14; D 761688 14; D 697471 14; D 6392 16;
   D 588255 14];
  [D 866334 11; D 9682 14; D 393735 13; D 10173 15; D 202517 14; D 340918 14; D 511554 14; D 706374 14; D 916328 14; D 11328 16; D 134831 15;
   D 155676 15; D 175365 15; D 193589 15; D 210168 15; D 225041 15; D 23826 16; D 249933 15; D 260209 15; D 269243 15; D 277193 15; D 284191 15;
   D 290356 15; D 295789 15; D 300578 15; D 304805 15; D 308548 15; D 311875 15; D 314848 15; D 317522 15; D 319941 15; D 322142 15; D 324152 15;
   D 32599 16; D 32767 16; D 329203 15; D 3306 17; D 33187 16; D 333023 15; D 334063 15; D 334996 15; D 335821 15; D 336539 15; D 337146 15;
   D 337642 15; D 338028 15; D 338308 15; D 338482 15; D 338552 15; D 338517 15; D 338372 15; D 338112 15; D 337731 15; D 337218 15; D 336566 15;
   D 335768 15; D 334814 15; D 333698 15; D 332408 15; D 330932 15; D 329256 15; D 327363 15; D 325238 15; D 322861 15; D 320217 15; D 317288 15;
   D 31406 16; D 310515 15; D 306639 15; D 302416 15; D 297833 15; D 292877 15; D 287538 15; D 281808 15; D 275684 15; D 269166 15; D 262259 15;
   D 254969 15; D 247309 15; D 239296 15; D 230949 15; D 222294 15; D 213357 15; D 204172 15; D 194773 15; D 1852 17; D 175494 15; D 165701 15;
   D 161393 15; D 151411 15; D 141459 15; D 131596 15; D 121886 15; D 112401 15; D 10322 16; D 944352 14; D 861476 14; D 784757 14; D 715563 14;
   D 655487 14];
  [D 116621 12; D 130491 13; D 529569 13; D 136286 14; D 27009 15; D 452659 14; D 676292 14; D 929975 14; D 120163 15; D 147995 15; D 175529 15;
   D 201997 15; D 226837 15; D 249686 15; D 270345 15; D 288779 15; D 305083 15; D 319429 15; D 332016 15; D 343058 15; D 352749 15; D 361264 15;
   D 368747 15; D 375326 15; D 381113 15; D 386216 15; D 390732 15; D 394749 15; D 398343 15; D 40158 16; D 404514 15; D 407185 15; D 409624 15;
   D 41185 16; D 413879 15; D 415726 15; D 417403 15; D 418925 15; D 420298 15; D 42153 16; D 422623 15; D 423574 15; D 424383 15; D 425047 15;
   D 425568 15; D 42595 16; D 426195 15; D 426305 15; D 426278 15; D 42611 16; D 425795 15; D 425321 15; D 424678 15; D 423855 15; D 422842 15;
   D 421629 15; D 420205 15; D 418556 15; D 416666 15; D 414516 15; D 412084 15; D 409349 15; D 406288 15; D 402879 15; D 399101 15; D 394934 15;
   D 390357 15; D 385351 15; D 379897 15; D 373979 15; D 367581 15; D 360692 15; D 353307 15; D 345421 15; D 33704 16; D 328171 15; D 318829 15;
   D 309032 15; D 298805 15; D 288177 15; D 277182 15; D 26586 16; D 254253 15; D 242409 15; D 230377 15; D 218209 15; D 213398 15; D 20098 16;
   D 18855 16; D 176171 15; D 163907 15; D 151827 15; D 140004 15; D 128521 15; D 117469 15; D 106948 15; D 970762 14; D 879868 14; D 798363 14;
   D 728074 14];
  [D 156801 12; D 17566 14; D 711212 13; D 182311 14; D 359652 14; D 600106 14; D 892736 14; D 122255 15; D 15735 16; D 193077 15; D 228201 15;
   D 261757 15; D 293048 15; D 321651 15; D 347358 15; D 370178 15; D 390273 15; D 407889 15; D 4233 17; D 436792 15; D 448605 15; D 458961 15;
   D 468042 15; D 476006 15; D 483001 15; D 489164 15; D 494619 15; D 499475 15; D 503827 15; D 507753 15; D 511315 15; D 514559 15; D 517516 15;
   D 520209 15; D 522657 15; D 524879 15; D 526892 15; D 52871 16; D 530341 15; D 53179 16; D 533056 15; D 534136 15; D 535029 15; D 535734 15;
   D 536258 15; D 536603 15; D 536773 15; D 536767 15; D 536578 15; D 536198 15; D 535614 15; D 534811 15; D 533776 15; D 532495 15; D 530956 15;
   D 529143 15; D 527039 15; D 524621 15; D 521866 15; D 518745 15; D 515229 15; D 511289 15; D 506897 15; D 502026 15; D 496649 15; D 490741 15;
   D 484277 15; D 477235 15; D 469592 15; D 461332 15; D 452444 15; D 442921 15; D 432765 15; D 421984 15; D 410593 15; D 398615 15; D 386078 15;
   D 373019 15; D 359479 15; D 345508 15; D 331158 15; D 316488 15; D 30156 16; D 286438 15; D 281032 15; D 265607 15; D 250132 15; D 234676 15;
   D 219308 15; D 204101 15; D 189127 15; D 174465 15; D 160197 15; D 146414 15; D 133216 15; D 120717 15; D 109048 15; D 983576 14; D 888243 14;
   D 806557 14];
  [D 21056 13; D 236173 13; D 953832 13; D 243513 14; D 478222 14; D 794417 14; D 117676 15; D 160489 15; D 205759 15; D 251558 15; D 296296 15;
   D 338771 15; D 378135 15; D 413886 15; D 445833 15; D 474052 15; D 498799 15; D 520421 15; D 539287 15; D 555763 15; D 570161 15; D 582753 15;
   D 593767 15; D 603408 15; D 611865 15; D 619314 15; D 625911 15; D 63179 16; D 637067 15; D 641836 15; D 646164 15; D 650104 15; D 653688 15;
   D 656942 15; D 659893 15; D 662564 15; D 664976 15; D 66714 16; D 669066 15; D 670754 15; D 672202 15; D 673405 15; D 674364 15; D 675085 15;
   D 675574 15; D 675834 15; D 675866 15; D 675662 15; D 675212 15; D 674498 15; D 673503 15; D 672207 15; D 670593 15; D 668645 15; D 666343 15;
   D 663664 15; D 660579 15; D 657055 15; D 653056 15; D 648543 15; D 643479 15; D 637827 15; D 631552 15; D 624622 15; D 617002 15; D 608661 15;
   D 599571 15; D 589706 15; D 579046 15; D 567579 15; D 555302 15; D 542222 15; D 528352 15; D 51372 16; D 498357 15; D 482309 15; D 465626 15;
   D 44837 16; D 430607 15; D 412412 15; D 393862 15; D 375039 15; D 356027 15; D 349699 15; D 330427 15; D 311145 15; D 291935 15; D 272877 15;
   D 254049 15; D 235531 15; D 217406 15; D 199758 15; D 182676 15; D 166258 15; D 150616 15; D 135871 15; D 122169 15; D 109677 15; D 985937 14;
   D 891547 14];
  [D 28238 13; D 317112 13; D 127737 14; D 324798 14; D 634971 14; D 105015 15; D 154898 15; D 210395 15; D 268706 15; D 327328 15; D 384235 15;
   D 43792 16; D 487365 15; D 531997 15; D 57165 16; D 606512 15; D 636966 15; D 663489 15; D 686582 15; D 706698 15; D 724241 15; D 739548 15;
   D 752904 15; D 764575 15; D 774806 15; D 783817 15; D 791803 15; D 798932 15; D 805342 15; D 811139 15; D 816403 15; D 821185 15; D 825524 15;
   D 829453 15; D 833006 15; D 836213 15; D 839092 15; D 841658 15; D 843916 15; D 84586 16; D 847487 15; D 848795 15; D 849791 15; D 850485 15;
   D 850881 15; D 85098 16; D 850775 15; D 850252 15; D 84939 16; D 848165 15; D 846552 15; D 844528 15; D 842072 15; D 839159 15; D 835757 15;
   D 83183 16; D 827334 15; D 822221 15; D 81644 16; D 809943 15; D 802683 15; D 794613 15; D 785692 15; D 775875 15; D 765124 15; D 753402 15;
   D 740677 15; D 726929 15; D 712144 15; D 696323 15; D 67948 16; D 66164 16; D 642843 15; D 623138 15; D 60259 16; D 581272 15; D 559269 15;
   D 536674 15; D 513589 15; D 490118 15; D 46637 16; D 459059 15; D 435011 15; D 41092 16; D 386885 15; D 363005 15; D 339371 15; D 316074 15;
   D 293201 15; D 270837 15; D 249069 15; D 227985 15; D 207682 15; D 188262 15; D 169842 15; D 152557 15; D 136562 15; D 122045 15; D 109227 15;
   D 983722 14];
  [D 378197 12; D 425214 13; D 170834 14; D 43263 15; D 841961 14; D 138635 15; D 203623 15; D 27546 16; D 350463 15; D 425398 15; D 497687 15;
   D 565446 15; D 627464 15; D 683107 15; D 732278 15; D 77531 16; D 812767 15; D 845289 15; D 873545 15; D 898104 15; D 919472 15; D 938072 15;
   D 954268 15; D 968401 15; D 980784 15; D 991696 15; D 100138 16; D 101003 16; D 101783 16; D 102489 16; D 103128 16; D 103708 16; D 104233 16;
   D 104707 16; D 105135 16; D 105519 16; D 105861 16; D 106164 16; D 106425 16; D 106646 16; D 106825 16; D 106963 16; D 107062 16; D 107121 16;
   D 107143 16; D 107124 16; D 107065 16; D 106963 16; D 106813 16; D 106614 16; D 106362 16; D 106053 16; D 105686 16; D 105256 16; D 104757 16;
   D 104185 16; D 103533 16; D 102795 16; D 101963 16; D 101032 16; D 999965 15; D 9885 17; D 975874 15; D 962036 15; D 946938 15; D 930544 15;
   D 912829 15; D 89378 16; D 873406 15; D 851729 15; D 82879 16; D 804646 15; D 779373 15; D 75306 16; D 725812 15; D 697746 15; D 668992 15;
   D 639685 15; D 609967 15; D 579981 15; D 571241 15; D 541062 15; D 510918 15; D 480934 15; D 451227 15; D 421905 15; D 393072 15; D 364824 15;
   D 33725 16; D 31044 16; D 284483 15; D 259466 15; D 235488 15; D 212656 15; D 191091 15; D 170937 15; D 152363 15; D 135573 15; D 120813 15;
   D 108381 15];
  [D 506076 12; D 569545 13; D 228189 14; D 575479 14; D 111495 15; D 182778 15; D 267331 15; D 360197 15; D 456539 15; D 552196 15; D 643899 15;
   D 729313 15; D 807001 15; D 876285 15; D 937198 15; D 990278 15; D 103632 16; D 10762 17; D 111076 16; D 114073 16; D 116676 16; D 118935 16;
   D 120899 16; D 122611 16; D 124111 16; D 125434 16; D 126609 16; D 127662 16; D 128611 16; D 12947 17; D 130247 16; D 13095 17; D 131584 16;
   D 132156 16; D 132669 16; D 133128 16; D 133533 16; D 133887 16; D 134186 16; D 134432 16; D 134624 16; D 134764 16; D 134853 16; D 134893 16;
   D 134881 16; D 134817 16; D 134697 16; D 134517 16; D 134272 16; D 13396 17; D 133575 16; D 133114 16; D 132571 16; D 131941 16; D 131216 16;
   D 130387 16; D 129446 16; D 128384 16; D 127194 16; D 125867 16; D 124397 16; D 122776 16; D 120998 16; D 119056 16; D 116947 16; D 114667 16;
   D 112216 16; D 109594 16; D 106806 16; D 103858 16; D 100758 16; D 975173 15; D 941478 15; D 906644 15; D 870835 15; D 834224 15; D 796997 15;
   D 759341 15; D 748811 15; D 710907 15; D 672992 15; D 635232 15; D 597782 15; D 560784 15; D 524368 15; D 488654 15; D 453748 15; D 419747 15;
   D 386742 15; D 354818 15; D 32406 16; D 294555 15; D 266399 15; D 239698 15; D 214579 15; D 191192 15; D 169718 15; D 150379 15; D 133448 15;
   D 119259 15];
  [D 676705 12; D 762049 13; D 304412 14; D 76453 15; D 147457 15; D 240675 15; D 350537 15; D 470432 15; D 594029 15; D 715978 15; D 832161 15;
   D 939697 15; D 103689 16; D 112306 16; D 119845 16; D 126389 16; D 132046 16; D 136934 16; D 14116 17; D 144818 16; D 147986 16; D 150731 16;
   D 153112 16; D 155187 16; D 157006 16; D 158612 16; D 160041 16; D 161323 16; D 162479 16; D 163524 16; D 164468 16; D 165319 16; D 166085 16;
   D 166772 16; D 167387 16; D 167933 16; D 16841 17; D 168818 16; D 169156 16; D 169423 16; D 169623 16; D 169755 16; D 169823 16; D 169825 16;
   D 16976 17; D 169622 16; D 169408 16; D 169111 16; D 168726 16; D 168248 16; D 167673 16; D 166992 16; D 166198 16; D 165281 16; D 164231 16;
   D 163036 16; D 161685 16; D 160167 16; D 158472 16; D 156591 16; D 154515 16; D 152234 16; D 149742 16; D 147033 16; D 144103 16; D 140952 16;
   D 137582 16; D 134 19; D 130214 16; D 126236 16; D 122081 16; D 117766 16; D 113313 16; D 108743 16; D 104079 16; D 993476 15; D 945727 15;
   D 932778 15; D 884967 15; D 837273 15; D 789908 15; D 743067 15; D 696923 15; D 651636 15; D 607341 15; D 56416 16; D 522198 15; D 481547 15;
   D 442289 15; D 404502 15; D 368262 15; D 333649 15; D 300752 15; D 269676 15; D 240546 15; D 213519 15; D 188788 15; D 166594 15; D 147236 15;
   D 131088 15];
  [D 904117 12; D 101846 14; D 405592 14; D 101443 15; D 194781 15; D 316528 15; D 459095 15; D 613692 15; D 772059 15; D 927334 15; D 107434 16;
   D 120956 16; D 133102 16; D 143808 16; D 153132 16; D 161193 16; D 168141 16; D 174132 16; D 1793 18; D 183762 16; D 187618 16; D 190951 16;
   D 19384 17; D 196357 16; D 198565 16; D 200517 16; D 202257 16; D 203819 16; D 205228 16; D 206499 16; D 207643 16; D 208673 16; D 209597 16;
   D 210424 16; D 211158 16; D 211803 16; D 212359 16; D 212824 16; D 213197 16; D 213481 16; D 213677 16; D 213789 16; D 213815 16; D 213754 16;
   D 213602 16; D 213351 16; D 212995 16; D 212525 16; D 211936 16; D 21122 17; D 21037 17; D 209375 16; D 208221 16; D 206895 16; D 205383 16;
   D 203668 16; D 201738 16; D 199579 16; D 197179 16; D 194526 16; D 191607 16; D 188415 16; D 184941 16; D 181182 16; D 177138 16; D 172812 16;
   D 168213 16; D 163355 16; D 158253 16; D 152928 16; D 147406 16; D 141712 16; D 135878 16; D 129936 16; D 123918 16; D 117859 16; D 116252 16;
   D 110214 16; D 104206 16; D 982566 15; D 923887 15; D 866245 15; D 80983 16; D 754803 15; D 701303 15; D 649443 15; D 599318 15; D 551005 15;
   D 504573 15; D 460084 15; D 417599 15; D 377184 15; D 338919 15; D 3029 17; D 269252 15; D 238133 15; D 209747 15; D 184355 15; D 162286 15;
   D 143955 15];
  [D 120686 13; D 135952 14; D 539815 14; D 134437 15; D 256985 15; D 415801 15; D 600581 15; D 799686 15; D 100237 16; D 119984 16; D 138562 16;
   D 155544 16; D 170704 16; D 183995 16; D 195517 16; D 205445 16; D 213977 16; D 221316 16; D 227633 16; D 233077 16; D 237768 16; D 241817 16;
   D 245323 16; D 248379 16; D 251061 16; D 253436 16; D 255557 16; D 257462 16; D 259178 16; D 260723 16; D 262111 16; D 263355 16; D 264469 16;
   D 265459 16; D 266333 16; D 267091 16; D 267731 16; D 268252 16; D 268655 16; D 268944 16; D 269121 16; D 269189 16; D 269144 16; D 268982 16;
   D 268694 16; D 268272 16; D 267704 16; D 266983 16; D 266099 16; D 265043 16; D 2638 18; D 262355 16; D 260688 16; D 258781 16; D 256613 16;
   D 254167 16; D 251425 16; D 248371 16; D 244988 16; D 241263 16; D 237183 16; D 232738 16; D 227923 16; D 22274 17; D 217195 16; D 211299 16;
   D 20507 17; D 198532 16; D 191712 16; D 184644 16; D 177366 16; D 169918 16; D 162344 16; D 154687 16; D 152631 16; D 144978 16; D 137345 16;
   D 129768 16; D 122282 16; D 11492 17; D 107706 16; D 100666 16; D 93817 16; D 871761 15; D 807554 15; D 745645 15; D 686107 15; D 628996 15;
   D 574355 15; D 522222 15; D 472636 15; D 425644 15; D 381308 15; D 339714 15; D 300979 15; D 265263 15; D 23278 16; D 20381 16; D 178712 15;
   D 157948 15];
  [D 160943 13; D 181297 14; D 717655 14; D 17796 16; D 338668 15; D 545594 15; D 784803 15; D 104093 16; D 130002 16; D 155088 16; D 178539 16;
   D 199841 16; D 218743 16; D 235229 16; D 249459 16; D 261678 16; D 272154 16; D 281143 16; D 288865 16; D 295502 16; D 30121 17; D 306128 16;
   D 310387 16; D 314099 16; D 317362 16; D 320256 16; D 322843 16; D 325168 16; D 327258 16; D 329134 16; D 330815 16; D 332318 16; D 333657 16;
   D 334841 16; D 335874 16; D 336756 16; D 337483 16; D 338055 16; D 338477 16; D 338754 16; D 338887 16; D 338875 16; D 338714 16; D 338393 16;
   D 337899 16; D 33722 17; D 336345 16; D 335262 16; D 333957 16; D 332413 16; D 33061 17; D 328523 16; D 326128 16; D 323397 16; D 320308 16;
   D 316837 16; D 312962 16; D 308662 16; D 303919 16; D 298716 16; D 29304 17; D 286887 16; D 280256 16; D 273158 16; D 265608 16; D 257631 16;
   D 249259 16; D 240529 16; D 231488 16; D 222186 16; D 212677 16; D 203019 16; D 193271 16; D 190655 16; D 180948 16; D 171286 16; D 161716 16;
   D 152285 16; D 143031 16; D 133988 16; D 125184 16; D 116643 16; D 108382 16; D 100416 16; D 927548 15; D 854042 15; D 783683 15; D 716492 15;
   D 652476 15; D 591641 15; D 533994 15; D 479555 15; D 428362 15; D 380485 15; D 336031 15; D 295158 15; D 258086 15; D 225114 15; D 196636 15;
   D 173161 15];
  [D 214413 13; D 241549 14; D 953008 14; D 235308 15; D 44582 16; D 715121 15; D 102444 16; D 135354 16; D 168437 16; D 200269 16; D 229838 16;
   D 256531 16; D 280074 16; D 300507 16; D 318072 16; D 333105 16; D 345965 16; D 356974 16; D 36641 17; D 374502 16; D 381446 16; D 387423 16;
   D 392598 16; D 397112 16; D 401086 16; D 404618 16; D 407776 16; D 410611 16; D 413155 16; D 415431 16; D 417466 16; D 419279 16; D 420885 16;
   D 422295 16; D 423508 16; D 424521 16; D 425333 16; D 425947 16; D 42637 17; D 426605 16; D 426654 16; D 426511 16; D 426165 16; D 4256 18;
   D 424799 16; D 423747 16; D 422428 16; D 420825 16; D 418918 16; D 41668 17; D 41408 17; D 411084 16; D 407658 16; D 40377 17; D 399391 16;
   D 39449 17; D 389041 16; D 383018 16; D 3764 18; D 36917 17; D 361322 16; D 352856 16; D 343784 16; D 33413 17; D 323926 16; D 313215 16;
   D 302049 16; D 290489 16; D 278602 16; D 266461 16; D 254145 16; D 241729 16; D 238377 16; D 226054 16; D 213809 16; D 201708 16; D 189806 16;
   D 178155 16; D 166797 16; D 155766 16; D 145091 16; D 134794 16; D 124889 16; D 115386 16; D 106291 16; D 976055 15; D 893282 15; D 814565 15;
   D 739863 15; D 669137 15; D 602352 15; D 539492 15; D 480566 15; D 425616 15; D 374738 15; D 328082 15; D 285874 15; D 248431 15; D 216183 15;
   D 189692 15];
  [D 285353 13; D 321512 14; D 126429 15; D 310795 15; D 586239 15; D 936339 15; D 133588 16; D 175828 16; D 218026 16; D 258374 16; D 295618 16;
   D 329029 16; D 358327 16; D 383633 16; D 405304 16; D 423795 16; D 439578 16; D 453059 16; D 464588 16; D 47445 17; D 482898 16; D 490165 16;
   D 496458 16; D 501954 16; D 506801 16; D 511112 16; D 514969 16; D 518426 16; D 521518 16; D 52428 17; D 52674 17; D 528924 16; D 530846 16;
   D 532513 16; D 533924 16; D 535073 16; D 535962 16; D 536599 16; D 536991 16; D 537141 16; D 537046 16; D 536692 16; D 536061 16; D 535131 16;
   D 533879 16; D 532287 16; D 530332 16; D 52799 17; D 525226 16; D 522 19; D 51827 17; D 51399 17; D 509117 16; D 503611 16; D 497434 16; D 490549 16;
   D 482924 16; D 474528 16; D 465341 16; D 455352 16; D 444564 16; D 432991 16; D 420665 16; D 407629 16; D 39394 17; D 379669 16; D 364895 16;
   D 349709 16; D 33421 17; D 3185 18; D 302681 16; D 29836 17; D 282701 16; D 267169 16; D 251845 16; D 236805 16; D 222112 16; D 207819 16;
   D 19397 17; D 180601 16; D 167734 16; D 155389 16; D 143574 16; D 132293 16; D 121546 16; D 111326 16; D 101628 16; D 924402 15; D 837536 15;
   D 755582 15; D 678449 15; D 606079 15; D 538437 15; D 475538 15; D 417451 15; D 364319 15; D 316369 15; D 273937 15; D 237487 15; D 207642 15];
  [D 379412 13; D 427515 14; D 167559 15; D 41008 16; D 770093 15; D 122474 16; D 174027 16; D 228185 16; D 281951 16; D 333041 16; D 379904 16;
   D 421682 16; D 458111 16; D 489431 16; D 516157 16; D 538896 16; D 558261 16; D 574766 16; D 588848 16; D 600866 16; D 611147 16; D 619987 16;
   D 627647 16; D 634345 16; D 640262 16; D 64553 17; D 650241 16; D 654453 16; D 658212 16; D 661558 16; D 66453 17; D 667153 16; D 669443 16;
   D 671402 16; D 673023 16; D 674305 16; D 675253 16; D 675881 16; D 676194 16; D 676192 16; D 675861 16; D 675179 16; D 674119 16; D 672649 16;
   D 670745 16; D 66838 17; D 66552 17; D 662126 16; D 658145 16; D 653522 16; D 648198 16; D 642114 16; D 635218 16; D 627459 16; D 618789 16;
   D 609164 16; D 598544 16; D 5869 18; D 574217 16; D 560498 16; D 545762 16; D 53005 17; D 513418 16; D 495943 16; D 477717 16; D 458848 16;
   D 439456 16; D 419672 16; D 399629 16; D 379466 16; D 373871 16; D 353957 16; D 334233 16; D 314806 16; D 295772 16; D 277211 16; D 259193 16;
   D 241772 16; D 224991 16; D 208878 16; D 193454 16; D 178727 16; D 1647 18; D 151367 16; D 138719 16; D 126741 16; D 115418 16; D 104731 16;
   D 946614 15; D 851929 15; D 763097 15; D 679997 15; D 602546 15; D 530717 15; D 464551 15; D 404173 15; D 34981 16; D 301815 15; D 260689 15;
   D 227118 15];
  [D 504177 13; D 567921 14; D 221843 15; D 540533 15; D 101059 16; D 16004 17; D 226491 16; D 29586 17; D 364296 16; D 428917 16; D 487823 16;
   D 540014 16; D 585275 16; D 624017 16; D 656963 16; D 684925 16; D 708677 16; D 728882 16; D 746079 16; D 760725 16; D 773239 16; D 784 19;
   D 793331 16; D 801504 16; D 808735 16; D 815175 16; D 820926 16; D 826055 16; D 830619 16; D 834671 16; D 838256 16; D 841398 16; D 844112 16;
   D 846391 16; D 84823 17; D 849631 16; D 850608 16; D 851175 16; D 851335 16; D 851075 16; D 850374 16; D 849193 16; D 847495 16; D 845244 16;
   D 842405 16; D 838939 16; D 834794 16; D 829908 16; D 824207 16; D 817613 16; D 810051 16; D 801448 16; D 791738 16; D 780858 16; D 768746 16;
   D 755351 16; D 740634 16; D 724571 16; D 707163 16; D 688436 16; D 668441 16; D 647253 16; D 624971 16; D 601717 16; D 577635 16; D 552882 16;
   D 527631 16; D 502061 16; D 476352 16; D 469075 16; D 443734 16; D 418663 16; D 394004 16; D 369881 16; D 346398 16; D 323644 16; D 301686 16;
   D 280577 16; D 260353 16; D 241035 16; D 222633 16; D 205145 16; D 188562 16; D 172865 16; D 158035 16; D 144044 16; D 130866 16; D 118471 16;
   D 106832 16; D 959219 15; D 857172 15; D 761982 15; D 673502 15; D 591655 15; D 516444 15; D 447969 15; D 386452 15; D 332261 15; D 285937 15;
   D 248229 15];
  [D 669541 13; D 753844 14; D 293435 15; D 711778 15; D 132489 16; D 208928 16; D 294498 16; D 383262 16; D 470285 16; D 551943 16; D 625913 16;
   D 69105 17; D 747245 16; D 795145 16; D 835742 16; D 870119 16; D 899256 16; D 923984 16; D 944978 16; D 962827 16; D 978066 16; D 991174 16;
   D 100255 17; D 101254 17; D 102138 17; D 102925 17; D 103627 17; D 104251 17; D 104805 17; D 105295 17; D 105727 17; D 106102 17; D 106421 17;
   D 106683 17; D 106889 17; D 107038 17; D 107133 17; D 107176 17; D 107165 17; D 107098 17; D 10697 18; D 106778 17; D 106515 17; D 106178 17;
   D 105761 17; D 105258 17; D 104662 17; D 103962 17; D 10315 18; D 102214 17; D 101145 17; D 999346 16; D 985739 16; D 97055 17; D 953708 16;
   D 935158 16; D 914866 16; D 892831 16; D 869082 16; D 843683 16; D 816732 16; D 788358 16; D 75872 17; D 728006 16; D 696425 16; D 664206 16;
   D 631583 16; D 621748 16; D 589302 16; D 557029 16; D 525134 16; D 493799 16; D 463186 16; D 433431 16; D 404645 16; D 376915 16; D 350309 16;
   D 324867 16; D 300616 16; D 277562 16; D 255702 16; D 235019 16; D 215487 16; D 197073 16; D 17974 17; D 163448 16; D 148155 16; D 133819 16;
   D 120399 16; D 107859 16; D 961632 15; D 852832 15; D 751968 15; D 658895 15; D 573567 15; D 496054 15; D 426567 15; D 365484 15; D 313386 15;
   D 271095 15];
  [D 888519 13; D 9998 16; D 387782 15; D 936409 15; D 173533 16; D 2725 18; D 382583 16; D 496059 16; D 606611 16; D 709697 16; D 802493 16;
   D 883718 16; D 953444 16; D 101264 17; D 106265 17; D 110491 17; D 114064 17; D 11709 18; D 119653 17; D 121828 17; D 123685 17; D 125283 17;
   D 126672 17; D 127893 17; D 128974 17; D 129937 17; D 130793 17; D 131552 17; D 132224 17; D 132816 17; D 133334 17; D 133779 17; D 134151 17;
   D 134449 17; D 134674 17; D 134827 17; D 134912 17; D 134928 17; D 134872 17; D 134741 17; D 134529 17; D 134227 17; D 13383 18; D 133333 17;
   D 132727 17; D 132004 17; D 13115 18; D 130154 17; D 129001 17; D 127679 17; D 126176 17; D 124481 17; D 122583 17; D 120472 17; D 118141 17;
   D 115585 17; D 112802 17; D 109797 17; D 106577 17; D 103155 17; D 995464 16; D 957731 16; D 918592 16; D 878324 16; D 837226 16; D 795607 16;
   D 782735 16; D 741366 16; D 700242 16; D 65963 17; D 61977 17; D 580871 16; D 543111 16; D 506635 16; D 471554 16; D 437948 16; D 405873 16;
   D 375356 16; D 346405 16; D 319009 16; D 293142 16; D 268768 16; D 245839 16; D 224305 16; D 204107 16; D 185187 16; D 167487 16; D 150946 16;
   D 13551 17; D 121128 16; D 107751 16; D 953414 15; D 838657 15; D 733019 15; D 636392 15; D 548803 15; D 470446 15; D 401705 15; D 343202 15;
   D 295836 15];
  [D 117823 14; D 132485 15; D 511993 15; D 12308 17; D 227084 16; D 355098 16; D 496584 16; D 641516 16; D 781836 16; D 911845 16; D 102815 17;
   D 112936 17; D 121582 17; D 128895 17; D 135055 17; D 140248 17; D 144629 17; D 148331 17; D 151459 17; D 154112 17; D 156375 17; D 158325 17;
   D 160022 17; D 161516 17; D 16284 18; D 164016 17; D 165059 17; D 165982 17; D 166796 17; D 16751 18; D 168129 17; D 168655 17; D 169084 17;
   D 169418 17; D 169657 17; D 169807 17; D 169867 17; D 169837 17; D 169711 17; D 169483 17; D 169144 17; D 168684 17; D 168097 17; D 167373 17;
   D 1665 19; D 165465 17; D 16425 18; D 162837 17; D 161209 17; D 159351 17; D 157248 17; D 154884 17; D 152247 17; D 149327 17; D 146116 17;
   D 142612 17; D 138818 17; D 134745 17; D 130406 17; D 125824 17; D 121026 17; D 116044 17; D 110913 17; D 105672 17; D 100363 17; D 986765 16;
   D 934004 16; D 881572 16; D 829819 16; D 779062 16; D 729576 16; D 681592 16; D 635296 16; D 590833 16; D 548306 16; D 507782 16; D 469294 16;
   D 432847 16; D 398425 16; D 365989 16; D 335488 16; D 306857 16; D 280024 16; D 254911 16; D 231437 16; D 209521 16; D 189082 16; D 170041 16;
   D 152324 16; D 135863 16; D 120595 16; D 106467 16; D 934343 15; D 814658 15; D 705424 15; D 606615 15; D 518397 15; D 441159 15; D 37556 16;
   D 322583 15];
  [D 156117 14; D 175401 15; D 675375 15; D 161628 16; D 296899 16; D 462332 16; D 644014 16; D 828955 16; D 100689 17; D 117072 17; D 131637 17;
   D 144238 17; D 154953 17; D 163983 17; D 17157 18; D 177949 17; D 183322 17; D 18785 18; D 191668 17; D 194903 17; D 197664 17; D 200044 17;
   D 202121 17; D 20395 18; D 205571 17; D 207008 17; D 208278 17; D 209399 17; D 210384 17; D 211243 17; D 21198 18; D 212595 17; D 213085 17;
   D 213451 17; D 213698 17; D 213829 17; D 213844 17; D 21374 18; D 213507 17; D 213134 17; D 21261 18; D 211924 17; D 211066 17; D 210022 17;
   D 208774 17; D 2073 19; D 205577 17; D 203583 17; D 201296 17; D 198696 17; D 195765 17; D 192483 17; D 188837 17; D 184816 17; D 180415 17;
   D 175638 17; D 170495 17; D 165006 17; D 159198 17; D 153105 17; D 146768 17; D 140234 17; D 133556 17; D 126785 17; D 124573 17; D 117842 17;
   D 111154 17; D 104554 17; D 980852 16; D 917824 16; D 856764 16; D 797916 16; D 741466 16; D 687547 16; D 636242 16; D 587593 16; D 541603 16;
   D 498245 16; D 457465 16; D 419192 16; D 383338 16; D 349805 16; D 318488 16; D 289277 16; D 262063 16; D 236734 16; D 213184 16; D 19131 17;
   D 171015 16; D 152211 16; D 134816 16; D 11876 17; D 103986 16; D 90449 16; D 781207 15; D 669919 15; D 570752 15; D 484095 15; D 410645 15;
   D 351471 15];
  [D 20669 15; D 232047 15; D 890153 15; D 212068 16; D 387848 16; D 601445 16; D 834537 16; D 107033 17; D 129576 17; D 150203 17; D 168427 17;
   D 184106 17; D 197378 17; D 208525 17; D 217867 17; D 225705 17; D 232291 17; D 237827 17; D 242489 17; D 246436 17; D 249806 17; D 252715 17;
   D 255257 17; D 257498 17; D 259482 17; D 261236 17; D 262782 17; D 264142 17; D 265333 17; D 266363 17; D 267236 17; D 267948 17; D 268499 17;
   D 268892 17; D 269133 17; D 269224 17; D 269164 17; D 268943 17; D 268547 17; D 267962 17; D 267173 17; D 266167 17; D 264927 17; D 263431 17;
   D 261654 17; D 259566 17; D 257135 17; D 254334 17; D 251134 17; D 247512 17; D 243443 17; D 238906 17; D 233886 17; D 228376 17; D 222375 17;
   D 215899 17; D 208968 17; D 201618 17; D 193892 17; D 185842 17; D 177531 17; D 169023 17; D 160391 17; D 151706 17; D 148902 17; D 140367 17;
   D 131946 17; D 123693 17; D 115657 17; D 107877 17; D 100385 17; D 932067 16; D 86358 17; D 7985 18; D 736877 16; D 678712 16; D 623965 16;
   D 572563 16; D 52441 17; D 479385 16; D 437359 16; D 398189 16; D 361729 16; D 327832 16; D 29635 17; D 267138 16; D 240059 16; D 214979 16;
   D 191774 16; D 170332 16; D 150548 16; D 132333 16; D 115612 16; D 100325 16; D 864327 15; D 739174 15; D 627866 15; D 530781 15; D 448654 15;
   D 382646 15];
  [D 273417 14; D 306763 15; D 117225 16; D 278015 16; D 506235 16; D 781782 16; D 108058 17; D 138093 17; D 166632 17; D 192579 17; D 215362 17;
   D 234858 17; D 251291 17; D 265046 17; D 276548 17; D 286178 17; D 294249 17; D 301019 17; D 306711 17; D 311528 17; D 315645 17; D 319205 17;
   D 322319 17; D 325065 17; D 327492 17; D 329631 17; D 331513 17; D 333163 17; D 334598 17; D 335829 17; D 336854 17; D 337671 17; D 338279 17;
   D 338687 17; D 3389 19; D 338919 17; D 338737 17; D 338337 17; D 337701 17; D 336809 17; D 335643 17; D 334184 17; D 332406 17; D 330277 17;
   D 327759 17; D 324812 17; D 321397 17; D 317479 17; D 313022 17; D 307996 17; D 302372 17; D 296127 17; D 289247 17; D 281733 17; D 273596 17;
   D 264865 17; D 255582 17; D 2458 19; D 235588 17; D 225024 17; D 214196 17; D 203195 17; D 192116 17; D 188432 17; D 177536 17; D 166784 17;
   D 156247 17; D 145991 17; D 136066 17; D 126516 17; D 117372 17; D 108658 17; D 100387 17; D 925649 16; D 851924 16; D 782635 16; D 717685 16;
   D 656942 16; D 600248 16; D 547427 16; D 49829 17; D 452647 16; D 410296 16; D 371045 16; D 334701 16; D 301078 16; D 269998 16; D 241294 16;
   D 214809 16; D 190399 16; D 167936 16; D 147304 16; D 128408 16; D 111172 16; D 955413 15; D 814874 15; D 690117 15; D 581501 15; D 489796 15;
   D 416257 15];
  [D 361459 14; D 405229 15; D 154245 16; D 364168 16; D 660228 16; D 101539 17; D 139809 17; D 178038 17; D 214135 17; D 246748 17; D 27521 18;
   D 299438 17; D 319777 17; D 336748 17; D 350907 17; D 362734 17; D 372624 17; D 380902 17; D 387854 17; D 393737 17; D 39877 18; D 403129 17;
   D 406947 17; D 410312 17; D 413279 17; D 415888 17; D 418176 17; D 420174 17; D 421901 17; D 423364 17; D 424558 17; D 425481 17; D 426139 17;
   D 426542 17; D 426694 17; D 426591 17; D 426218 17; D 425552 17; D 424564 17; D 423233 17; D 421534 17; D 419437 17; D 416904 17; D 413888 17;
   D 410335 17; D 406195 17; D 401418 17; D 39596 18; D 389778 17; D 382832 17; D 37509 18; D 36653 18; D 357147 17; D 346953 17; D 33598 18;
   D 324279 17; D 311917 17; D 29898 18; D 285569 17; D 271797 17; D 257784 17; D 243654 17; D 238814 17; D 224902 17; D 211166 17; D 197705 17;
   D 184602 17; D 171927 17; D 159736 17; D 148072 17; D 136965 17; D 126434 17; D 116486 17; D 107121 17; D 983319 16; D 901052 16; D 824235 16;
   D 752656 16; D 686084 16; D 624269 16; D 566957 16; D 513885 16; D 464797 16; D 419437 16; D 37756 17; D 338929 16; D 303321 16; D 270525 16;
   D 240346 16; D 212603 16; D 187136 16; D 163803 16; D 142482 16; D 123076 16; D 105514 16; D 897548 15; D 75791 16; D 636558 15; D 53429 16;
   D 452467 15];
  [D 477611 14; D 534879 15; D 202793 16; D 476645 16; D 860393 16; D 131781 17; D 180757 17; D 229376 17; D 274996 17; D 315956 17; D 351485 17;
   D 381578 17; D 406742 17; D 427677 17; D 445103 17; D 459627 17; D 471746 17; D 481866 17; D 49036 18; D 49755 18; D 503708 17; D 50905 18;
   D 513732 17; D 517855 17; D 52148 18; D 52466 18; D 527441 17; D 529856 17; D 531927 17; D 533654 17; D 535031 17; D 53606 18; D 536751 17;
   D 537115 17; D 537155 17; D 536856 17; D 536194 17; D 535133 17; D 533642 17; D 531688 17; D 529239 17; D 526247 17; D 522657 17; D 5184 19;
   D 513408 17; D 507616 17; D 500963 17; D 493391 17; D 484847 17; D 475285 17; D 464672 17; D 452994 17; D 440259 17; D 426504 17; D 411788 17;
   D 396195 17; D 379833 17; D 36283 18; D 345331 17; D 327493 17; D 309477 17; D 30312 18; D 285353 17; D 267801 17; D 250592 17; D 233838 17;
   D 217632 17; D 202051 17; D 187151 17; D 172972 17; D 159539 17; D 146862 17; D 134942 17; D 123769 17; D 113325 17; D 103586 17; D 945262 16;
   D 861134 16; D 783152 16; D 71098 17; D 644273 16; D 582693 16; D 525903 16; D 473581 16; D 425414 16; D 381106 16; D 340378 16; D 302967 16;
   D 268631 16; D 237149 16; D 20832 17; D 18197 17; D 157947 16; D 136129 16; D 116424 16; D 987766 15; D 83168 16; D 696274 15; D 582374 15;
   D 491444 15];
  [D 630738 14; D 705478 15; D 266421 16; D 623379 16; D 112039 17; D 170902 17; D 233532 17; D 295317 17; D 352927 17; D 404329 17; D 448651 17;
   D 48601 18; D 517133 17; D 542955 17; D 564398 17; D 582234 17; D 597078 17; D 609454 17; D 619834 17; D 628626 17; D 636167 17; D 64272 18;
   D 648464 17; D 653514 17; D 657942 17; D 661815 17; D 66519 18; D 668104 17; D 670576 17; D 6726 19; D 67417 18; D 675294 17; D 675989 17;
   D 676264 17; D 676113 17; D 675511 17; D 674416 17; D 672784 17; D 670574 17; D 667743 17; D 664241 17; D 659997 17; D 654929 17; D 648947 17;
   D 641962 17; D 633893 17; D 624661 17; D 614196 17; D 602434 17; D 589323 17; D 574837 17; D 558979 17; D 541784 17; D 523322 17; D 503695 17;
   D 483037 17; D 461511 17; D 439302 17; D 416612 17; D 393655 17; D 38531 18; D 362621 17; D 340184 17; D 318171 17; D 296732 17; D 275993 17;
   D 256054 17; D 236993 17; D 218865 17; D 201701 17; D 185518 17; D 170316 17; D 156081 17; D 142792 17; D 130417 17; D 118921 17; D 108262 17;
   D 983974 16; D 892831 16; D 808741 16; D 731256 16; D 659937 16; D 594358 16; D 534109 16; D 478801 16; D 428064 16; D 381552 16; D 338942 16;
   D 299935 16; D 26426 17; D 231673 16; D 201956 16; D 174926 16; D 150429 16; D 12835 17; D 108614 16; D 91189 16; D 760995 15; D 634297 15;
   D 533368 15];
  [D 832465 14; D 929877 15; D 349744 16; D 814662 16; D 145787 17; D 22148 18; D 301507 17; D 379965 17; D 452661 17; D 517118 17; D 572375 17;
   D 618732 17; D 657213 17; D 689058 17; D 715444 17; D 737341 17; D 755522 17; D 770658 17; D 78335 18; D 794109 17; D 803352 17; D 811393 17;
   D 81844 18; D 824622 17; D 830028 17; D 834742 17; D 838833 17; D 842341 17; D 845275 17; D 847627 17; D 849393 17; D 85059 18; D 851241 17;
   D 851347 17; D 850891 17; D 849828 17; D 848098 17; D 845647 17; D 842421 17; D 838361 17; D 833384 17; D 827392 17; D 820268 17; D 811894 17;
   D 802159 17; D 79096 18; D 7782 19; D 76379 18; D 747657 17; D 729755 17; D 710071 17; D 688641 17; D 665541 17; D 640895 17; D 614866 17;
   D 587658 17; D 559507 17; D 530675 17; D 501438 17; D 490494 17; D 461522 17; D 432836 17; D 404666 17; D 377213 17; D 350647 17; D 325105 17;
   D 30069 18; D 277477 17; D 255511 17; D 234815 17; D 215389 17; D 197218 17; D 180271 17; D 16451 18; D 149887 17; D 136348 17; D 123837 17;
   D 112296 17; D 101666 17; D 918872 16; D 829033 16; D 746581 16; D 670981 16; D 601719 16; D 538311 16; D 480302 16; D 427263 16; D 378801 16;
   D 334551 16; D 294182 16; D 257395 16; D 223927 16; D 193553 16; D 166084 16; D 141376 16; D 119331 16; D 999036 15; D 831088 15; D 690323 15;
   D 578429 15];
  [D 109802 15; D 122482 16; D 458777 16; D 106387 17; D 189565 17; D 286826 17; D 38901 18; D 488566 17; D 580228 17; D 661001 17; D 729848 17;
   D 787345 17; D 834908 17; D 874178 17; D 906643 17; D 933521 17; D 955788 17; D 974304 17; D 989831 17; D 100301 18; D 101434 18; D 102422 18;
   D 103286 18; D 104042 18; D 104702 18; D 105276 18; D 105771 18; D 106191 18; D 106538 18; D 106808 18; D 107003 18; D 107126 18; D 107179 18;
   D 107161 18; D 107068 18; D 106893 18; D 106628 18; D 106267 18; D 105802 18; D 105223 18; D 10452 19; D 103677 18; D 10268 19; D 101512 18;
   D 100161 18; D 986122 17; D 968548 17; D 948778 17; D 926738 17; D 902394 17; D 875772 17; D 846954 17; D 816083 17; D 783359 17; D 749032 17;
   D 713404 17; D 676809 17; D 639606 17; D 625269 17; D 588283 17; D 551607 17; D 515546 17; D 480373 17; D 446315 17; D 41356 18; D 382248 17;
   D 352483 17; D 324328 17; D 297814 17; D 272945 17; D 249702 17; D 228048 17; D 207929 17; D 189285 17; D 172046 17; D 156139 17; D 141485 17;
   D 128009 17; D 115634 17; D 104283 17; D 938853 16; D 843691 16; D 756677 16; D 677178 16; D 604593 16; D 538365 16; D 477971 16; D 42293 17;
   D 372799 16; D 327177 16; D 285704 16; D 24806 17; D 213971 16; D 183209 16; D 155593 16; D 131 19; D 109365 16; D 906943 15; D 750735 15;
   D 626828 15];
  [D 144734 15; D 161217 16; D 60138 17; D 138833 17; D 246317 17; D 3712 19; D 501584 17; D 627819 17; D 743315 17; D 844459 17; D 930189 17;
   D 100148 18; D 106026 18; D 110868 18; D 114861 18; D 11816 19; D 120887 18; D 123153 18; D 125053 18; D 126668 18; D 12806 19; D 129272 18;
   D 130332 18; D 131257 18; D 132062 18; D 132759 18; D 133357 18; D 133859 18; D 134265 18; D 134572 18; D 134783 18; D 134903 18; D 134932 18;
   D 134868 18; D 134703 18; D 134427 18; D 134031 18; D 133506 18; D 132841 18; D 132022 18; D 131032 18; D 129852 18; D 12846 19; D 126838 18;
   D 124968 18; D 122835 18; D 120423 18; D 117721 18; D 114721 18; D 111426 18; D 107842 18; D 103986 18; D 998819 17; D 955603 17; D 910588 17;
   D 864203 17; D 81691 18; D 769189 17; D 750961 17; D 704072 17; D 657902 17; D 612815 17; D 569123 17; D 527078 17; D 486876 17; D 44866 18;
   D 412517 17; D 378494 17; D 346601 17; D 316814 17; D 289086 17; D 26335 18; D 239526 17; D 217524 17; D 197247 17; D 178594 17; D 161465 17;
   D 14576 18; D 131378 17; D 118226 17; D 106211 17; D 952445 16; D 852448 16; D 761331 16; D 678361 16; D 602854 16; D 534177 16; D 471746 16;
   D 415027 16; D 363536 16; D 316837 16; D 274548 16; D 236337 16; D 201927 16; D 171098 16; D 143694 16; D 11963 17; D 98898 16; D 815832 15;
   D 678777 15];
  [D 190651 15; D 212049 16; D 787761 16; D 181046 17; D 319842 17; D 48008 18; D 646324 17; D 806275 17; D 951705 17; D 107827 18; D 118497 18;
   D 127333 18; D 134596 18; D 140565 18; D 145477 18; D 149525 18; D 152866 18; D 155639 18; D 157966 18; D 159947 18; D 161656 18; D 163145 18;
   D 164445 18; D 165575 18; D 166556 18; D 167402 18; D 168123 18; D 168719 18; D 16919 19; D 169534 18; D 169757 18; D 169862 18; D 16985 19;
   D 169713 18; D 16944 19; D 169019 18; D 168437 18; D 167682 18; D 166738 18; D 165585 18; D 164198 18; D 162549 18; D 160615 18; D 15837 19;
   D 155793 18; D 152864 18; D 149565 18; D 145885 18; D 141821 18; D 13738 19; D 132578 18; D 127445 18; D 122016 18; D 11634 19; D 11047 19;
   D 104465 18; D 983889 17; D 95998 18; D 900051 17; D 840934 17; D 783122 17; D 727035 17; D 673022 17; D 621352 17; D 572222 17; D 525759 17;
   D 482032 17; D 441059 17; D 402815 17; D 36724 18; D 33425 18; D 303741 17; D 275595 17; D 249686 17; D 225883 17; D 204055 17; D 184069 17;
   D 165796 17; D 149112 17; D 133895 17; D 120033 17; D 107415 17; D 959396 16; D 85511 17; D 760397 16; D 674427 16; D 596432 16; D 525709 16;
   D 461615 16; D 40357 17; D 351051 16; D 3036 18; D 260818 16; D 222372 16; D 187995 16; D 157496 16; D 130759 16; D 107764 16; D 885931 15;
   D 734499 15];
  [D 250968 15; D 278732 16; D 103119 17; D 235936 17; D 415041 17; D 620499 17; D 832323 17; D 103486 18; D 121785 18; D 137612 18; D 150886 18;
   D 161835 18; D 170807 18; D 178164 18; D 184207 18; D 189173 18; D 193265 18; D 196661 18; D 199513 18; D 201945 18; D 204045 18; D 205874 18;
   D 207466 18; D 208847 18; D 210042 18; D 211068 18; D 211933 18; D 212637 18; D 213177 18; D 213557 18; D 213782 18; D 213856 18; D 213775 18;
   D 213528 18; D 213099 18; D 21247 19; D 211626 18; D 21055 19; D 209218 18; D 2076 20; D 205662 18; D 203369 18; D 20069 19; D 197594 18;
   D 194054 18; D 190046 18; D 18555 19; D 180558 18; D 175074 18; D 169115 18; D 162714 18; D 155913 18; D 148772 18; D 141356 18; D 133744 18;
   D 126014 18; D 122883 18; D 115227 18; D 107659 18; D 100244 18; D 930415 17; D 860976 17; D 794503 17; D 73127 18; D 671461 17; D 615178 17;
   D 562454 17; D 513263 17; D 467534 17; D 425159 17; D 386005 17; D 349919 17; D 316736 17; D 286288 17; D 2584 19; D 232901 17; D 209621 17;
   D 188396 17; D 16907 18; D 151493 17; D 135522 17; D 121024 17; D 107874 17; D 95954 17; D 851563 16; D 753803 16; D 665336 16; D 585317 16;
   D 512976 16; D 447618 16; D 388623 16; D 33544 17; D 287595 16; D 244688 16; D 206399 16; D 17249 17; D 142818 16; D 117341 16; D 961371 15;
   D 794234 15];
  [D 330211 15; D 366159 16; D 134892 17; D 307266 17; D 538228 17; D 801492 17; D 107121 18; D 132749 18; D 155759 18; D 175541 18; D 192047 18;
   D 205609 18; D 216693 18; D 22576 19; D 23319 19; D 239283 18; D 244297 18; D 248457 18; D 251955 18; D 254941 18; D 257523 18; D 259768 18;
   D 261718 18; D 263405 18; D 26486 19; D 2661 20; D 267134 18; D 26796 19; D 268574 18; D 268983 18; D 269195 18; D 269211 18; D 269023 18;
   D 268612 18; D 267956 18; D 267033 18; D 265823 18; D 2643 20; D 262429 18; D 260167 18; D 257469 18; D 254291 18; D 250593 18; D 246338 18;
   D 241491 18; D 236024 18; D 229919 18; D 223175 18; D 215807 18; D 20785 19; D 199355 18; D 190392 18; D 181045 18; D 17141 19; D 161592 18;
   D 151697 18; D 147725 18; D 138038 18; D 128529 18; D 119276 18; D 110344 18; D 101785 18; D 936378 17; D 859292 17; D 786744 17; D 718791 17;
   D 655411 17; D 596521 17; D 541984 17; D 491631 17; D 445265 17; D 402671 17; D 36363 18; D 327913 17; D 295297 17; D 265558 17; D 238485 17;
   D 21387 18; D 191517 17; D 171241 17; D 152868 17; D 136232 17; D 121182 17; D 107575 17; D 952802 16; D 841771 16; D 741546 16; D 651114 16;
   D 569559 16; D 496052 16; D 429853 16; D 370312 16; D 316863 16; D 26903 17; D 226429 16; D 188771 16; D 155875 16; D 127678 16; D 104251 16;
   D 85823 16];
  [D 434285 15; D 480707 16; D 176344 17; D 399903 17; D 697541 17; D 103465 18; D 137787 18; D 170195 18; D 199111 18; D 223819 18; D 244336 18;
   D 261131 18; D 27482 19; D 285995 18; D 29513 19; D 302606 18; D 308749 18; D 313848 18; D 31814 19; D 32181 19; D 324985 18; D 327742 18;
   D 330129 18; D 332188 18; D 333957 18; D 335454 18; D 336684 18; D 337643 18; D 338331 18; D 338759 18; D 338934 18; D 338854 18; D 338501 18;
   D 33785 19; D 336869 18; D 335534 18; D 333814 18; D 33167 19; D 329051 18; D 325899 18; D 322156 18; D 317766 18; D 31268 19; D 306849 18;
   D 300234 18; D 292803 18; D 284545 18; D 275471 18; D 265616 18; D 255039 18; D 243822 18; D 232068 18; D 219897 18; D 207444 18; D 194848 18;
   D 18964 19; D 177249 18; D 165055 18; D 153166 18; D 141671 18; D 130643 18; D 120136 18; D 110189 18; D 100826 18; D 920542 17; D 838747 17;
   D 762771 17; D 692449 17; D 627564 17; D 567862 17; D 513068 17; D 462894 17; D 41704 18; D 375216 17; D 337131 17; D 302505 17; D 271067 17;
   D 242562 17; D 216745 17; D 193389 17; D 172278 17; D 153214 17; D 136011 17; D 120497 17; D 106515 17; D 939196 16; D 825779 16; D 723695 16;
   D 631853 16; D 549269 16; D 475069 16; D 40848 17; D 348834 16; D 295565 16; D 248215 16; D 206436 16; D 170005 16; D 138829 16; D 112973 16;
   D 926752 15];
  [D 570889 15; D 630683 16; D 230388 17; D 520142 17; D 90346 18; D 133486 18; D 177133 18; D 218088 18; D 254402 18; D 285249 18; D 310741 18;
   D 331533 18; D 34844 19; D 362209 18; D 373441 18; D 382612 18; D 390142 18; D 396395 18; D 401665 18; D 406179 18; D 410082 18; D 413465 18;
   D 416386 18; D 418899 18; D 421046 18; D 422847 18; D 424302 18; D 425406 18; D 426164 18; D 426591 18; D 426693 18; D 426459 18; D 425861 18;
   D 42486 19; D 423421 18; D 421509 18; D 41908 19; D 416075 18; D 412423 18; D 408046 18; D 402871 18; D 396827 18; D 389852 18; D 381888 18;
   D 372887 18; D 362823 18; D 351696 18; D 339538 18; D 326414 18; D 31242 19; D 297679 18; D 282342 18; D 266578 18; D 250566 18; D 243751 18;
   D 227912 18; D 212282 18; D 197006 18; D 182208 18; D 167991 18; D 15443 19; D 141582 18; D 129481 18; D 118143 18; D 10757 19; D 977512 17;
   D 886668 17; D 802893 17; D 725863 17; D 655221 17; D 590592 17; D 531591 17; D 477831 17; D 428934 17; D 384533 17; D 344274 17; D 307822 17;
   D 274856 17; D 245079 17; D 218209 17; D 193985 17; D 172165 17; D 152525 17; D 134858 17; D 118975 17; D 104702 17; D 918819 16; D 803706 16;
   D 700389 16; D 607706 16; D 524623 16; D 450228 16; D 383734 16; D 324472 16; D 271896 16; D 225593 16; D 185286 16; D 150853 16; D 122342 16;
   D 100008 16];
  [D 750084 15; D 826922 16; D 300804 17; D 676126 17; D 116947 18; D 172119 18; D 22759 19; D 279317 18; D 324893 18; D 363384 18; D 395044 18;
   D 42078 19; D 441659 18; D 458625 18; D 472431 18; D 483683 18; D 492916 18; D 500588 18; D 507065 18; D 512617 18; D 517417 18; D 521565 18;
   D 525138 18; D 528203 18; D 530805 18; D 532963 18; D 534673 18; D 535929 18; D 536746 18; D 537141 18; D 537114 18; D 536642 18; D 535682 18;
   D 534184 18; D 532101 18; D 529386 18; D 525973 18; D 521777 18; D 516701 18; D 510643 18; D 50351 19; D 495216 18; D 485681 18; D 474835 18;
   D 462629 18; D 449048 18; D 434114 18; D 417894 18; D 400495 18; D 382065 18; D 362788 18; D 342875 18; D 322558 18; D 313662 18; D 293436 18;
   D 273413 18; D 25379 19; D 23474 19; D 216403 18; D 198888 18; D 182277 18; D 16662 19; D 151945 18; D 138257 18; D 125548 18; D 113791 18;
   D 102954 18; D 929957 17; D 838694 17; D 755264 17; D 67917 18; D 609905 17; D 546974 17; D 489896 17; D 438207 17; D 391466 17; D 349255 17;
   D 311183 17; D 276881 17; D 246007 17; D 218244 17; D 1933 19; D 170903 17; D 150807 17; D 132784 17; D 116629 17; D 102152 17; D 891851 16;
   D 775745 16; D 671833 16; D 578896 16; D 495864 16; D 421809 16; D 355943 16; D 297623 16; D 246356 16; D 201805 16; D 163809 16; D 132403 16;
   D 107851 16];
  [D 985006 15; D 108362 17; D 392506 17; D 878367 17; D 151293 18; D 221809 18; D 292266 18; D 357557 18; D 414726 18; D 46273 19; D 50204 19;
   D 533891 18; D 559671 18; D 580573 18; D 597541 18; D 611347 18; D 622673 18; D 632091 18; D 640055 18; D 646888 18; D 652789 18; D 657875 18;
   D 662243 18; D 665976 18; D 669123 18; D 671699 18; D 673692 18; D 675104 18; D 675958 18; D 676271 18; D 676032 18; D 675202 18; D 673716 18;
   D 671512 18; D 668531 18; D 664702 18; D 659928 18; D 65409 19; D 647055 18; D 638696 18; D 628897 18; D 617548 18; D 604551 18; D 589827 18;
   D 573332 18; D 555073 18; D 53511 19; D 513562 18; D 490599 18; D 46644 19; D 441351 18; D 415624 18; D 38957 19; D 378251 18; D 352622 18;
   D 327428 18; D 302904 18; D 279248 18; D 256616 18; D 235121 18; D 214843 18; D 195825 18; D 178081 18; D 161602 18; D 146362 18; D 132318 18;
   D 119418 18; D 107604 18; D 968111 17; D 869754 17; D 780306 17; D 699121 17; D 625565 17; D 559032 17; D 498942 17; D 444748 17; D 395934 17;
   D 352018 17; D 312552 17; D 277121 17; D 245339 17; D 216855 17; D 191344 17; D 168508 17; D 14808 18; D 129812 17; D 113482 17; D 988898 16;
   D 858549 16; D 742161 16; D 638303 16; D 545719 16; D 463321 16; D 390186 16; D 325556 16; D 268845 16; D 21965 17; D 177763 16; D 1432 18;
   D 116235 16];
  [D 12928 17; D 141924 17; D 511872 17; D 114044 18; D 195617 18; D 285692 18; D 375131 18; D 457492 18; D 529163 18; D 589002 18; D 637797 18;
   D 677211 18; D 709038 18; D 734787 18; D 75564 19; D 772582 18; D 786479 18; D 798048 18; D 807847 18; D 816258 18; D 82351 19; D 829743 18;
   D 835082 18; D 839624 18; D 84342 19; D 846477 18; D 84878 19; D 850341 18; D 851194 18; D 851349 18; D 850778 18; D 849416 18; D 847177 18;
   D 843983 18; D 839752 18; D 83438 19; D 827728 18; D 819628 18; D 80991 19; D 798414 18; D 784992 18; D 769508 18; D 751843 18; D 731917 18;
   D 709703 18; D 685249 18; D 658674 18; D 630169 18; D 599996 18; D 568476 18; D 535978 18; D 5029 20; D 488112 18; D 455345 18; D 423021 18;
   D 391462 18; D 360944 18; D 331686 18; D 303856 18; D 277569 18; D 252895 18; D 229861 18; D 208465 18; D 188676 18; D 170444 18; D 153703 18;
   D 138378 18; D 124387 18; D 111646 18; D 100069 18; D 895708 17; D 80069 18; D 714837 17; D 637388 17; D 567624 17; D 504869 17; D 448488 17;
   D 397894 17; D 35254 18; D 311924 17; D 275583 17; D 243092 17; D 214063 17; D 188143 17; D 165011 17; D 144375 17; D 125973 17; D 109568 17;
   D 949482 16; D 819244 16; D 70329 17; D 600151 16; D 508556 16; D 427423 16; D 355866 16; D 293192 16; D 238918 16; D 192783 16; D 154781 16;
   D 125194 16];
  [D 169583 16; D 185774 17; D 667158 17; D 147987 18; D 252787 18; D 36778 19; D 481251 18; D 585087 18; D 674884 18; D 749448 18; D 81 22;
   D 858767 18; D 898055 18; D 92977 19; D 955395 18; D 97619 19; D 993251 18; D 100747 19; D 101953 19; D 102989 19; D 10388 20; D 104643 19;
   D 105295 19; D 105847 19; D 106304 19; D 106664 19; D 106928 19; D 107097 19; D 107176 19; D 107164 19; D 107056 19; D 106842 19; D 106511 19;
   D 106054 19; D 105458 19; D 104707 19; D 103783 19; D 102663 19; D 101325 19; D 997481 18; D 979149 18; D 958082 18; D 934145 18; D 907267 18;
   D 87746 19; D 844835 18; D 8096 20; D 772055 18; D 732586 18; D 691649 18; D 649753 18; D 607426 18; D 588662 18; D 547231 18; D 506643 18;
   D 467278 18; D 429451 18; D 3934 20; D 359298 18; D 327253 18; D 297317 18; D 269498 18; D 243762 18; D 220052 18; D 198286 18; D 178369 18;
   D 160195 18; D 143656 18; D 128639 18; D 115033 18; D 10273 19; D 91625 18; D 816178 17; D 72614 18; D 645247 17; D 572665 17; D 507622 17;
   D 449401 17; D 39734 18; D 350832 17; D 309322 17; D 272299 17; D 239302 17; D 20991 18; D 183742 17; D 160455 17; D 139737 17; D 121311 17;
   D 104929 17; D 903681 16; D 77434 17; D 659547 16; D 557819 16; D 467895 16; D 388738 16; D 319535 16; D 259711 16; D 208944 16; D 167198 16;
   D 134761 16];
  [D 222328 16; D 243035 17; D 869054 17; D 191928 18; D 32649 19; D 473212 18; D 617095 18; D 747931 18; D 860374 18; D 953251 18; D 102837 19;
   D 108871 19; D 11372 20; D 117626 19; D 120775 19; D 123328 19; D 125423 19; D 127172 19; D 128657 19; D 129932 19; D 131026 19; D 131961 19;
   D 132757 19; D 133427 19; D 133973 19; D 134396 19; D 134694 19; D 134872 19; D 134934 19; D 134878 19; D 134694 19; D 134369 19; D 133888 19;
   D 133238 19; D 132402 19; D 131358 19; D 130079 19; D 128534 19; D 126696 19; D 12454 20; D 122043 19; D 119185 19; D 115951 19; D 112338 19;
   D 108353 19; D 104017 19; D 99365 19; D 944408 18; D 893007 18; D 840084 18; D 786321 18; D 761784 18; D 708751 18; D 656594 18; D 605843 18;
   D 556938 18; D 510225 18; D 465959 18; D 424306 18; D 385357 18; D 349138 18; D 31562 19; D 284737 18; D 256388 18; D 230454 18; D 206801 18;
   D 185287 18; D 165766 18; D 148093 18; D 132126 18; D 117727 18; D 104765 18; D 931151 17; D 826607 17; D 73292 18; D 649072 17; D 574121 17;
   D 507197 17; D 447502 17; D 394304 17; D 346937 17; D 304794 17; D 267324 17; D 234027 17; D 204454 17; D 178197 17; D 154894 17; D 134217 17;
   D 115876 17; D 996124 16; D 851976 16; D 724323 16; D 611439 16; D 511857 16; D 42437 17; D 348024 16; D 28214 17; D 226324 16; D 180503 16;
   D 144974 16];
  [D 291364 16; D 317768 17; D 113144 18; D 248782 18; D 421464 18; D 608568 18; D 790909 18; D 955675 18; D 109641 19; D 121205 19; D 130523 19;
   D 137986 19; D 143971 19; D 148781 19; D 152651 19; D 155786 19; D 15836 20; D 160513 19; D 162343 19; D 163912 19; D 165255 19; D 166399 19;
   D 16737 20; D 16818 20; D 168832 19; D 169323 19; D 169655 19; D 169835 19; D 169865 19; D 16974 20; D 169445 19; D 168961 19; D 16827 20;
   D 167354 19; D 166188 19; D 16474 20; D 162973 19; D 160848 19; D 158332 19; D 155392 19; D 152001 19; D 148134 19; D 143779 19; D 138938 19;
   D 13363 20; D 127891 19; D 121772 19; D 115342 19; D 108678 19; D 101866 19; D 986689 18; D 918919 18; D 851976 18; D 786591 18; D 723384 18;
   D 662852 18; D 605368 18; D 55119 19; D 500465 18; D 453255 18; D 409542 18; D 369252 18; D 332268 18; D 29844 19; D 267596 18; D 239554 18;
   D 214124 18; D 191118 18; D 170349 18; D 151636 18; D 134807 18; D 119696 18; D 106151 18; D 940267 17; D 831889 17; D 735135 17; D 64886 18;
   D 572014 17; D 503636 17; D 442848 17; D 388853 17; D 340928 17; D 298418 17; D 260733 17; D 227341 17; D 197765 17; D 171577 17; D 148395 17;
   D 127879 17; D 109727 17; D 936762 16; D 794928 16; D 669769 16; D 559586 16; D 462972 16; D 378818 16; D 306321 16; D 245004 16; D 194755 16;
   D 155871 16];
  [D 381692 16; D 415283 17; D 147227 18; D 322307 18; D 543789 18; D 782264 18; D 101321 19; D 12206 20; D 139665 19; D 154059 19; D 165614 19;
   D 174845 19; D 182232 19; D 188154 19; D 19291 20; D 196761 19; D 199926 19; D 202576 19; D 204831 19; D 206762 19; D 20841 20; D 209811 19;
   D 210993 19; D 21197 20; D 212744 19; D 213309 19; D 213672 19; D 213842 19; D 213818 19; D 213589 19; D 213132 19; D 212423 19; D 21144 20;
   D 210156 19; D 208536 19; D 206534 19; D 2041 21; D 201187 19; D 197751 19; D 193754 19; D 189159 19; D 183942 19; D 178095 19; D 171632 19;
   D 164588 19; D 157021 19; D 149009 19; D 140647 19; D 132044 19; D 123317 19; D 119251 19; D 110672 19; D 102257 19; D 940928 18; D 862502 18;
   D 78784 19; D 717332 18; D 65122 19; D 589618 18; D 532536 18; D 479901 18; D 431574 18; D 387371 18; D 347076 18; D 310453 18; D 27726 19;
   D 247247 18; D 220172 18; D 195797 18; D 173894 18; D 154248 18; D 136654 18; D 120923 18; D 106878 18; D 943546 17; D 832018 17; D 732814 17;
   D 644666 17; D 566419 17; D 497026 17; D 435534 17; D 381085 17; D 332903 17; D 29029 18; D 252621 17; D 219334 17; D 189929 17; D 16396 18;
   D 14103 18; D 12079 18; D 102931 17; D 871845 16; D 733192 16; D 611378 16; D 504773 16; D 412087 16; D 332378 16; D 265075 16; D 210013 16;
   D 167492 16];
  [D 499821 16; D 542458 17; D 191479 18; D 417351 18; D 701271 18; D 100506 19; D 129742 19; D 155831 19; D 177845 19; D 195755 19; D 210081 19;
   D 221498 19; D 230614 19; D 237905 19; D 24375 20; D 248482 19; D 252376 19; D 255641 19; D 25842 20; D 260794 19; D 262816 19; D 26453 20;
   D 265968 19; D 267144 19; D 268055 19; D 2687 21; D 269088 19; D 269228 19; D 269116 19; D 268732 19; D 268043 19; D 26702 20; D 265632 19;
   D 263843 19; D 261598 19; D 258837 19; D 255494 19; D 25151 20; D 246832 19; D 241409 19; D 235201 19; D 228184 19; D 220361 19; D 211763 19;
   D 20245 20; D 192512 19; D 182062 19; D 171234 19; D 160177 19; D 154877 19; D 143904 19; D 133088 19; D 122552 19; D 112396 19; D 102699 19;
   D 935201 18; D 848977 18; D 768525 18; D 693902 18; D 625046 18; D 561801 18; D 503946 18; D 451209 18; D 403291 18; D 359876 18; D 320642 18;
   D 28527 19; D 253448 18; D 224877 18; D 199272 18; D 176364 18; D 155903 18; D 137654 18; D 121401 18; D 106945 18; D 941026 17; D 827068 17;
   D 726055 17; D 636604 17; D 557461 17; D 487497 17; D 425692 17; D 371129 17; D 322986 17; D 280527 17; D 243096 17; D 210107 17; D 181039 17;
   D 155433 17; D 132881 17; D 113027 17; D 955598 16; D 802116 16; D 667549 16; D 550013 16; D 448012 16; D 360444 16; D 286628 16; D 226341 16;
   D 179881 16];
  [D 654228 16; D 708227 17; D 248903 18; D 540153 18; D 903924 18; D 129071 19; D 166063 19; D 198866 19; D 226381 19; D 248659 19; D 266417 19;
   D 280537 19; D 291786 19; D 300761 19; D 307946 19; D 313763 19; D 318555 19; D 322579 19; D 326004 19; D 328924 19; D 331404 19; D 333498 19;
   D 335244 19; D 336654 19; D 337721 19; D 338447 19; D 338848 19; D 338929 19; D 33868 20; D 338068 19; D 33705 20; D 33559 20; D 333645 19;
   D 331159 19; D 328059 19; D 32426 20; D 319682 19; D 314249 19; D 307895 19; D 300557 19; D 292191 19; D 282782 19; D 272349 19; D 260951 19;
   D 248686 19; D 235685 19; D 222111 19; D 208149 19; D 193998 19; D 187267 19; D 173392 19; D 159811 19; D 146669 19; D 134078 19; D 122128 19;
   D 110878 19; D 100364 19; D 905984 18; D 815798 18; D 732916 18; D 657073 18; D 587935 18; D 525123 18; D 468228 18; D 416835 18; D 370525 18;
   D 32889 19; D 291537 18; D 258088 18; D 22819 19; D 20151 19; D 17774 19; D 156593 18; D 137805 18; D 121134 18; D 106361 18; D 932833 17;
   D 817187 17; D 71502 18; D 624842 17; D 545309 17; D 475215 17; D 413479 17; D 359135 17; D 311319 17; D 269262 17; D 232281 17; D 199772 17;
   D 171199 17; D 146091 17; D 124036 17; D 104675 17; D 876981 16; D 728442 16; D 598954 16; D 486787 16; D 39066 17; D 309765 16; D 243808 16;
   D 193081 16];
  [D 855954 16; D 924185 17; D 323387 18; D 698744 18; D 116459 19; D 165681 19; D 212463 19; D 253688 19; D 288063 19; D 315767 19; D 337777 19;
   D 355237 19; D 369117 19; D 380164 19; D 388998 19; D 396152 19; D 402052 19; D 407014 19; D 411235 19; D 414824 19; D 417864 19; D 420422 19;
   D 422538 19; D 42422 20; D 42546 20; D 426266 19; D 426657 19; D 426636 19; D 426179 19; D 425237 19; D 423758 19; D 421692 19; D 418979 19;
   D 415538 19; D 411266 19; D 406055 19; D 399801 19; D 392412 19; D 383801 19; D 373897 19; D 362656 19; D 350078 19; D 336212 19; D 321158 19;
   D 305064 19; D 288123 19; D 270562 19; D 252634 19; D 243858 19; D 226096 19; D 208621 19; D 191632 19; D 175295 19; D 15974 20; D 145059 19;
   D 131309 19; D 118519 19; D 106694 19; D 958186 18; D 858617 18; D 76783 19; D 685348 18; D 610649 18; D 543195 18; D 482441 18; D 427851 18;
   D 378906 18; D 335111 18; D 295997 18; D 261125 18; D 230086 18; D 2025 20; D 178019 18; D 156322 18; D 137118 18; D 120139 18; D 105145 18;
   D 919176 17; D 802592 17; D 699929 17; D 609597 17; D 530171 17; D 460378 17; D 399083 17; D 345276 17; D 29806 18; D 256638 17; D 220307 17;
   D 188448 17; D 160516 17; D 136034 17; D 11459 18; D 95826 17; D 79442 17; D 651872 16; D 52862 17; D 423177 16; D 334589 16; D 262484 16;
   D 207142 16];
  [D 111937 17; D 120541 18; D 419961 18; D 903466 18; D 149974 19; D 212582 19; D 271714 19; D 323499 19; D 366428 19; D 40087 20; D 428148 19;
   D 449736 19; D 466859 19; D 480458 19; D 491321 19; D 500121 19; D 507391 19; D 513511 19; D 518712 19; D 523123 19; D 526847 19; D 529968 19;
   D 532526 19; D 534524 19; D 535952 19; D 536829 19; D 537176 19; D 536988 19; D 536222 19; D 534811 19; D 532686 19; D 529784 19; D 526017 19;
   D 521268 19; D 515397 19; D 508267 19; D 499747 19; D 48972 20; D 478079 19; D 464746 19; D 449686 19; D 432925 19; D 414559 19; D 394746 19;
   D 373707 19; D 351718 19; D 329092 19; D 306163 19; D 295028 19; D 272586 19; D 250659 19; D 229481 19; D 209243 19; D 190084 19; D 172098 19;
   D 155337 19; D 139818 19; D 12553 20; D 11244 20; D 1005 21; D 896511 18; D 798262 18; D 709557 18; D 629693 18; D 557966 18; D 493693 18;
   D 436223 18; D 384934 18; D 339245 18; D 298615 18; D 262541 18; D 23056 19; D 202248 18; D 177216 18; D 155113 18; D 135618 18; D 118443 18;
   D 103326 18; D 900341 17; D 783564 17; D 681052 17; D 591125 17; D 512287 17; D 443209 17; D 382708 17; D 329739 17; D 283378 17; D 242808 17;
   D 207311 17; D 17626 18; D 149104 17; D 12537 18; D 104646 17; D 865876 16; D 709065 16; D 573731 16; D 458153 16; D 361213 16; D 282444 16;
   D 222111 16];
  [D 146316 17; D 157153 18; D 545116 18; D 116763 19; D 193047 19; D 272643 19; D 347351 19; D 41237 20; D 46596 20; D 508769 19; D 542572 19;
   D 569262 19; D 590383 19; D 607123 19; D 620485 19; D 631316 19; D 640277 19; D 647827 19; D 654234 19; D 659653 19; D 664215 19; D 668017 19;
   D 671101 19; D 673459 19; D 675088 19; D 676017 19; D 676267 19; D 675817 19; D 674599 19; D 672523 19; D 669505 19; D 665452 19; D 660239 19;
   D 653701 19; D 645654 19; D 635922 19; D 624343 19; D 610768 19; D 595071 19; D 57717 20; D 557051 19; D 534789 19; D 510544 19; D 484561 19;
   D 457162 19; D 428732 19; D 399694 19; D 385176 19; D 356431 19; D 328182 19; D 300766 19; D 274456 19; D 249463 19; D 225934 19; D 203958 19;
   D 183575 19; D 164785 19; D 147556 19; D 131831 19; D 117538 19; D 104593 19; D 929065 18; D 823875 18; D 729439 18; D 64486 19; D 569277 18;
   D 501871 18; D 441871 18; D 388559 18; D 341269 18; D 299385 18; D 262344 18; D 229632 18; D 20078 19; D 175363 18; D 152999 18; D 133342 18;
   D 116082 18; D 10094 19; D 876676 17; D 760436 17; D 658701 17; D 569716 17; D 491925 17; D 42395 18; D 364574 17; D 312722 17; D 26745 18;
   D 227929 17; D 193435 17; D 163336 17; D 137085 17; D 114213 17; D 943227 16; D 770849 16; D 622354 16; D 495759 16; D 389755 16; D 303769 16;
   D 238041 16];
  [D 191165 17; D 204796 18; D 707234 18; D 150834 19; D 248381 19; D 349527 19; D 443872 19; D 52547 20; D 592342 19; D 645539 19; D 687423 19;
   D 720419 19; D 746471 19; D 767077 19; D 783516 19; D 796852 19; D 807904 19; D 817219 19; D 825109 19; D 831764 19; D 83735 20; D 841976 19;
   D 84568 20; D 848446 19; D 850281 19; D 851228 19; D 851299 19; D 850451 19; D 848582 19; D 845575 19; D 84132 20; D 835687 19; D 828496 19;
   D 819518 19; D 808515 19; D 795265 19; D 779565 19; D 76123 20; D 740114 19; D 716144 19; D 68935 20; D 659876 19; D 627981 19; D 594029 19;
   D 558481 19; D 521863 19; D 48474 20; D 466328 19; D 430023 19; D 394593 19; D 36043 20; D 327848 19; D 297073 19; D 268254 19; D 241469 19;
   D 216739 19; D 194036 19; D 173298 19; D 15444 20; D 137356 19; D 121932 19; D 108051 19; D 955932 18; D 8444 20; D 744782 18; D 655997 18;
   D 577022 18; D 506906 18; D 444761 18; D 389773 18; D 34119 19; D 298329 18; D 260567 18; D 227341 18; D 198141 18; D 172507 18; D 150029 18;
   D 130337 18; D 113101 18; D 980293 17; D 848589 17; D 733585 17; D 633223 17; D 545687 17; D 46937 18; D 402859 17; D 344908 17; D 294426 17;
   D 250456 17; D 212164 17; D 178825 17; D 149811 17; D 124585 17; D 102692 17; D 837564 16; D 674742 16; D 536175 16; D 420341 16; D 326541 16;
   D 254988 16];
  [D 249676 17; D 266765 18; D 917145 18; D 194759 19; D 319439 19; D 44791 20; D 566999 19; D 669357 19; D 752776 19; D 818869 19; D 870759 19;
   D 911548 19; D 943678 19; D 969045 19; D 989277 19; D 100571 20; D 101934 20; D 103084 20; D 104055 20; D 104872 20; D 105555 20; D 106117 20;
   D 10656 21; D 106882 20; D 107086 20; D 107177 20; D 107154 20; D 10701 21; D 10673 21; D 1063 22; D 105704 20; D 104924 20; D 103935 20;
   D 102705 20; D 101204 20; D 994045 19; D 972805 19; D 948097 19; D 919761 19; D 887756 19; D 852179 19; D 813285 19; D 771469 19; D 727264 19;
   D 681313 19; D 634329 19; D 610335 19; D 563812 19; D 518126 19; D 473838 19; D 431406 19; D 391175 19; D 353385 19; D 318176 19; D 285605 19;
   D 255661 19; D 228282 19; D 203365 19; D 180784 19; D 160394 19; D 142044 19; D 125577 19; D 11084 20; D 976827 18; D 859626 18; D 755443 18;
   D 663011 18; D 581153 18; D 508783 18; D 444903 18; D 388602 18; D 339051 18; D 295499 18; D 257269 18; D 223749 18; D 194392 18; D 168708 18;
   D 14626 19; D 126658 18; D 109555 18; D 946438 17; D 81653 18; D 703421 17; D 60499 18; D 519369 17; D 444918 17; D 380196 17; D 323943 17;
   D 275056 17; D 232578 17; D 195674 17; D 163628 17; D 135825 17; D 111745 17; D 909571 16; D 73116 17; D 579592 16; D 453104 16; D 35085 17;
   D 273006 16];
  [D 325989 17; D 347326 18; D 118884 19; D 251367 19; D 410654 19; D 57376 20; D 724013 19; D 852355 19; D 956384 19; D 103848 20; D 110277 20;
   D 115318 20; D 119281 20; D 122404 20; D 124895 20; D 126919 20; D 128602 20; D 130021 20; D 131216 20; D 132219 20; D 133054 20; D 133735 20;
   D 134263 20; D 134635 20; D 134857 20; D 134934 20; D 134864 20; D 134633 20; D 134222 20; D 133612 20; D 132782 20; D 131707 20; D 130349 20;
   D 128668 20; D 126626 20; D 124187 20; D 12132 21; D 117998 20; D 114205 20; D 109944 20; D 105235 20; D 100119 20; D 946553 19; D 889204 19;
   D 830025 19; D 769963 19; D 739531 19; D 680782 19; D 623486 19; D 568306 19; D 515761 19; D 466226 19; D 41994 20; D 377024 19; D 337501 19;
   D 301314 19; D 268353 19; D 238463 19; D 211465 19; D 187163 19; D 165357 19; D 145847 19; D 128434 19; D 11293 20; D 991554 18; D 869427 18;
   D 76135 19; D 665876 18; D 581676 18; D 507535 18; D 442347 18; D 385112 18; D 334925 18; D 290973 18; D 252527 18; D 218933 18; D 18961 19;
   D 16404 19; D 141762 18; D 122369 18; D 1055 20; D 908365 17; D 78098 18; D 670376 17; D 574384 17; D 491103 17; D 418869 17; D 356226 17;
   D 30191 18; D 254817 17; D 213996 17; D 178624 17; D 148 20; D 121531 17; D 987257 16; D 791894 16; D 626215 16; D 488183 16; D 376786 16;
   D 292155 16];
  [D 42548 18; D 452017 18; D 154034 19; D 32429 20; D 5277 21; D 734688 19; D 924177 19; D 108503 20; D 121472 20; D 131668 20; D 139631 20;
   D 145863 20; D 150749 20; D 154595 20; D 157662 20; D 160159 20; D 162237 20; D 163986 20; D 165457 20; D 166688 20; D 167708 20; D 168531 20;
   D 169156 20; D 169582 20; D 169817 20; D 169867 20; D 169724 20; D 169368 20; D 168772 20; D 167914 20; D 166765 20; D 165285 20; D 163426 20;
   D 161134 20; D 158361 20; D 155064 20; D 151202 20; D 146746 20; D 141683 20; D 136026 20; D 129811 20; D 123104 20; D 115991 20; D 108577 20;
   D 100983 20; D 970207 19; D 894911 19; D 820978 19; D 749357 19; D 680816 19; D 615932 19; D 555101 19; D 498544 19; D 446348 19; D 398482 19;
   D 35483 20; D 315213 19; D 279411 19; D 247175 19; D 218249 19; D 192369 19; D 169278 19; D 148726 19; D 130475 19; D 114303 19; D 100001 19;
   D 87376 19; D 762508 18; D 664632 18; D 578657 18; D 503245 18; D 43719 19; D 379404 18; D 328915 18; D 284853 18; D 246441 18; D 212989 18;
   D 183884 18; D 158584 18; D 136611 18; D 11754 19; D 101 21; D 866637 17; D 74244 18; D 634894 17; D 541798 17; D 461232 17; D 391521 17; D 33121 18;
   D 279037 17; D 23391 18; D 194892 17; D 161182 17; D 132106 17; D 107103 17; D 857244 16; D 676257 16; D 525724 16; D 404446 16; D 312495 16];
  [D 555132 17; D 58803 19; D 199491 19; D 418195 19; D 677835 19; D 940399 19; D 117927 20; D 138078 20; D 154243 20; D 166903 20; D 176767 20;
   D 184469 20; D 190494 20; D 19523 21; D 199008 20; D 202089 20; D 204655 20; D 206812 20; D 208622 20; D 210131 20; D 211375 20; D 212367 20;
   D 213103 20; D 213586 20; D 213825 20; D 213826 20; D 213574 20; D 213039 20; D 212187 20; D 210988 20; D 209401 20; D 207371 20; D 20483 21;
   D 201713 20; D 197957 20; D 193508 20; D 188318 20; D 182354 20; D 175614 20; D 168125 20; D 159951 20; D 151186 20; D 141955 20; D 132405 20;
   D 122695 20; D 117667 20; D 108157 20; D 988839 19; D 899589 19; D 814699 19; D 734794 19; D 660269 19; D 591316 19; D 52796 20; D 470097 19;
   D 417527 19; D 369983 19; D 327157 19; D 28872 20; D 25433 20; D 22365 20; D 196351 19; D 172118 19; D 150657 19; D 131687 19; D 114954 19;
   D 10022 20; D 872673 18; D 758999 18; D 659385 18; D 572217 18; D 496044 18; D 429562 18; D 371609 18; D 32115 19; D 277261 18; D 239126 18;
   D 206023 18; D 177312 18; D 152432 18; D 130887 18; D 112243 18; D 961198 17; D 821832 17; D 70142 18; D 59742 18; D 507619 17; D 430092 17;
   D 363167 17; D 305401 17; D 255545 17; D 212532 17; D 175449 17; D 143528 17; D 116134 17; D 927532 16; D 729946 16; D 565883 16; D 433929 16;
   D 334087 16];
  [D 724017 17; D 764664 18; D 258254 19; D 539069 19; D 870344 19; D 120327 20; D 150426 20; D 175662 20; D 195803 20; D 211521 20; D 223739 20;
   D 233257 20; D 240686 20; D 246519 20; D 251175 20; D 254978 20; D 258147 20; D 260807 20; D 263032 20; D 264882 20; D 266397 20; D 267589 20;
   D 268451 20; D 268989 20; D 269219 20; D 26914 21; D 268727 20; D 267938 20; D 266732 20; D 265066 20; D 262882 20; D 260103 20; D 256639 20;
   D 252407 20; D 247331 20; D 24134 21; D 23438 21; D 22642 21; D 21747 21; D 207586 20; D 196866 20; D 18545 21; D 173513 20; D 161253 20;
   D 154716 20; D 14253 21; D 130558 20; D 118963 20; D 107874 20; D 97388 20; D 875724 19; D 784633 19; D 700739 19; D 623982 19; D 554151 19;
   D 490938 19; D 433962 19; D 382804 19; D 337026 19; D 296187 19; D 259855 19; D 227615 19; D 199073 19; D 173858 19; D 151629 19; D 132069 19;
   D 114888 19; D 99821 19; D 866298 18; D 750976 18; D 650301 18; D 562528 18; D 4861 20; D 419631 18; D 361887 18; D 311778 18; D 268336 18;
   D 230711 18; D 198152 18; D 17 22; D 145677 18; D 124676 18; D 106555 18; D 90926 18; D 77453 18; D 658424 17; D 558392 17; D 472225 17; D 398008 17;
   D 334087 17; D 279042 17; D 231653 17; D 190883 17; D 155861 17; D 125864 17; D 10031 18; D 787519 16; D 608819 16; D 465337 16; D 356993 16];
  [D 943915 17; D 993952 18; D 334191 19; D 694604 19; D 11171 21; D 153908 20; D 191818 20; D 223409 20; D 248499 20; D 268011 20; D 283143 20;
   D 294905 20; D 304064 20; D 311251 20; D 316991 20; D 321686 20; D 325601 20; D 328881 20; D 331616 20; D 333882 20; D 335724 20; D 337149 20;
   D 338151 20; D 338742 20; D 338939 20; D 338734 20; D 338087 20; D 336943 20; D 335248 20; D 332944 20; D 329947 20; D 32615 21; D 321439 20;
   D 315707 20; D 30886 21; D 30081 21; D 291496 20; D 280897 20; D 269047 20; D 25604 21; D 242026 20; D 227205 20; D 21182 21; D 196136 20;
   D 187835 20; D 172436 20; D 157414 20; D 142958 20; D 129219 20; D 1163 22; D 10427 21; D 9316 21; D 829724 19; D 736891 19; D 652752 19; D 57685 20;
   D 50866 20; D 447624 19; D 393166 19; D 344722 19; D 301742 19; D 263704 19; D 230116 19; D 200521 19; D 174494 19; D 151649 19; D 131632 19;
   D 11412 20; D 98825 19; D 854849 18; D 738662 18; D 6376 20; D 549804 18; D 473622 18; D 407591 18; D 350419 18; D 300967 18; D 258232 18;
   D 221334 18; D 189502 18; D 16206 19; D 138419 18; D 118065 18; D 10055 19; D 854845 17; D 725303 17; D 613944 17; D 518232 17; D 435976 17;
   D 365288 17; D 304548 17; D 252369 17; D 207573 17; D 169171 17; D 136343 17; D 108429 17; D 849228 16; D 6547 18; D 498776 16; D 381274 16];
  [D 123011 18; D 129146 19; D 432282 19; D 894665 19; D 143329 20; D 196791 20; D 244519 20; D 284052 20; D 3153 22; D 339521 20; D 358259 20;
   D 372792 20; D 384085 20; D 392942 20; D 400022 20; D 405821 20; D 410657 20; D 414698 20; D 418061 20; D 420835 20; D 423069 20; D 424767 20;
   D 425922 20; D 426555 20; D 426684 20; D 426287 20; D 425305 20; D 423665 20; D 4213 22; D 418125 20; D 414022 20; D 408846 20; D 402451 20;
   D 394705 20; D 385487 20; D 374693 20; D 362258 20; D 348181 20; D 332535 20; D 315469 20; D 297204 20; D 278026 20; D 258263 20; D 24749 21;
   D 227769 20; D 208374 20; D 18958 21; D 17161 21; D 15463 21; D 138753 20; D 124042 20; D 110517 20; D 981679 19; D 869584 19; D 768353 19;
   D 677337 19; D 595832 19; D 523091 19; D 458379 19; D 400972 19; D 350178 19; D 305342 19; D 265853 19; D 231146 19; D 2007 21; D 174041 19;
   D 150738 19; D 130401 19; D 11268 20; D 972601 18; D 838613 18; D 722336 18; D 621553 18; D 534301 18; D 458846 18; D 393662 18; D 337406 18;
   D 2889 20; D 247112 18; D 211141 18; D 180201 18; D 153605 18; D 130758 18; D 11114 19; D 943041 17; D 798595 17; D 674699 17; D 568448 17;
   D 477336 17; D 399211 17; D 332225 17; D 274805 17; D 225614 17; D 183529 17; D 147624 17; D 11715 18; D 915332 16; D 703697 16; D 534351 16;
   D 406993 16];
  [D 160244 18; D 167733 19; D 558944 19; D 115191 20; D 183829 20; D 251536 20; D 311602 20; D 361058 20; D 399964 20; D 430028 20; D 453231 20;
   D 471186 20; D 485111 20; D 496027 20; D 504763 20; D 511929 20; D 517902 20; D 522883 20; D 527013 20; D 530406 20; D 53311 21; D 535122 20;
   D 53644 21; D 537097 20; D 537103 20; D 536421 20; D 534963 20; D 532638 20; D 529355 20; D 524994 20; D 519388 20; D 512347 20; D 503687 20;
   D 493239 20; D 480853 20; D 466409 20; D 449847 20; D 431199 20; D 410598 20; D 388273 20; D 364544 20; D 339807 20; D 314504 20; D 300808 20;
   D 275872 20; D 251517 20; D 228073 20; D 205793 20; D 184862 20; D 165392 20; D 147437 20; D 131004 20; D 116059 20; D 102545 20; D 903817 19;
   D 794819 19; D 697504 19; D 610913 19; D 534095 19; D 466135 19; D 406161 19; D 35336 20; D 306975 19; D 266307 19; D 230721 19; D 199637 19;
   D 17253 20; D 14893 20; D 128414 19; D 110603 19; D 951629 18; D 817942 18; D 702332 18; D 60247 19; D 516305 18; D 442035 18; D 378081 18;
   D 323059 18; D 275764 18; D 235143 18; D 20028 19; D 170378 18; D 144748 18; D 122789 18; D 103985 18; D 878885 17; D 741121 17; D 623238 17;
   D 522375 17; D 436077 17; D 362246 17; D 299093 17; D 245105 17; D 19901 18; D 159761 17; D 126511 17; D 986101 16; D 755986 16; D 572167 16;
   D 434204 16];
  [D 20868 19; D 21777 20; D 722433 19; D 148255 20; D 235691 20; D 321403 20; D 396968 20; D 458817 20; D 507249 20; D 544559 20; D 57329 21;
   D 595471 20; D 612643 20; D 626102 20; D 636885 20; D 645742 20; D 653119 20; D 659254 20; D 664328 20; D 668471 20; D 671735 20; D 674106 20;
   D 675594 20; D 676241 20; D 676047 20; D 674947 20; D 67282 21; D 66955 21; D 665014 20; D 65904 21; D 651398 20; D 64184 21; D 630134 20;
   D 61607 21; D 59946 21; D 580172 20; D 558165 20; D 533528 20; D 506479 20; D 47736 21; D 446627 20; D 414822 20; D 38253 21; D 36519 21;
   D 333755 20; D 303263 20; D 274097 20; D 246545 20; D 220801 20; D 196975 20; D 175105 20; D 155171 20; D 137114 20; D 120842 20; D 106248 20;
   D 932094 19; D 816039 19; D 713066 19; D 621967 19; D 541587 19; D 470841 19; D 408714 19; D 354273 19; D 306661 19; D 265099 19; D 228883 19;
   D 197376 19; D 17001 20; D 146275 19; D 125718 19; D 107937 19; D 925771 18; D 793243 18; D 679025 18; D 580694 18; D 496127 18; D 423468 18;
   D 361096 18; D 307601 18; D 261756 18; D 222496 18; D 188898 18; D 160162 18; D 135598 18; D 114609 18; D 966807 17; D 813711 17; D 682996 17;
   D 5714 19; D 476128 17; D 394796 17; D 325376 17; D 266154 17; D 215695 17; D 172813 17; D 136554 17; D 106181 17; D 811744 16; D 612327 16;
   D 462956 16];
  [D 271681 18; D 282628 19; D 933391 19; D 190741 20; D 302078 20; D 410543 20; D 505569 20; D 582891 20; D 643171 20; D 68947 21; D 725043 20;
   D 752443 20; D 773621 20; D 79022 21; D 803537 20; D 814485 20; D 823594 20; D 83115 21; D 837379 20; D 842434 20; D 84636 21; D 849138 20;
   D 850793 20; D 851376 20; D 850869 20; D 849164 20; D 846102 20; D 841537 20; D 835294 20; D 827129 20; D 816732 20; D 803784 20; D 787993 20;
   D 769095 20; D 746865 20; D 721164 20; D 691995 20; D 659531 20; D 624114 20; D 586246 20; D 546565 20; D 505801 20; D 483233 20; D 442852 20;
   D 403344 20; D 365273 20; D 329082 20; D 295091 20; D 263498 20; D 234399 20; D 207805 20; D 183665 20; D 161878 20; D 142313 20; D 124822 20;
   D 109243 20; D 954165 19; D 831832 19; D 723898 19; D 628917 19; D 545533 19; D 472495 19; D 408651 19; D 352953 19; D 304451 19; D 262287 19;
   D 225693 19; D 193982 19; D 166542 19; D 142831 19; D 12237 20; D 104734 19; D 895519 18; D 764966 18; D 652824 18; D 556593 18; D 474094 18;
   D 403433 18; D 342963 18; D 291253 18; D 247069 18; D 209339 18; D 177141 18; D 149677 18; D 126262 18; D 106305 18; D 893012 17; D 748147 17;
   D 624742 17; D 51962 18; D 430073 17; D 353804 17; D 288876 17; D 233667 17; D 186841 17; D 147321 17; D 114276 17; D 871147 16; D 654923 16;
   D 49329 17];
  [D 353596 18; D 366668 19; D 120551 20; D 245313 20; D 387034 20; D 524239 20; D 643693 20; D 740329 20; D 815343 20; D 872792 20; D 916834 20;
   D 95068 21; D 976801 20; D 997277 20; D 101373 21; D 102727 21; D 103851 21; D 104781 21; D 105546 21; D 106162 21; D 106632 21; D 106955 21;
   D 107136 21; D 10718 22; D 107081 21; D 106824 21; D 106389 21; D 105755 21; D 104898 21; D 103785 21; D 102373 21; D 100623 21; D 984965 20;
   D 959619 20; D 929925 20; D 895755 20; D 857188 20; D 814524 20; D 768282 20; D 719183 20; D 668105 20; D 616021 20; D 587401 20; D 536444 20;
   D 486929 20; D 439522 20; D 394726 20; D 352885 20; D 314191 20; D 278717 20; D 246434 20; D 217242 20; D 19099 21; D 167495 20; D 146555 20;
   D 127961 20; D 111505 20; D 969852 19; D 842088 19; D 729949 19; D 631754 19; D 545957 19; D 471145 19; D 406038 19; D 349477 19; D 300424 19;
   D 257952 19; D 221232 19; D 189532 19; D 162202 19; D 138671 19; D 118435 19; D 101054 19; D 86141 19; D 733595 18; D 624158 18; D 530546 18;
   D 450542 18; D 382226 18; D 323936 18; D 274238 18; D 231893 18; D 195835 18; D 165146 18; D 139039 18; D 116837 18; D 979612 17; D 819153 17;
   D 682762 17; D 56683 18; D 468288 17; D 384538 17; D 31339 18; D 253015 17; D 201908 17; D 158855 17; D 122921 17; D 934359 16; D 700039 16;
   D 525232 16];
  [D 460064 18; D 475517 19; D 155638 20; D 315389 20; D 495719 20; D 669212 20; D 819322 20; D 940062 20; D 103339 21; D 110467 21; D 11592 22;
   D 1201 23; D 123323 21; D 125849 21; D 127883 21; D 129557 21; D 130945 21; D 13209 22; D 133027 21; D 133776 21; D 134337 21; D 134711 21;
   D 134903 21; D 134919 21; D 13475 22; D 134371 21; D 133756 21; D 132881 21; D 131709 21; D 130194 21; D 12828 22; D 125918 21; D 123061 21;
   D 119668 21; D 115709 21; D 111177 21; D 10609 22; D 100498 21; D 944774 20; D 881299 20; D 815749 20; D 778616 20; D 713248 20; D 64913 21;
   D 587241 20; D 528357 20; D 473039 20; D 421642 20; D 374343 20; D 33117 21; D 29204 21; D 256789 20; D 225198 20; D 197015 20; D 171974 20;
   D 149803 20; D 130236 20; D 113018 20; D 979072 19; D 846785 19; D 731241 19; D 630535 19; D 542938 19; D 466887 19; D 400976 19; D 34395 20;
   D 294689 19; D 252198 19; D 2156 21; D 184119 19; D 157075 19; D 133871 19; D 113984 19; D 9696 20; D 824011 18; D 699631 18; D 593469 18;
   D 50294 19; D 425806 18; D 360136 18; D 304268 18; D 256769 18; D 216411 18; D 182138 18; D 153045 18; D 128358 18; D 107415 18; D 896509 17;
   D 745843 17; D 618056 17; D 50967 18; D 41775 18; D 339824 17; D 273831 17; D 218079 17; D 171202 17; D 132146 17; D 100154 17; D 747743 16;
   D 558794 16];
  [D 598397 18; D 616448 19; D 200866 20; D 405342 20; D 634716 20; D 854016 20; D 104259 21; D 11934 22; D 13095 22; D 139794 21; D 146544 21;
   D 151707 21; D 155682 21; D 158802 21; D 161315 21; D 163386 21; D 165098 21; D 166508 21; D 167656 21; D 168564 21; D 169232 21; D 169659 21;
   D 169856 21; D 169827 21; D 169553 21; D 169003 21; D 168143 21; D 166938 21; D 165339 21; D 163281 21; D 160693 21; D 157511 21; D 153678 21;
   D 149144 21; D 143877 21; D 137879 21; D 131187 21; D 123877 21; D 11606 22; D 107878 21; D 994914 20; D 947737 20; D 865142 20; D 784685 20;
   D 70753 21; D 634566 20; D 566402 20; D 503393 20; D 445676 20; D 393219 20; D 345859 20; D 303346 20; D 265374 20; D 231605 20; D 20169 21;
   D 175279 20; D 152034 20; D 131634 20; D 113777 20; D 981844 19; D 845989 19; D 727872 19; D 62538 20; D 536609 19; D 459858 19; D 393607 19;
   D 33651 20; D 287373 19; D 245148 19; D 208908 19; D 177847 19; D 151255 19; D 128516 19; D 109093 19; D 925189 18; D 783907 18; D 663585 18;
   D 561203 18; D 474161 18; D 400218 18; D 337448 18; D 284198 18; D 239052 18; D 200795 18; D 168392 18; D 140956 18; D 117731 18; D 980753 17;
   D 814401 17; D 673614 17; D 55446 18; D 45362 18; D 36831 18; D 296213 17; D 235422 17; D 184405 17; D 141975 17; D 107281 17; D 798079 16;
   D 593954 16];
  [D 778065 18; D 79887 20; D 259145 20; D 520774 20; D 812427 20; D 108953 21; D 132633 21; D 151465 21; D 165907 21; D 176878 21; D 185234 21;
   D 191611 21; D 196516 21; D 200368 21; D 203477 21; D 206037 21; D 20815 22; D 209884 21; D 21129 22; D 212389 21; D 213178 21; D 213661 21;
   D 213852 21; D 21375 22; D 213327 21; D 212538 21; D 211342 21; D 209691 21; D 207513 21; D 204721 21; D 201227 21; D 19695 22; D 191817 21;
   D 185769 21; D 178777 21; D 170857 21; D 162075 21; D 152545 21; D 142425 21; D 13191 22; D 12121 22; D 115238 21; D 104831 21; D 947616 20;
   D 851666 20; D 761459 20; D 677638 20; D 600536 20; D 530225 20; D 466581 20; D 409337 20; D 358129 20; D 312538 20; D 272118 20; D 236414 20;
   D 204981 20; D 177391 20; D 153241 20; D 132156 20; D 11379 21; D 978288 19; D 839851 19; D 720015 19; D 61647 20; D 527155 19; D 450238 19;
   D 384101 19; D 327316 19; D 278628 19; D 236937 19; D 201282 19; D 170827 19; D 144841 19; D 122694 19; D 103837 19; D 877983 18; D 741687 18;
   D 625966 18; D 527798 18; D 444584 18; D 374097 18; D 314431 18; D 263954 18; D 221274 18; D 185202 18; D 154727 18; D 128985 18; D 107246 18;
   D 888879 17; D 733845 17; D 602913 17; D 492339 17; D 398989 17; D 320258 17; D 254003 17; D 198506 17; D 152434 17; D 11483 18; D 851057 16;
   D 630658 16];
  [D 101133 19; D 103493 20; D 33422 21; D 668858 20; D 103957 21; D 13896 22; D 168686 21; D 192197 21; D 210156 21; D 223767 21; D 23411 22;
   D 241985 21; D 24804 22; D 252798 21; D 256644 21; D 25981 22; D 262417 21; D 264549 21; D 266267 21; D 267594 21; D 268523 21; D 269062 21;
   D 269229 21; D 269014 21; D 268377 21; D 267258 21; D 265604 21; D 263346 21; D 260386 21; D 256608 21; D 2519 23; D 246159 21; D 239296 21;
   D 231245 21; D 221982 21; D 21155 22; D 200055 21; D 187663 21; D 174598 21; D 161121 21; D 153359 21; D 139978 21; D 1269 23; D 11433 22;
   D 102425 21; D 912962 20; D 810089 20; D 715905 20; D 630385 20; D 553277 20; D 484172 20; D 422562 20; D 367882 20; D 319548 20; D 276975 20;
   D 239597 20; D 206876 20; D 178309 20; D 153431 20; D 131816 20; D 113076 20; D 968626 19; D 828608 19; D 70791 20; D 604042 19; D 5148 21;
   D 438241 19; D 372657 19; D 316551 19; D 268617 19; D 227714 19; D 192853 19; D 163175 19; D 137936 19; D 116494 19; D 982964 18; D 828657 18;
   D 697931 18; D 587273 18; D 493675 18; D 414565 18; D 347744 18; D 291337 18; D 243745 18; D 20361 19; D 169775 18; D 141257 18; D 117226 18;
   D 969756 17; D 79911 18; D 6553 19; D 534108 17; D 432006 17; D 346067 17; D 273888 17; D 213544 17; D 163543 17; D 122805 17; D 906633 16;
   D 668808 16];
  [D 131408 19; D 134028 20; D 4309 22; D 858773 20; D 132981 21; D 17718 22; D 214483 21; D 243829 21; D 266161 21; D 283046 21; D 295846 21;
   D 305573 21; D 313048 21; D 318928 21; D 323687 21; D 327601 21; D 330815 21; D 333436 21; D 335535 21; D 337132 21; D 338217 21; D 338808 21;
   D 338923 21; D 338542 21; D 337601 21; D 336028 21; D 333751 21; D 330672 21; D 326656 21; D 321552 21; D 315218 21; D 307527 21; D 298368 21;
   D 287669 21; D 275426 21; D 261717 21; D 246707 21; D 230638 21; D 213818 21; D 196595 21; D 186747 21; D 16986 22; D 153468 21; D 137814 21;
   D 123076 21; D 109374 21; D 967712 20; D 852848 20; D 74898 21; D 655681 20; D 572358 20; D 498312 20; D 432796 20; D 375051 20; D 324332 20;
   D 279921 20; D 241147 20; D 207381 20; D 17805 21; D 152629 20; D 130643 20; D 111666 20; D 953171 19; D 81257 20; D 691855 19; D 588377 19;
   D 499808 19; D 424107 19; D 359493 19; D 304412 19; D 257516 19; D 217636 19; D 183759 19; D 155012 19; D 130644 19; D 110008 19; D 925473 18;
   D 777872 18; D 6532 20; D 547978 18; D 459234 18; D 384438 18; D 321435 18; D 268394 18; D 223759 18; D 186212 18; D 154634 18; D 128081 18;
   D 105754 18; D 869794 17; D 711909 17; D 579136 17; D 467508 17; D 373739 17; D 295141 17; D 229557 17; D 175316 17; D 131206 17; D 964713 16;
   D 708264 16];
  [D 170694 19; D 173514 20; D 555362 20; D 110226 21; D 170057 21; D 22585 22; D 272646 21; D 309267 21; D 337034 21; D 357978 21; D 373819 21;
   D 385834 21; D 395063 21; D 402332 21; D 408222 21; D 413061 21; D 417024 21; D 420244 21; D 422804 21; D 424718 21; D 425978 21; D 42661 22;
   D 426633 21; D 426005 21; D 42464 22; D 422445 21; D 419322 21; D 415132 21; D 409693 21; D 40281 22; D 394304 21; D 384017 21; D 371814 21;
   D 357626 21; D 341477 21; D 323506 21; D 303957 21; D 283175 21; D 261579 21; D 248839 21; D 227179 21; D 205922 21; D 185427 21; D 165977 21;
   D 147771 21; D 130933 21; D 115519 21; D 101532 21; D 889334 20; D 776584 20; D 676226 20; D 587326 20; D 508902 20; D 439977 20; D 379602 20;
   D 326879 20; D 280965 20; D 241085 20; D 206528 20; D 176651 20; D 150874 20; D 128678 20; D 1096 22; D 932321 19; D 792113 19; D 672201 19;
   D 569798 19; D 482472 19; D 408101 19; D 344844 19; D 291107 19; D 245509 19; D 20686 20; D 174137 19; D 146458 19; D 123068 19; D 103321 19;
   D 866646 18; D 726258 18; D 608027 18; D 508527 18; D 424845 18; D 35451 19; D 295423 18; D 245808 18; D 20416 19; D 16921 19; D 139884 18;
   D 115277 18; D 946304 17; D 77304 18; D 627638 17; D 505643 17; D 403373 17; D 31782 18; D 246573 17; D 18776 18; D 140026 17; D 102514 17;
   D 748831 16];
  [D 221669 19; D 224556 20; D 715538 20; D 141435 21; D 217407 21; D 287811 21; D 346499 21; D 392188 21; D 426711 21; D 452688 21; D 47229 22;
   D 487131 21; D 49853 22; D 50752 22; D 51481 22; D 520791 21; D 525675 21; D 52963 22; D 532747 21; D 535032 21; D 536483 21; D 537137 21;
   D 537006 21; D 536022 21; D 534067 21; D 531021 21; D 526751 21; D 521062 21; D 513708 21; D 504442 21; D 493039 21; D 479301 21; D 463072 21;
   D 444294 21; D 423042 21; D 399539 21; D 374143 21; D 347336 21; D 319683 21; D 303481 21; D 276097 21; D 249408 21; D 223844 21; D 199729 21;
   D 177282 21; D 156627 21; D 137805 21; D 120797 21; D 105537 21; D 919265 20; D 798521 20; D 691886 20; D 598094 20; D 515892 20; D 444083 20;
   D 381539 20; D 327212 20; D 280143 20; D 239458 20; D 204367 20; D 174165 20; D 14822 21; D 125973 20; D 106929 20; D 906541 19; D 767666 19;
   D 649338 19; D 548657 19; D 463105 19; D 390499 19; D 328956 19; D 276849 19; D 23278 20; D 195548 19; D 164125 19; D 137629 19; D 115308 19;
   D 965199 18; D 807192 18; D 674409 18; D 562903 18; D 469326 18; D 390842 18; D 325052 18; D 269926 18; D 223752 18; D 185086 18; D 15271 19;
   D 125604 18; D 102907 18; D 839004 17; D 679832 17; D 546558 17; D 43506 18; D 341976 17; D 264609 17; D 200871 17; D 149246 17; D 108768 17;
   D 79024 17];
  [D 287792 19; D 290517 20; D 921621 20; D 181424 21; D 27786 22; D 366675 21; D 440252 21; D 497244 21; D 540162 21; D 57238 22; D 596636 21;
   D 614969 21; D 62905 22; D 640172 21; D 649198 21; D 656588 21; D 662607 21; D 66746 22; D 671247 21; D 673965 21; D 67562 22; D 676263 21;
   D 675889 21; D 674396 21; D 671623 21; D 667421 21; D 661599 21; D 653887 21; D 643961 21; D 631508 21; D 616247 21; D 597929 21; D 576384 21;
   D 551583 21; D 523678 21; D 493013 21; D 460105 21; D 425617 21; D 390305 21; D 369766 21; D 335233 21; D 301806 21; D 26999 22; D 240154 21;
   D 21253 22; D 187234 21; D 164286 21; D 143632 21; D 125168 21; D 108757 21; D 942444 20; D 814657 20; D 702581 20; D 604625 20; D 519281 20;
   D 445141 20; D 380905 20; D 32539 21; D 277521 20; D 236335 20; D 20097 21; D 170662 20; D 144734 20; D 122591 20; D 10371 21; D 876355 19;
   D 739702 19; D 623688 19; D 525327 19; D 442035 19; D 371589 19; D 312076 19; D 261853 19; D 219514 19; D 183857 19; D 153857 19; D 128638 19;
   D 107457 19; D 896825 18; D 747771 18; D 62287 19; D 518276 18; D 430741 18; D 35752 19; D 296298 18; D 245128 18; D 202369 18; D 166643 18;
   D 136794 18; D 111854 18; D 910121 17; D 73594 18; D 590398 17; D 468887 17; D 367646 17; D 283669 17; D 214632 17; D 158841 17; D 115199 17;
   D 832152 16];
  [D 373538 19; D 375739 20; D 118669 21; D 23265 22; D 355024 21; D 467029 21; D 559246 21; D 630323 21; D 683674 21; D 723628 21; D 753642 21;
   D 776291 21; D 793691 21; D 807454 21; D 818628 21; D 82776 22; D 835175 21; D 841125 21; D 845717 21; D 848934 21; D 850799 21; D 851375 21;
   D 850634 21; D 848418 21; D 844522 21; D 838747 21; D 830828 21; D 820393 21; D 807018 21; D 790311 21; D 769916 21; D 745533 21; D 716984 21;
   D 684294 21; D 647735 21; D 607822 21; D 565286 21; D 521033 21; D 494455 21; D 450106 21; D 406666 21; D 364895 21; D 325384 21; D 28854 22;
   D 254605 21; D 223675 21; D 195735 21; D 170685 21; D 148371 21; D 128603 21; D 111175 21; D 958751 20; D 824937 20; D 708298 20; D 606943 20;
   D 51912 21; D 443221 20; D 377787 20; D 321503 20; D 273193 20; D 231809 20; D 196425 20; D 166225 20; D 140492 20; D 118601 20; D 100006 20;
   D 842329 19; D 708721 19; D 595693 19; D 500193 19; D 419598 19; D 35166 20; D 294452 19; D 246329 19; D 20589 20; D 171938 19; D 14346 20;
   D 119593 19; D 996061 18; D 828821 18; D 688981 18; D 572128 18; D 474541 18; D 393086 18; D 325125 18; D 268442 18; D 221177 18; D 181769 18;
   D 148913 18; D 121518 18; D 986716 17; D 796177 17; D 637297 17; D 50492 18; D 39485 18; D 303744 17; D 229014 17; D 168768 17; D 121764 17;
   D 87418 17];
  [D 484696 19; D 485809 20; D 152753 21; D 298252 21; D 453492 21; D 594698 21; D 710244 21; D 798872 21; D 865184 21; D 914732 21; D 951868 21;
   D 979852 21; D 100136 22; D 10184 23; D 103223 22; D 104351 22; D 105264 22; D 105993 22; D 106549 22; D 106927 22; D 107135 22; D 107177 22;
   D 107048 22; D 106725 22; D 106182 22; D 105391 22; D 104316 22; D 102907 22; D 101107 22; D 988694 21; D 961481 21; D 929078 21; D 891317 21;
   D 84832 22; D 800532 21; D 748705 21; D 693864 21; D 637228 21; D 603443 21; D 547401 21; D 492885 21; D 440805 21; D 391836 21; D 346424 21;
   D 304804 21; D 267041 21; D 233067 21; D 202721 21; D 175782 21; D 151993 21; D 131084 21; D 112781 21; D 968164 20; D 829382 20; D 7091 22;
   D 60514 21; D 515519 20; D 438445 20; D 372308 20; D 315675 20; D 267277 20; D 225991 20; D 190836 20; D 160949 20; D 135581 20; D 114081 20;
   D 958849 19; D 805059 19; D 675244 19; D 565802 19; D 473644 19; D 396126 19; D 330994 19; D 276325 19; D 230483 19; D 192078 19; D 159934 19;
   D 133052 19; D 11059 20; D 918339 18; D 761845 18; D 631354 18; D 522609 18; D 432033 18; D 356622 18; D 293858 18; D 241632 18; D 19818 19;
   D 162028 18; D 131946 18; D 106911 18; D 860755 17; D 687371 17; D 543204 17; D 423586 17; D 3248 19; D 243968 17; D 17897 18; D 128411 17;
   D 915903 16];
  [D 628752 19; D 62793 21; D 196567 21; D 382243 21; D 579115 21; D 75708 22; D 901818 21; D 101231 22; D 109473 22; D 115617 22; D 120212 22;
   D 12367 23; D 126329 22; D 128438 22; D 130151 22; D 131544 22; D 132669 22; D 133561 22; D 13423 23; D 134674 22; D 134899 22; D 134914 22;
   D 134706 22; D 134241 22; D 133488 22; D 132409 22; D 130953 22; D 129051 22; D 126635 22; D 123642 22; D 120016 22; D 115717 22; D 110732 22;
   D 105089 22; D 988562 21; D 921427 21; D 850897 21; D 778595 21; D 735782 21; D 665135 21; D 596877 21; D 53208 22; D 471507 21; D 415631 21;
   D 364665 21; D 318623 21; D 277363 21; D 240642 21; D 208152 21; D 179552 21; D 154487 21; D 132608 21; D 113576 21; D 970751 20; D 828104 20;
   D 705125 20; D 59937 21; D 508641 20; D 430973 20; D 364624 20; D 308055 20; D 259911 20; D 219009 20; D 184316 20; D 154936 20; D 130091 20;
   D 10911 21; D 914172 19; D 765154 19; D 639797 19; D 534467 19; D 446064 19; D 371946 19; D 309869 19; D 257927 19; D 214506 19; D 17824 20;
   D 147977 19; D 122743 19; D 101718 19; D 842126 18; D 696468 18; D 575342 18; D 474665 18; D 391022 18; D 321552 18; D 263868 18; D 215974 18;
   D 176208 18; D 143187 18; D 115764 18; D 929863 17; D 740709 17; D 58376 18; D 453828 17; D 346784 17; D 25942 18; D 189378 17; D 13508 18;
   D 956884 16];
  [D 815382 19; D 811376 20; D 252872 21; D 489747 21; D 739341 21; D 963564 21; D 114483 22; D 128256 22; D 138498 22; D 146117 22; D 151801 22;
   D 156075 22; D 159364 22; D 161977 22; D 164097 22; D 165817 22; D 167201 22; D 168291 22; D 169096 22; D 169612 22; D 169851 22; D 16982 23;
   D 169496 22; D 168835 22; D 167796 22; D 166329 22; D 164359 22; D 161798 22; D 158558 22; D 154561 22; D 149738 22; D 144044 22; D 137476 22;
   D 130085 22; D 121975 22; D 113299 22; D 104251 22; D 987135 21; D 896345 21; D 807496 21; D 722219 21; D 641761 21; D 566972 21; D 498332 21;
   D 436014 21; D 37995 22; D 329899 21; D 285511 21; D 246363 21; D 212008 21; D 181986 21; D 155852 21; D 13318 22; D 113574 21; D 966688 20;
   D 821303 20; D 696587 20; D 589848 20; D 498694 20; D 421007 20; D 354924 20; D 298814 20; D 251252 20; D 211002 20; D 176991 20; D 148296 20;
   D 124117 20; D 103772 20; D 86674 20; D 723224 19; D 602899 19; D 502129 19; D 417825 19; D 347369 19; D 288543 19; D 239473 19; D 198576 19;
   D 164522 19; D 136187 19; D 112628 19; D 930551 18; D 768034 18; D 633171 18; D 521314 18; D 428576 18; D 351713 18; D 288023 18; D 235251 18;
   D 191525 18; D 15529 19; D 125259 18; D 100366 18; D 797367 17; D 626575 17; D 48552 18; D 369606 17; D 275279 17; D 199911 17; D 14171 18;
   D 996661 16];
  [D 105709 20; D 104809 21; D 325212 21; D 627313 21; D 943655 21; D 122607 22; D 145302 22; D 162468 22; D 175196 22; D 184643 22; D 191675 22;
   D 196958 22; D 201027 22; D 204264 22; D 206888 22; D 209011 22; D 210714 22; D 212045 22; D 213009 22; D 213604 22; D 213849 22; D 213744 22;
   D 213255 22; D 212325 22; D 210899 22; D 208906 22; D 206247 22; D 202803 22; D 198466 22; D 193135 22; D 186729 22; D 179201 22; D 170564 22;
   D 160904 22; D 150374 22; D 139189 22; D 12761 23; D 120571 22; D 1091 24; D 979509 21; D 873192 21; D 77348 22; D 681299 21; D 59711 22;
   D 521015 21; D 45283 22; D 392184 21; D 338579 21; D 291453 21; D 250218 21; D 214286 21; D 183093 21; D 156104 21; D 132824 21; D 112802 21;
   D 956252 20; D 809263 20; D 683765 20; D 576843 20; D 485931 20; D 408777 20; D 343417 20; D 288141 20; D 241467 20; D 202118 20; D 16899 21;
   D 14114 21; D 117757 20; D 981488 19; D 81726 20; D 679869 19; D 565056 19; D 469211 19; D 389281 19; D 322689 19; D 267259 19; D 221161 19;
   D 182857 19; D 151053 19; D 124668 19; D 102792 19; D 846663 18; D 696568 18; D 572335 18; D 469552 18; D 384542 18; D 314244 18; D 256116 18;
   D 20805 19; D 168301 18; D 135423 18; D 108226 18; D 857361 17; D 671597 17; D 518558 17; D 393151 17; D 291437 17; D 21048 18; D 148234 17;
   D 103481 17];
  [D 137006 20; D 135348 21; D 418127 21; D 803299 21; D 120413 22; D 155974 22; D 184381 22; D 205772 22; D 221588 22; D 233302 22; D 242002 22;
   D 248533 22; D 253568 22; D 257579 22; D 260827 22; D 263447 22; D 265541 22; D 267163 22; D 268312 22; D 268993 22; D 269229 22; D 269012 22;
   D 268291 22; D 266991 22; D 26504 23; D 262341 22; D 258755 22; D 254133 22; D 248334 22; D 241237 22; D 232741 22; D 222805 22; D 21147 23;
   D 198872 22; D 185231 22; D 170845 22; D 156062 22; D 147142 22; D 13268 23; D 118721 22; D 105493 22; D 93158 22; D 818143 21; D 715034 21;
   D 622235 21; D 539406 21; D 465995 21; D 40132 22; D 344638 21; D 295185 21; D 252212 21; D 215006 21; D 182899 21; D 155276 21; D 131576 21;
   D 111295 21; D 939817 20; D 792345 20; D 666998 20; D 560668 20; D 470637 20; D 394542 20; D 330332 20; D 276238 20; D 230733 20; D 192509 20;
   D 160445 20; D 133583 20; D 111106 20; D 923224 19; D 766419 19; D 635665 19; D 526748 19; D 436112 19; D 36076 20; D 298174 19; D 246236 19;
   D 20317 20; D 167489 19; D 137949 19; D 113509 19; D 933022 18; D 766037 18; D 628114 18; D 51424 19; D 42025 19; D 342684 18; D 278676 18;
   D 225856 18; D 182263 18; D 146278 18; D 116574 18; D 920657 17; D 718716 17; D 5528 19; D 417276 17; D 307772 17; D 22099 18; D 154585 17;
   D 107096 17];
  [D 177527 20; D 174735 21; D 537439 21; D 102838 22; D 153612 22; D 198377 22; D 233925 22; D 260578 22; D 280231 22; D 294754 22; D 305517 22;
   D 313593 22; D 319826 22; D 324796 22; D 328815 22; D 332049 22; D 334622 22; D 336594 22; D 33796 23; D 338731 22; D 338933 22; D 33855 23;
   D 337503 22; D 335698 22; D 333039 22; D 329389 22; D 324562 22; D 318366 22; D 310626 22; D 301188 22; D 289939 22; D 276849 22; D 262003 22;
   D 245607 22; D 227976 22; D 209518 22; D 197999 22; D 179415 22; D 161225 22; D 143783 22; D 127356 22; D 112123 22; D 981858 21; D 85575 22;
   D 742718 21; D 642208 21; D 553432 21; D 475472 21; D 407349 21; D 348085 21; D 296728 21; D 252381 21; D 21421 22; D 181453 21; D 153418 21;
   D 129485 21; D 109104 21; D 91784 21; D 770973 20; D 646675 20; D 541672 20; D 453124 20; D 378575 20; D 31591 21; D 263314 20; D 21923 21;
   D 182332 20; D 151487 20; D 125735 20; D 10426 21; D 863715 19; D 714873 19; D 591155 19; D 488423 19; D 403198 19; D 332562 19; D 274068 19;
   D 225669 19; D 185654 19; D 152596 19; D 125303 19; D 102784 19; D 842131 18; D 689063 18; D 562946 18; D 45906 19; D 373501 18; D 30304 19;
   D 245012 18; D 197214 18; D 15784 19; D 125409 18; D 987152 17; D 767765 17; D 588065 17; D 441817 17; D 324148 17; D 231341 17; D 160706 17;
   D 110487 17];
  [D 229982 20; D 225522 21; D 690604 21; D 131619 22; D 195917 22; D 252251 22; D 296727 22; D 329932 22; D 354351 22; D 372355 22; D 385671 22;
   D 395659 22; D 403378 22; D 409537 22; D 414509 22; D 418499 22; D 421659 22; D 424051 22; D 425668 22; D 426528 22; D 426663 22; D 426035 22;
   D 424536 22; D 422044 22; D 41843 23; D 413501 22; D 407012 22; D 398719 22; D 388403 22; D 375871 22; D 361 25; D 343786 22; D 32438 23;
   D 303087 22; D 280351 22; D 256721 22; D 242074 22; D 218586 22; D 195756 22; D 174005 22; D 153642 22; D 134863 22; D 117763 22; D 102359 22;
   D 886069 21; D 764228 21; D 656971 21; D 563074 21; D 481266 21; D 410296 21; D 348961 21; D 296137 21; D 250786 21; D 211964 21; D 17882 22;
   D 150594 21; D 126614 21; D 106284 21; D 890849 20; D 745623 20; D 62322 21; D 520233 20; D 433721 20; D 361163 20; D 300398 20; D 24958 21;
   D 207138 20; D 171737 20; D 142245 20; D 117704 20; D 973062 19; D 803704 19; D 663235 19; D 546842 19; D 45049 20; D 370802 19; D 304951 19;
   D 250581 19; D 205725 19; D 168744 19; D 138276 19; D 113189 19; D 925441 18; D 755626 18; D 615993 18; D 501204 18; D 406857 18; D 329314 18;
   D 265578 18; D 213185 18; D 170117 18; D 134726 18; D 105666 18; D 818521 17; D 624139 17; D 466592 17; D 340424 17; D 241442 17; D 16655 18;
   D 113635 17];
  [D 297868 20; D 290988 21; D 887178 21; D 16841 23; D 249812 22; D 320687 22; D 376319 22; D 417681 22; D 448022 22; D 470341 22; D 486817 22;
   D 499172 22; D 508733 22; D 516367 22; D 522518 22; D 527439 22; D 531316 22; D 534212 22; D 536114 22; D 537058 22; D 537072 22; D 536091 22;
   D 533966 22; D 530543 22; D 525642 22; D 518998 22; D 510289 22; D 499206 22; D 485472 22; D 468856 22; D 449229 22; D 426633 22; D 401318 22;
   D 373725 22; D 344471 22; D 31429 23; D 295715 22; D 266095 22; D 2375 24; D 210429 22; D 18523 23; D 162113 22; D 141162 22; D 122369 22;
   D 105656 22; D 909005 21; D 77953 22; D 666529 21; D 568361 21; D 483432 21; D 410229 21; D 347347 21; D 293498 21; D 247514 21; D 208353 21;
   D 175083 21; D 146883 21; D 123033 21; D 102902 21; D 859426 20; D 716811 20; D 597086 20; D 496741 20; D 412768 20; D 342598 20; D 284043 20;
   D 235247 20; D 194634 20; D 160873 20; D 132841 20; D 109592 20; D 9033 21; D 743878 19; D 612064 19; D 503178 19; D 413314 19; D 339212 19;
   D 278158 19; D 227893 19; D 18654 20; D 15254 20; D 124604 19; D 101661 19; D 828273 18; D 673722 18; D 546925 18; D 442915 18; D 357599 18;
   D 287612 18; D 230198 18; D 183108 18; D 144503 18; D 112892 18; D 870712 17; D 66078 18; D 491399 17; D 356461 17; D 251216 17; D 172082 17;
   D 116529 17]].

(** sigma_nubar_p, ParamTables.cxx:6876-9136 *)
Definition sigma_nubar_proton : list (list decimal) := [
  [D 561824 6; D 48503 8; D 181049 8; D 554042 8; D 136737 9; D 283401 9; D 516502 9; D 85493 10; D 131452 10; D 190606 10; D 26373 11; D 351002 10;
   D 45207 11; D 566286 10; D 692811 10; D 830534 10; D 978045 10; D 113387 11; D 129654 11; D 146458 11; D 163651 11; D 181094 11; D 198653 11;
   D 216206 11; D 233642 11; D 250861 11; D 267772 11; D 284296 11; D 300363 11; D 315916 11; D 330911 11; D 345302 11; D 359057 11; D 372152 11;
   D 384577 11; D 396313 11; D 407345 11; D 417662 11; D 427256 11; D 436131 11; D 444286 11; D 451722 11; D 458436 11; D 464431 11; D 469713 11;
   D 474289 11; D 478167 11; D 481349 11; D 483843 11; D 485658 11; D 486803 11; D 487289 11; D 487125 11; D 486323 11; D 484892 11; D 482847 11;
   D 480199 11; D 476964 11; D 473159 11; D 468797 11; D 463896 11; D 458476 11; D 452553 11; D 446146 11; D 439272 11; D 431951 11; D 424199 11;
   D 416039 11; D 407488 11; D 398566 11; D 389294 11; D 379694 11; D 369786 11; D 359595 11; D 349145 11; D 338461 11; D 327572 11; D 316506 11;
   D 305294 11; D 29397 12; D 282568 11; D 271125 11; D 259682 11; D 248282 11; D 23697 12; D 225795 11; D 214808 11; D 204067 11; D 193629 11;
   D 183559 11; D 173923 11; D 164795 11; D 156252 11; D 148375 11; D 141252 11; D 134978 11; D 129653 11; D 125382 11; D 122281 11; D 120469 11];
  [D 92363 7; D 75414 8; D 299776 8; D 941643 8; D 232464 9; D 478866 9; D 866175 9; D 142262 10; D 216948 10; D 312111 10; D 428461 10; D 565632 10;
   D 722742 10; D 898544 10; D 109134 11; D 129893 11; D 151904 11; D 174938 11; D 198763 11; D 223152 11; D 24789 12; D 272776 11; D 297628 11;
   D 322281 11; D 346588 11; D 370418 11; D 393659 11; D 41622 12; D 43803 12; D 459015 11; D 479125 11; D 498331 11; D 516613 11; D 533938 11;
   D 550282 11; D 565634 11; D 579988 11; D 593346 11; D 605708 11; D 617067 11; D 627424 11; D 636788 11; D 645167 11; D 652573 11; D 659004 11;
   D 664474 11; D 668992 11; D 672571 11; D 675224 11; D 676965 11; D 677806 11; D 677761 11; D 676847 11; D 675084 11; D 672491 11; D 669087 11;
   D 664896 11; D 659939 11; D 654239 11; D 647819 11; D 640699 11; D 6329 13; D 624446 11; D 615357 11; D 605654 11; D 595358 11; D 58449 12;
   D 573072 11; D 561127 11; D 548678 11; D 535748 11; D 522366 11; D 508558 11; D 494353 11; D 479782 11; D 464878 11; D 449678 11; D 434219 11;
   D 418543 11; D 402693 11; D 386717 11; D 370666 11; D 354594 11; D 338561 11; D 32263 12; D 306867 11; D 291347 11; D 276148 11; D 261353 11;
   D 247054 11; D 233347 11; D 220336 11; D 208133 11; D 196858 11; D 186639 11; D 177613 11; D 169929 11; D 163745 11; D 159232 11; D 156573 11];
  [D 14765 8; D 11743 9; D 493622 8; D 157243 9; D 386781 9; D 791609 9; D 142062 10; D 231412 10; D 350008 10; D 499529 10; D 680113 10; D 890547 10;
   D 112914 11; D 139341 11; D 168004 11; D 198555 11; D 23064 12; D 263902 11; D 297997 11; D 332595 11; D 367395 11; D 402125 11; D 436542 11;
   D 470431 11; D 503605 11; D 535914 11; D 567238 11; D 597464 11; D 626508 11; D 654323 11; D 680875 11; D 706116 11; D 730007 11; D 752532 11;
   D 773689 11; D 79348 12; D 811892 11; D 828926 11; D 844584 11; D 858881 11; D 871831 11; D 883435 11; D 893707 11; D 90266 12; D 910314 11;
   D 916683 11; D 921787 11; D 92564 12; D 928266 11; D 929685 11; D 929927 11; D 929015 11; D 926979 11; D 923853 11; D 919663 11; D 914442 11;
   D 908213 11; D 901008 11; D 892851 11; D 883769 11; D 873784 11; D 862921 11; D 851201 11; D 838648 11; D 825284 11; D 811131 11; D 796215 11;
   D 78056 12; D 764193 11; D 74714 12; D 729432 11; D 7111 13; D 692179 11; D 672704 11; D 652717 11; D 632258 11; D 611375 11; D 590117 11;
   D 568539 11; D 546698 11; D 524657 11; D 502485 11; D 480257 11; D 458052 11; D 435956 11; D 414064 11; D 392476 11; D 371301 11; D 350654 11;
   D 330664 11; D 311465 11; D 293205 11; D 276042 11; D 260149 11; D 245711 11; D 232929 11; D 222021 11; D 213221 11; D 206784 11; D 202985 11];
  [D 23055 8; D 182236 8; D 804036 8; D 258024 9; D 63163 10; D 128306 10; D 228372 10; D 368837 10; D 553306 10; D 783175 10; D 105737 11; D 137356 11;
   D 17284 12; D 211706 11; D 253425 11; D 297463 11; D 343275 11; D 390338 11; D 438151 11; D 486265 11; D 534275 11; D 581823 11; D 628596 11;
   D 67433 12; D 718822 11; D 761899 11; D 803408 11; D 843262 11; D 88141 12; D 917778 11; D 952307 11; D 984968 11; D 101576 12; D 104468 12;
   D 107172 12; D 109686 12; D 112013 12; D 114154 12; D 116112 12; D 117885 12; D 119477 12; D 120889 12; D 122125 12; D 123187 12; D 124077 12;
   D 124798 12; D 125353 12; D 125746 12; D 125981 12; D 126062 12; D 125993 12; D 125779 12; D 125424 12; D 124932 12; D 124306 12; D 12355 13;
   D 122667 12; D 121659 12; D 12053 13; D 119281 12; D 117916 12; D 116436 12; D 114845 12; D 113144 12; D 111336 12; D 109423 12; D 107409 12;
   D 105296 12; D 103087 12; D 100785 12; D 983942 11; D 959184 11; D 933617 11; D 907288 11; D 880246 11; D 852544 11; D 824244 11; D 795408 11;
   D 766106 11; D 736419 11; D 706429 11; D 676227 11; D 645909 11; D 615583 11; D 585363 11; D 555373 11; D 525747 11; D 496634 11; D 468192 11;
   D 440595 11; D 414034 11; D 388715 11; D 364864 11; D 342727 11; D 322571 11; D 304688 11; D 289396 11; D 27704 12; D 267996 11; D 262673 11];
  [D 352934 7; D 280386 8; D 129286 9; D 416785 9; D 101413 10; D 204291 10; D 360486 10; D 577264 10; D 858821 10; D 120528 11; D 161388 11;
   D 208028 11; D 259785 11; D 315872 11; D 375485 11; D 437807 11; D 502045 11; D 567444 11; D 633331 11; D 699103 11; D 764233 11; D 828259 11;
   D 890814 11; D 951614 11; D 10104 13; D 106699 12; D 11213 13; D 117322 12; D 122266 12; D 126956 12; D 131391 12; D 135571 12; D 139494 12;
   D 143159 12; D 146568 12; D 149725 12; D 15263 13; D 155286 12; D 157695 12; D 159861 12; D 161789 12; D 163481 12; D 16494 13; D 166172 12;
   D 167183 12; D 167977 12; D 168561 12; D 168941 12; D 169124 12; D 169116 12; D 168922 12; D 168548 12; D 167998 12; D 167277 12; D 166388 12;
   D 165334 12; D 164119 12; D 162746 12; D 161216 12; D 159533 12; D 157699 12; D 155716 12; D 153587 12; D 151315 12; D 148902 12; D 146351 12;
   D 143666 12; D 140849 12; D 137904 12; D 134835 12; D 131647 12; D 128344 12; D 124931 12; D 121415 12; D 117801 12; D 114097 12; D 11031 13;
   D 106449 12; D 102522 12; D 985396 11; D 945114 11; D 904489 11; D 863646 11; D 82272 12; D 78186 12; D 741231 11; D 701012 11; D 661402 11;
   D 622618 11; D 584901 11; D 548515 11; D 513748 11; D 480918 11; D 450376 11; D 422504 11; D 397722 11; D 376491 11; D 359317 11; D 346749 11;
   D 339394 11];
  [D 531267 7; D 429622 8; D 206078 9; D 662857 9; D 160181 10; D 319977 10; D 55973 11; D 888812 10; D 131111 11; D 182436 11; D 242333 11;
   D 309958 11; D 384173 11; D 463787 11; D 547582 11; D 634366 11; D 723007 11; D 812486 11; D 901908 11; D 990485 11; D 107754 12; D 116256 12;
   D 124513 12; D 132488 12; D 14016 13; D 147517 12; D 154543 12; D 161224 12; D 167559 12; D 173547 12; D 179185 12; D 184473 12; D 189411 12;
   D 194006 12; D 198259 12; D 202173 12; D 205753 12; D 209004 12; D 211932 12; D 214541 12; D 216838 12; D 218829 12; D 220525 12; D 221932 12;
   D 223061 12; D 223922 12; D 224524 12; D 224876 12; D 224985 12; D 224858 12; D 224502 12; D 223923 12; D 223124 12; D 222111 12; D 220886 12;
   D 219452 12; D 217814 12; D 215973 12; D 213932 12; D 211693 12; D 20926 13; D 206635 12; D 20382 13; D 200819 12; D 197634 12; D 19427 13;
   D 190728 12; D 187013 12; D 18313 13; D 179084 12; D 17488 13; D 170524 12; D 166024 12; D 161385 12; D 156617 12; D 151726 12; D 146721 12;
   D 141612 12; D 136411 12; D 131126 12; D 125773 12; D 120364 12; D 114915 12; D 109444 12; D 10397 13; D 985144 11; D 931017 11; D 877582 11;
   D 825134 11; D 774002 11; D 72455 12; D 677179 11; D 632338 11; D 590518 11; D 552266 11; D 518184 11; D 488935 11; D 46525 12; D 447934 11;
   D 437871 11];
  [D 788279 7; D 65909 9; D 324091 9; D 104036 10; D 24944 11; D 493876 10; D 856396 10; D 134843 11; D 197182 11; D 27209 12; D 358585 11; D 455129 11;
   D 559975 11; D 671339 11; D 78743 12; D 906559 11; D 102718 12; D 114796 12; D 126771 12; D 138544 12; D 15004 13; D 161198 12; D 171968 12;
   D 182323 12; D 192242 12; D 201703 12; D 210694 12; D 219212 12; D 227258 12; D 234827 12; D 241919 12; D 248542 12; D 254702 12; D 2604 14;
   D 265644 12; D 270442 12; D 274802 12; D 278732 12; D 282241 12; D 28534 13; D 288042 12; D 29036 13; D 29231 13; D 293907 12; D 295163 12;
   D 296091 12; D 296703 12; D 297009 12; D 297017 12; D 296735 12; D 296169 12; D 295323 12; D 294203 12; D 292813 12; D 291156 12; D 289235 12;
   D 287054 12; D 284615 12; D 281921 12; D 278975 12; D 275779 12; D 272337 12; D 268651 12; D 264725 12; D 260562 12; D 256166 12; D 251543 12;
   D 246698 12; D 241637 12; D 236365 12; D 230889 12; D 225216 12; D 219352 12; D 213304 12; D 207081 12; D 200691 12; D 194144 12; D 187449 12;
   D 18062 13; D 173671 12; D 166616 12; D 159473 12; D 152261 12; D 145004 12; D 137725 12; D 130453 12; D 12322 13; D 11606 13; D 109015 12;
   D 102128 12; D 954503 11; D 890372 11; D 829511 11; D 772615 11; D 720456 11; D 673888 11; D 63386 12; D 601422 11; D 577734 11; D 564078 11];
  [D 11552 9; D 100588 9; D 504836 9; D 161164 10; D 383285 10; D 752261 10; D 129304 11; D 201839 11; D 292589 11; D 400475 11; D 523647 11;
   D 659622 11; D 805802 11; D 959553 11; D 111833 12; D 127982 12; D 144198 12; D 160305 12; D 176156 12; D 191636 12; D 206658 12; D 221149 12;
   D 235075 12; D 248402 12; D 2611 14; D 273157 12; D 284574 12; D 295343 12; D 305464 12; D 314944 12; D 323793 12; D 332012 12; D 339614 12;
   D 346608 12; D 353009 12; D 358826 12; D 364073 12; D 368768 12; D 372928 12; D 376576 12; D 379732 12; D 38242 13; D 384659 12; D 386468 12;
   D 387864 12; D 388862 12; D 389473 12; D 389707 12; D 389575 12; D 389082 12; D 388235 12; D 38704 13; D 385501 12; D 383622 12; D 381407 12;
   D 378859 12; D 375983 12; D 37278 13; D 369256 12; D 36541 13; D 361248 12; D 356773 12; D 35199 13; D 346903 12; D 341519 12; D 335842 12;
   D 32988 13; D 323637 12; D 317119 12; D 31033 13; D 303277 12; D 295965 12; D 288399 12; D 280587 12; D 272537 12; D 264258 12; D 25576 13;
   D 247056 12; D 238158 12; D 229084 12; D 219851 12; D 210481 12; D 200997 12; D 191428 12; D 181807 12; D 172169 12; D 162557 12; D 153018 12;
   D 143607 12; D 134383 12; D 125417 12; D 116784 12; D 108572 12; D 100877 12; D 938067 11; D 874816 11; D 820361 11; D 776197 11; D 743986 11;
   D 725575 11];
  [D 16768 9; D 15227 10; D 777978 9; D 246877 10; D 581893 10; D 113194 11; D 192898 11; D 29845 12; D 428958 11; D 582445 11; D 75567 12; D 944906 11;
   D 114631 12; D 135613 12; D 157083 12; D 178734 12; D 200301 12; D 221558 12; D 242334 12; D 262498 12; D 281945 12; D 300622 12; D 318483 12;
   D 335485 12; D 351615 12; D 366875 12; D 381254 12; D 394754 12; D 40739 13; D 419172 12; D 430108 12; D 440216 12; D 449513 12; D 458018 12;
   D 465748 12; D 472727 12; D 478983 12; D 484546 12; D 48945 13; D 493727 12; D 497409 12; D 500523 12; D 503094 12; D 505145 12; D 506692 12;
   D 507752 12; D 508336 12; D 508455 12; D 508119 12; D 507336 12; D 506112 12; D 504452 12; D 502362 12; D 499847 12; D 496911 12; D 49356 13;
   D 489795 12; D 485621 12; D 481043 12; D 476065 12; D 470695 12; D 464938 12; D 458801 12; D 452292 12; D 445414 12; D 438172 12; D 430571 12;
   D 422614 12; D 414303 12; D 405643 12; D 396636 12; D 387288 12; D 377603 12; D 367588 12; D 357249 12; D 346596 12; D 335639 12; D 32439 13;
   D 312865 12; D 301082 12; D 289062 12; D 276832 12; D 264423 12; D 251869 12; D 239213 12; D 226504 12; D 213795 12; D 201152 12; D 188647 12;
   D 17636 13; D 164386 12; D 152829 12; D 141807 12; D 131454 12; D 12192 13; D 113372 12; D 106001 12; D 100017 12; D 956578 11; D 931875 11];
  [D 24193 9; D 229994 9; D 118608 10; D 374001 10; D 873985 10; D 168462 11; D 284607 11; D 436446 11; D 622103 11; D 837987 11; D 107894 12;
   D 133948 12; D 161406 12; D 189742 12; D 218486 12; D 247232 12; D 275643 12; D 303447 12; D 330451 12; D 356495 12; D 381499 12; D 405395 12;
   D 428124 12; D 449668 12; D 47003 13; D 489195 12; D 507172 12; D 523984 12; D 539639 12; D 554159 12; D 567569 12; D 579896 12; D 591164 12;
   D 601406 12; D 610661 12; D 618973 12; D 626387 12; D 632957 12; D 638726 12; D 643739 12; D 648032 12; D 651639 12; D 654588 12; D 656901 12;
   D 658596 12; D 659691 12; D 6602 14; D 660133 12; D 659501 12; D 658313 12; D 656576 12; D 654298 12; D 651488 12; D 648147 12; D 644282 12;
   D 639901 12; D 63501 13; D 629617 12; D 623732 12; D 617364 12; D 610521 12; D 60321 13; D 595436 12; D 587202 12; D 578511 12; D 569364 12;
   D 559761 12; D 549703 12; D 53919 13; D 528223 12; D 516804 12; D 504933 12; D 492614 12; D 479849 12; D 466644 12; D 453006 12; D 438945 12;
   D 424474 12; D 40961 13; D 394375 12; D 378794 12; D 362902 12; D 346736 12; D 330343 12; D 313777 12; D 297099 12; D 280382 12; D 263709 12;
   D 247175 12; D 230888 12; D 214974 12; D 199574 12; D 184848 12; D 170982 12; D 15818 13; D 14668 13; D 136744 12; D 128671 12; D 122795 12;
   D 119493 12];
  [D 34695 9; D 346093 9; D 17936 11; D 561166 10; D 129931 11; D 248244 11; D 415689 11; D 631889 11; D 893364 11; D 11939 13; D 152579 12;
   D 188104 12; D 225184 12; D 263103 12; D 301243 12; D 33908 13; D 376199 12; D 412293 12; D 447121 12; D 480552 12; D 51249 13; D 542847 12;
   D 571597 12; D 598742 12; D 624265 12; D 648181 12; D 670523 12; D 691304 12; D 710558 12; D 728322 12; D 744638 12; D 759543 12; D 773089 12;
   D 785337 12; D 796353 12; D 806211 12; D 814982 12; D 82273 13; D 829514 12; D 835384 12; D 840383 12; D 844547 12; D 847905 12; D 850481 12;
   D 8523 14; D 853376 12; D 853726 12; D 853364 12; D 852302 12; D 850552 12; D 848126 12; D 845028 12; D 841271 12; D 836864 12; D 83182 13;
   D 826151 12; D 819872 12; D 812996 12; D 805534 12; D 797495 12; D 788885 12; D 779704 12; D 769954 12; D 759635 12; D 748743 12; D 737276 12;
   D 725231 12; D 712604 12; D 69939 13; D 685585 12; D 671185 12; D 656186 12; D 640585 12; D 624382 12; D 60758 13; D 590185 12; D 572205 12;
   D 553657 12; D 534561 12; D 514942 12; D 494834 12; D 474276 12; D 453316 12; D 43201 13; D 410427 12; D 388643 12; D 366751 12; D 344858 12;
   D 323088 12; D 301587 12; D 28052 13; D 260079 12; D 240483 12; D 221983 12; D 204865 12; D 189452 12; D 176113 12; D 165264 12; D 157375 12;
   D 152977 12];
  [D 494579 8; D 517237 9; D 268633 10; D 83411 11; D 191417 11; D 362469 11; D 601551 11; D 906586 11; D 127142 12; D 168599 12; D 213908 12;
   D 261927 12; D 311575 12; D 361905 12; D 412112 12; D 461536 12; D 509698 12; D 556222 12; D 600883 12; D 643547 12; D 68408 13; D 722435 12;
   D 758616 12; D 792599 12; D 824409 12; D 854091 12; D 881666 12; D 907186 12; D 930708 12; D 952287 12; D 971984 12; D 989881 12; D 100607 13;
   D 102065 13; D 103373 13; D 10454 14; D 105577 13; D 10649 14; D 107286 13; D 107972 13; D 108551 13; D 109028 13; D 109406 13; D 109687 13;
   D 109875 13; D 109971 13; D 109977 13; D 109896 13; D 109728 13; D 109476 13; D 10914 14; D 108723 13; D 108227 13; D 107652 13; D 107003 13;
   D 106281 13; D 105487 13; D 104622 13; D 103688 13; D 102684 13; D 101611 13; D 100468 13; D 992543 12; D 979701 12; D 966143 12; D 951858 12;
   D 936836 12; D 921064 12; D 904529 12; D 887219 12; D 869122 12; D 850228 12; D 830529 12; D 810023 12; D 788709 12; D 766595 12; D 74369 13;
   D 720012 12; D 695583 12; D 670431 12; D 644594 12; D 618117 12; D 591055 12; D 563477 12; D 535463 12; D 507114 12; D 478547 12; D 4499 14;
   D 421338 12; D 393052 12; D 365263 12; D 33823 13; D 312249 12; D 287661 12; D 264857 12; D 244284 12; D 226448 12; D 211928 12; D 201378 12;
   D 195541 12];
  [D 700942 8; D 767756 9; D 399369 10; D 122972 11; D 279603 11; D 524808 11; D 863196 11; D 129001 12; D 179466 12; D 236185 12; D 297544 12;
   D 36194 13; D 427916 12; D 494231 12; D 559854 12; D 623994 12; D 686086 12; D 745719 12; D 802699 12; D 856827 12; D 908009 12; D 956249 12;
   D 100152 13; D 104384 13; D 108329 13; D 11199 14; D 115373 13; D 118488 13; D 121342 13; D 123945 13; D 126309 13; D 128447 13; D 130375 13;
   D 132107 13; D 133658 13; D 13504 14; D 136263 13; D 137337 13; D 138269 13; D 139064 13; D 139729 13; D 140269 13; D 140685 13; D 140984 13;
   D 141166 13; D 141235 13; D 141195 13; D 141046 13; D 140793 13; D 140436 13; D 13998 14; D 139427 13; D 138782 13; D 138047 13; D 137226 13;
   D 136319 13; D 135327 13; D 134252 13; D 133093 13; D 13185 14; D 130522 13; D 129108 13; D 127608 13; D 126018 13; D 124339 13; D 122567 13;
   D 1207 15; D 118735 13; D 116671 13; D 114505 13; D 112236 13; D 109862 13; D 107381 13; D 104794 13; D 102101 13; D 993008 12; D 96395 13;
   D 933849 12; D 902724 12; D 870603 12; D 837523 12; D 803536 12; D 768706 12; D 733116 12; D 696868 12; D 660085 12; D 62292 13; D 585553 12;
   D 548198 12; D 511108 12; D 47458 13; D 438958 12; D 404642 12; D 372091 12; D 341836 12; D 314482 12; D 290727 12; D 271366 12; D 257306 12;
   D 249582 12];
  [D 98793 9; D 11359 11; D 589401 10; D 179872 11; D 405269 11; D 753996 11; D 122909 12; D 182173 12; D 251433 12; D 328457 12; D 410943 12;
   D 496689 12; D 583769 12; D 670571 12; D 755812 12; D 838575 12; D 918182 12; D 994279 12; D 106659 13; D 113493 13; D 11993 14; D 125965 13;
   D 131602 13; D 13685 14; D 141714 13; D 146205 13; D 150333 13; D 154112 13; D 157554 13; D 160678 13; D 163502 13; D 16605 14; D 168343 13;
   D 170399 13; D 172236 13; D 173868 13; D 175308 13; D 176564 13; D 177647 13; D 178562 13; D 179317 13; D 179915 13; D 180363 13; D 180665 13;
   D 180825 13; D 180846 13; D 180732 13; D 180488 13; D 180118 13; D 179628 13; D 179023 13; D 178308 13; D 177487 13; D 176562 13; D 175536 13;
   D 17441 14; D 173183 13; D 171856 13; D 170428 13; D 168899 13; D 167265 13; D 165526 13; D 163678 13; D 161718 13; D 159642 13; D 157448 13;
   D 155131 13; D 152687 13; D 150115 13; D 147411 13; D 144573 13; D 141599 13; D 138487 13; D 135237 13; D 131846 13; D 128314 13; D 12464 14;
   D 120825 13; D 116871 13; D 11278 14; D 108555 13; D 104203 13; D 997314 12; D 951499 12; D 904715 12; D 85712 13; D 808909 12; D 760318 12;
   D 711627 12; D 663169 12; D 615332 12; D 568571 12; D 523416 12; D 480483 12; D 440484 12; D 404243 12; D 37271 13; D 346975 12; D 328292 12;
   D 318094 12];
  [D 138517 9; D 16718 11; D 86335 11; D 261252 11; D 583272 11; D 107546 12; D 173775 12; D 255472 12; D 349861 12; D 453744 12; D 563894 12;
   D 677344 12; D 791571 12; D 904519 12; D 101466 13; D 112088 13; D 122252 13; D 131917 13; D 141052 13; D 149649 13; D 157706 13; D 165224 13;
   D 172215 13; D 178688 13; D 184656 13; D 190137 13; D 195146 13; D 199703 13; D 203835 13; D 20757 14; D 210938 13; D 213971 13; D 216694 13;
   D 219132 13; D 221303 13; D 223226 13; D 224911 13; D 226373 13; D 227619 13; D 228659 13; D 2295 15; D 230149 13; D 230613 13; D 230897 13;
   D 231008 13; D 230951 13; D 230733 13; D 230362 13; D 229847 13; D 229196 13; D 228414 13; D 227506 13; D 226477 13; D 225327 13; D 224058 13;
   D 22267 14; D 221164 13; D 219537 13; D 217788 13; D 215914 13; D 213912 13; D 211777 13; D 209503 13; D 207088 13; D 204524 13; D 201808 13;
   D 198936 13; D 195903 13; D 192705 13; D 18934 14; D 185804 13; D 182093 13; D 178203 13; D 174131 13; D 169874 13; D 165429 13; D 160795 13;
   D 15597 14; D 150956 13; D 145754 13; D 140369 13; D 134808 13; D 129079 13; D 123196 13; D 117174 13; D 111034 13; D 104801 13; D 985044 12;
   D 921804 12; D 858715 12; D 796282 12; D 735103 12; D 675878 12; D 619428 12; D 566712 12; D 518844 12; D 477113 12; D 44301 13; D 418251 12;
   D 404808 12];
  [D 193769 9; D 24445 11; D 125723 11; D 376914 11; D 833867 11; D 152376 12; D 244106 12; D 355965 12; D 483781 12; D 623016 12; D 76922 13;
   D 918457 12; D 106746 13; D 121367 13; D 135529 13; D 149103 13; D 162028 13; D 17425 14; D 185748 13; D 196521 13; D 206564 13; D 215895 13;
   D 224525 13; D 232473 13; D 239762 13; D 246416 13; D 252463 13; D 257938 13; D 262881 13; D 267339 13; D 271351 13; D 274957 13; D 278188 13;
   D 281072 13; D 283631 13; D 285882 13; D 287843 13; D 289527 13; D 290944 13; D 292107 13; D 293025 13; D 293707 13; D 294161 13; D 294398 13;
   D 294426 13; D 294257 13; D 293903 13; D 293377 13; D 292688 13; D 291846 13; D 290855 13; D 289719 13; D 288442 13; D 287024 13; D 285466 13;
   D 283768 13; D 281928 13; D 279941 13; D 277805 13; D 275512 13; D 273058 13; D 270436 13; D 267639 13; D 264661 13; D 261497 13; D 258142 13;
   D 254591 13; D 250837 13; D 246877 13; D 242703 13; D 23831 14; D 23369 14; D 228837 13; D 223745 13; D 218409 13; D 212822 13; D 206983 13;
   D 200888 13; D 194538 13; D 187935 13; D 181084 13; D 173992 13; D 166673 13; D 159141 13; D 151415 13; D 143521 13; D 135488 13; D 127355 13;
   D 119165 13; D 110975 13; D 10285 14; D 948677 12; D 871213 12; D 797203 12; D 727928 12; D 664889 12; D 609829 12; D 56477 13; D 532048 12;
   D 514358 12];
  [D 271486 9; D 355599 10; D 18191 12; D 540434 11; D 118494 12; D 214571 12; D 340847 12; D 493059 12; D 665125 12; D 850676 12; D 104367 13;
   D 123896 13; D 143235 13; D 162077 13; D 180204 13; D 197491 13; D 213861 13; D 229262 13; D 243688 13; D 257132 13; D 26961 14; D 281142 13;
   D 291751 13; D 30147 14; D 31033 14; D 318371 13; D 325642 13; D 332199 13; D 338105 13; D 34342 14; D 348196 13; D 352477 13; D 356303 13;
   D 359702 13; D 362701 13; D 365322 13; D 367582 13; D 369499 13; D 371088 13; D 372363 13; D 373336 13; D 374021 13; D 374431 13; D 374583 13;
   D 374494 13; D 374182 13; D 373663 13; D 372952 13; D 372058 13; D 370988 13; D 369748 13; D 368341 13; D 366769 13; D 365033 13; D 363131 13;
   D 361061 13; D 358816 13; D 356391 13; D 353778 13; D 35097 14; D 347958 13; D 344735 13; D 341294 13; D 33763 14; D 333735 13; D 329603 13;
   D 325226 13; D 320596 13; D 315702 13; D 310535 13; D 305083 13; D 299337 13; D 293287 13; D 286922 13; D 280235 13; D 273218 13; D 265866 13;
   D 258175 13; D 250147 13; D 241783 13; D 233089 13; D 224075 13; D 214751 13; D 205136 13; D 195253 13; D 185129 13; D 174804 13; D 164322 13;
   D 153742 13; D 143134 13; D 132585 13; D 122196 13; D 112091 13; D 102415 13; D 93338 13; D 850616 12; D 778197 12; D 718847 12; D 675725 12;
   D 652484 12];
  [D 380411 9; D 515279 10; D 261708 11; D 770446 11; D 167409 12; D 300426 12; D 47328 13; D 679237 12; D 909618 12; D 115559 13; D 140908 13;
   D 16634 14; D 191329 13; D 215509 13; D 238629 13; D 26057 14; D 281228 13; D 300578 13; D 318611 13; D 335335 13; D 350784 13; D 364982 13;
   D 377973 13; D 389806 13; D 400529 13; D 410211 13; D 418929 13; D 426772 13; D 433823 13; D 440154 13; D 445831 13; D 450904 13; D 455417 13;
   D 459404 13; D 462897 13; D 46592 14; D 468498 13; D 47065 14; D 472399 13; D 473761 13; D 474756 13; D 475404 13; D 475732 13; D 475764 13;
   D 475527 13; D 475042 13; D 474327 13; D 473394 13; D 472254 13; D 470912 13; D 469375 13; D 467645 13; D 465722 13; D 463604 13; D 461285 13;
   D 458759 13; D 456017 13; D 453049 13; D 449846 13; D 446399 13; D 442701 13; D 438745 13; D 434523 13; D 430027 13; D 425246 13; D 42017 14;
   D 414786 13; D 409078 13; D 403033 13; D 396635 13; D 389869 13; D 38272 14; D 375174 13; D 367218 13; D 358841 13; D 350034 13; D 340791 13;
   D 331109 13; D 320985 13; D 31042 14; D 299419 13; D 287987 13; D 276138 13; D 263891 13; D 25127 14; D 238311 13; D 225061 13; D 211578 13;
   D 197937 13; D 184228 13; D 170563 13; D 157076 13; D 14393 14; D 131316 13; D 11946 14; D 108629 13; D 991343 12; D 913412 12; D 856737 12;
   D 826242 12];
  [D 532477 9; D 742926 10; D 374599 11; D 109241 12; D 235265 12; D 418426 12; D 653768 12; D 931007 12; D 123793 13; D 156242 13; D 189385 13;
   D 22236 14; D 254523 13; D 285435 13; D 314839 13; D 342585 13; D 368581 13; D 392818 13; D 415289 13; D 436034 13; D 455089 13; D 472508 13;
   D 488358 13; D 502704 13; D 515637 13; D 527264 13; D 537705 13; D 547078 13; D 555487 13; D 563021 13; D 569755 13; D 575745 13; D 581044 13;
   D 585693 13; D 589727 13; D 593179 13; D 596081 13; D 598456 13; D 600336 13; D 601746 13; D 602719 13; D 603291 13; D 603501 13; D 603382 13;
   D 602966 13; D 602273 13; D 60132 14; D 60012 14; D 598684 13; D 597019 13; D 595127 13; D 593008 13; D 590658 13; D 58807 14; D 585235 13;
   D 582141 13; D 578777 13; D 575134 13; D 571203 13; D 566977 13; D 562447 13; D 557604 13; D 552437 13; D 546931 13; D 54107 14; D 534835 13;
   D 528207 13; D 521166 13; D 51369 14; D 505759 13; D 497353 13; D 488451 13; D 479037 13; D 469096 13; D 458617 13; D 447586 13; D 435995 13;
   D 423835 13; D 411097 13; D 397779 13; D 383879 13; D 369404 13; D 354363 13; D 33878 14; D 322684 13; D 306118 13; D 289141 13; D 271827 13;
   D 254271 13; D 236593 13; D 218936 13; D 201477 13; D 184425 13; D 168031 13; D 152592 13; D 138461 13; D 126052 13; D 115849 13; D 108419 13;
   D 104422 13];
  [D 74395 10; D 106527 11; D 53331 12; D 154132 12; D 328952 12; D 579932 12; D 898737 12; D 127016 13; D 167715 13; D 210335 13; D 253486 13;
   D 296073 13; D 337321 13; D 376715 13; D 414 16; D 448982 13; D 481613 13; D 511877 13; D 539803 13; D 56545 14; D 588878 13; D 610177 13;
   D 629438 13; D 646775 13; D 662332 13; D 676276 13; D 68877 14; D 699963 13; D 709982 13; D 71893 14; D 726891 13; D 733936 13; D 740122 13;
   D 745499 13; D 750113 13; D 754007 13; D 757221 13; D 75979 14; D 761757 13; D 763169 13; D 764078 13; D 764539 13; D 764598 13; D 764295 13;
   D 763658 13; D 76271 14; D 761468 13; D 759948 13; D 758157 13; D 7561 15; D 753775 13; D 751177 13; D 748295 13; D 745117 13; D 74163 14;
   D 737824 13; D 733689 13; D 729217 13; D 724402 13; D 719232 13; D 713696 13; D 707777 13; D 701456 13; D 694709 13; D 687512 13; D 67984 14;
   D 671665 13; D 662959 13; D 653696 13; D 643848 13; D 633394 13; D 622312 13; D 610583 13; D 598188 13; D 585107 13; D 57132 14; D 55681 14;
   D 541556 13; D 525545 13; D 508766 13; D 491214 13; D 472891 13; D 453812 13; D 433998 13; D 413488 13; D 392337 13; D 370617 13; D 348426 13;
   D 325884 13; D 303144 13; D 28039 14; D 257847 13; D 235789 13; D 214542 13; D 194496 13; D 176115 13; D 159944 13; D 146626 13; D 136912 13;
   D 131675 13];
  [D 103693 10; D 152163 11; D 7559 13; D 216434 12; D 457799 12; D 800113 12; D 122996 13; D 172536 13; D 226274 13; D 282026 13; D 337991 13;
   D 392798 13; D 445523 13; D 495598 13; D 542729 13; D 586727 13; D 627577 13; D 665266 13; D 699879 13; D 731487 13; D 760204 13; D 786155 13;
   D 809484 13; D 830382 13; D 84907 14; D 865778 13; D 880719 13; D 894074 13; D 905991 13; D 916588 13; D 925964 13; D 934202 13; D 941371 13;
   D 947535 13; D 952756 13; D 957084 13; D 960576 13; D 96329 14; D 965294 13; D 966664 13; D 967475 13; D 96779 14; D 967661 13; D 967125 13;
   D 966215 13; D 964955 13; D 963364 13; D 961454 13; D 959229 13; D 956686 13; D 953817 13; D 95061 14; D 947049 13; D 943122 13; D 938818 13;
   D 934131 13; D 929054 13; D 923578 13; D 917691 13; D 911377 13; D 90461 14; D 897366 13; D 889615 13; D 881324 13; D 872459 13; D 862987 13;
   D 852872 13; D 842081 13; D 830585 13; D 818356 13; D 80537 14; D 791598 13; D 777011 13; D 761579 13; D 745269 13; D 728047 13; D 709882 13;
   D 690746 13; D 670614 13; D 649469 13; D 627301 13; D 604112 13; D 579915 13; D 55474 14; D 528636 13; D 501671 13; D 473937 13; D 445554 13;
   D 416673 13; D 387486 13; D 358228 13; D 32919 14; D 300726 13; D 273262 13; D 247307 13; D 223469 13; D 202464 13; D 185136 13; D 172472 13;
   D 16562 14];
  [D 144136 10; D 216555 11; D 106671 12; D 302622 12; D 63429 13; D 109918 13; D 167624 13; D 233426 13; D 3041 15; D 376757 13; D 449085 13;
   D 5194 15; D 586594 13; D 650087 13; D 709506 13; D 764727 13; D 815723 13; D 862556 13; D 90533 14; D 944176 13; D 979268 13; D 101078 14;
   D 103897 14; D 106412 14; D 108654 14; D 110656 14; D 112441 14; D 114032 14; D 115446 14; D 116696 14; D 117795 14; D 118752 14; D 119576 14;
   D 120276 14; D 120858 14; D 121331 14; D 121703 14; D 121983 14; D 122183 14; D 122312 14; D 12238 15; D 122392 14; D 122355 14; D 122272 14;
   D 122147 14; D 121983 14; D 121781 14; D 121542 14; D 121264 14; D 120947 14; D 12059 15; D 120191 14; D 119748 14; D 119262 14; D 118731 14;
   D 118155 14; D 117532 14; D 116863 14; D 116143 14; D 11537 15; D 11454 15; D 11365 15; D 112696 14; D 111672 14; D 110576 14; D 109402 14;
   D 108148 14; D 106809 14; D 105383 14; D 103867 14; D 102256 14; D 100547 14; D 987333 13; D 968115 13; D 947762 13; D 926227 13; D 903462 13;
   D 879428 13; D 85409 14; D 827424 13; D 799417 13; D 770071 13; D 739405 13; D 707455 13; D 674278 13; D 639956 13; D 604598 13; D 568353 13;
   D 53141 14; D 494012 13; D 456463 13; D 419138 13; D 382496 13; D 34709 14; D 313585 13; D 282773 13; D 255587 13; D 233125 13; D 216671 13;
   D 207717 13];
  [D 200128 10; D 306895 11; D 149873 12; D 421348 12; D 875214 12; D 150398 13; D 227555 13; D 314625 13; D 407229 13; D 501589 13; D 594761 13;
   D 684707 13; D 770141 13; D 850437 13; D 925185 13; D 994329 13; D 105785 14; D 11159 15; D 116862 14; D 121623 14; D 125898 14; D 129716 14;
   D 133114 14; D 136138 14; D 138828 14; D 141223 14; D 143354 14; D 145246 14; D 146918 14; D 148387 14; D 149666 14; D 150769 14; D 151708 14;
   D 152491 14; D 153131 14; D 153638 14; D 154027 14; D 154312 14; D 154507 14; D 154625 14; D 154674 14; D 154661 14; D 154593 14; D 154474 14;
   D 154307 14; D 154095 14; D 153838 14; D 153535 14; D 153186 14; D 152788 14; D 152339 14; D 151839 14; D 151288 14; D 150686 14; D 150032 14;
   D 149325 14; D 148563 14; D 147741 14; D 146858 14; D 145907 14; D 144884 14; D 143784 14; D 142602 14; D 141332 14; D 139971 14; D 138515 14;
   D 13696 15; D 135302 14; D 133536 14; D 131657 14; D 129658 14; D 127533 14; D 125275 14; D 122877 14; D 120332 14; D 117634 14; D 114775 14;
   D 111752 14; D 108559 14; D 105195 14; D 101657 14; D 979456 13; D 940626 13; D 900115 13; D 857986 13; D 814335 13; D 769298 13; D 723058 13;
   D 675858 13; D 62801 14; D 579907 13; D 532033 13; D 484984 13; D 439478 13; D 396376 13; D 356699 13; D 321653 13; D 292653 13; D 271352 13;
   D 25967 14];
  [D 278232 10; D 433044 11; D 2098 14; D 584429 12; D 120297 13; D 20501 14; D 307792 13; D 422585 13; D 543512 13; D 66567 14; D 785343 13;
   D 900087 13; D 100848 14; D 110978 14; D 120364 14; D 129001 14; D 136897 14; D 144074 14; D 150556 14; D 156376 14; D 161569 14; D 166184 14;
   D 170278 14; D 173911 14; D 177137 14; D 180001 14; D 18254 15; D 184782 14; D 186752 14; D 188468 14; D 189948 14; D 191208 14; D 192264 14;
   D 19313 15; D 193821 14; D 194357 14; D 194758 14; D 195043 14; D 19523 15; D 19533 15; D 195353 14; D 195307 14; D 195199 14; D 195034 14;
   D 194814 14; D 194539 14; D 194209 14; D 193823 14; D 193377 14; D 192872 14; D 192306 14; D 191681 14; D 190997 14; D 190253 14; D 189448 14;
   D 188578 14; D 187639 14; D 186626 14; D 185534 14; D 184356 14; D 183086 14; D 181718 14; D 180248 14; D 17867 15; D 17698 15; D 175175 14;
   D 173248 14; D 171194 14; D 169004 14; D 16667 15; D 164184 14; D 161535 14; D 158715 14; D 155713 14; D 152522 14; D 149132 14; D 145536 14;
   D 141728 14; D 137704 14; D 133459 14; D 128991 14; D 124298 14; D 119381 14; D 114244 14; D 108895 14; D 103344 14; D 976094 13; D 917143 13;
   D 856903 13; D 795776 13; D 734273 13; D 673023 13; D 612792 13; D 554504 13; D 499263 13; D 448377 13; D 403391 13; D 366111 13; D 338645 13;
   D 323434 13];
  [D 386859 10; D 609216 11; D 292579 12; D 807604 12; D 164749 13; D 278462 13; D 414899 13; D 565735 13; D 723155 13; D 880822 13; D 103414 14;
   D 118017 14; D 13174 15; D 144494 14; D 156256 14; D 167022 14; D 176818 14; D 18567 15; D 193621 14; D 200715 14; D 20701 15; D 212581 14;
   D 217509 14; D 221873 14; D 225738 14; D 229159 14; D 232176 14; D 234825 14; D 237134 14; D 239126 14; D 240825 14; D 24225 15; D 243423 14;
   D 244365 14; D 245101 14; D 245661 14; D 24607 15; D 246352 14; D 246523 14; D 246597 14; D 246585 14; D 246496 14; D 246337 14; D 246111 14;
   D 245818 14; D 245459 14; D 24503 15; D 24453 15; D 243958 14; D 243316 14; D 242604 14; D 241824 14; D 240976 14; D 240055 14; D 239059 14;
   D 237982 14; D 236818 14; D 235558 14; D 234197 14; D 232726 14; D 23114 15; D 229433 14; D 227601 14; D 225639 14; D 223543 14; D 221304 14;
   D 218913 14; D 216362 14; D 213637 14; D 210727 14; D 207621 14; D 204306 14; D 200768 14; D 196998 14; D 192984 14; D 188717 14; D 184188 14;
   D 179389 14; D 174314 14; D 168954 14; D 163306 14; D 157366 14; D 151135 14; D 144616 14; D 137819 14; D 130759 14; D 123458 14; D 115948 14;
   D 108269 14; D 100475 14; D 926298 13; D 848155 13; D 771297 13; D 696905 13; D 626385 13; D 561406 13; D 503926 13; D 456231 13; D 420975 13;
   D 401217 13];
  [D 537448 10; D 854388 11; D 40655 13; D 111216 13; D 224858 13; D 37697 14; D 557491 13; D 755068 13; D 959389 13; D 116233 14; D 135827 14;
   D 154375 14; D 171711 14; D 18774 15; D 20245 15; D 215847 14; D 227972 14; D 238867 14; D 248595 14; D 257222 14; D 264841 14; D 27156 15;
   D 277491 14; D 28273 15; D 287357 14; D 291433 14; D 295009 14; D 298125 14; D 300815 14; D 303112 14; D 305043 14; D 306637 14; D 307922 14;
   D 308933 14; D 30971 15; D 310289 14; D 310702 14; D 310972 14; D 311118 14; D 311155 14; D 311096 14; D 31095 15; D 310722 14; D 310412 14;
   D 31002 15; D 309543 14; D 308979 14; D 308329 14; D 307596 14; D 306782 14; D 305889 14; D 304916 14; D 30386 15; D 302714 14; D 301472 14;
   D 300126 14; D 298667 14; D 297086 14; D 295376 14; D 29353 15; D 291543 14; D 289412 14; D 287131 14; D 284692 14; D 282086 14; D 2793 16;
   D 276321 14; D 273135 14; D 269727 14; D 26608 15; D 262179 14; D 258008 14; D 253554 14; D 248805 14; D 243747 14; D 238368 14; D 232656 14;
   D 2266 16; D 220186 14; D 213406 14; D 206252 14; D 198719 14; D 190808 14; D 182525 14; D 173882 14; D 1649 16; D 15561 15; D 146052 14; D 13628 15;
   D 126361 14; D 11638 15; D 10644 15; D 96665 14; D 872064 13; D 782426 13; D 699842 13; D 626773 13; D 566078 13; D 521051 13; D 495471 13];
  [D 745529 10; D 11941 13; D 563126 12; D 152648 13; D 305917 13; D 508725 13; D 74684 14; D 100488 14; D 126935 14; D 152992 14; D 177975 14;
   D 201491 14; D 223348 14; D 243462 14; D 261823 14; D 278465 14; D 293439 14; D 306821 14; D 318694 14; D 329167 14; D 338377 14; D 346479 14;
   D 353614 14; D 359899 14; D 365428 14; D 370274 14; D 374496 14; D 378143 14; D 381259 14; D 383885 14; D 386057 14; D 387816 14; D 389207 14;
   D 390284 14; D 391097 14; D 391691 14; D 392098 14; D 392345 14; D 392453 14; D 392439 14; D 392317 14; D 392091 14; D 391765 14; D 391337 14;
   D 390804 14; D 390165 14; D 389423 14; D 388581 14; D 387645 14; D 386617 14; D 385495 14; D 384274 14; D 382948 14; D 381507 14; D 379943 14;
   D 378243 14; D 376397 14; D 374398 14; D 372241 14; D 369921 14; D 367434 14; D 364772 14; D 361926 14; D 358883 14; D 355626 14; D 352139 14;
   D 348403 14; D 344399 14; D 340107 14; D 335508 14; D 330584 14; D 325319 14; D 319696 14; D 313699 14; D 307312 14; D 300515 14; D 293291 14;
   D 285622 14; D 277492 14; D 268888 14; D 2598 16; D 250225 14; D 240163 14; D 229625 14; D 21863 15; D 207205 14; D 195392 14; D 183244 14;
   D 170829 14; D 158233 14; D 145566 14; D 13296 15; D 120573 14; D 108598 14; D 97258 14; D 868176 13; D 775824 13; D 699045 13; D 64187 14;
   D 608886 13];
  [D 103213 11; D 166319 12; D 777465 12; D 208854 13; D 414929 13; D 684506 13; D 99768 14; D 133377 14; D 167521 14; D 200901 14; D 232689 14;
   D 262453 14; D 289962 14; D 315158 14; D 338038 14; D 358671 14; D 377131 14; D 393531 14; D 407993 14; D 420687 14; D 431815 14; D 441581 14;
   D 450159 14; D 457691 14; D 464285 14; D 470029 14; D 474992 14; D 479237 14; D 482821 14; D 485793 14; D 488209 14; D 490128 14; D 491621 14;
   D 492759 14; D 493604 14; D 494202 14; D 49459 15; D 494799 14; D 494853 14; D 494768 14; D 494554 14; D 494214 14; D 493747 14; D 49315 15;
   D 492422 14; D 491568 14; D 490597 14; D 489513 14; D 48832 15; D 487018 14; D 485598 14; D 484052 14; D 48237 15; D 480538 14; D 478543 14;
   D 476375 14; D 474026 14; D 471492 14; D 468769 14; D 465854 14; D 462735 14; D 4594 16; D 455831 14; D 452007 14; D 447908 14; D 44351 15;
   D 438788 14; D 433719 14; D 428281 14; D 422452 14; D 416214 14; D 409547 14; D 402427 14; D 394831 14; D 386734 14; D 378109 14; D 368932 14;
   D 35918 15; D 348833 14; D 337875 14; D 326297 14; D 314096 14; D 30128 15; D 287864 14; D 273874 14; D 259347 14; D 244337 14; D 228913 14;
   D 213165 14; D 197205 14; D 181174 14; D 165241 14; D 14961 15; D 134519 14; D 120251 14; D 107131 14; D 955327 13; D 858834 13; D 786684 13;
   D 744356 13];
  [D 142565 11; D 231072 12; D 107016 13; D 284907 13; D 561169 13; D 91846 14; D 132923 14; D 176585 14; D 220561 14; D 263233 14; D 303608 14;
   D 341209 14; D 375783 14; D 40729 15; D 435762 14; D 461291 14; D 484006 14; D 50406 15; D 521647 14; D 537019 14; D 55046 15; D 562228 14;
   D 572535 14; D 581546 14; D 589391 14; D 596173 14; D 601979 14; D 606891 14; D 610975 14; D 614307 14; D 616963 14; D 619037 14; D 62063 15;
   D 621825 14; D 622691 14; D 623279 14; D 623632 14; D 623782 14; D 623756 14; D 623567 14; D 623218 14; D 62271 15; D 622038 14; D 621205 14;
   D 620218 14; D 619088 14; D 617824 14; D 616431 14; D 614907 14; D 613243 14; D 611428 14; D 609448 14; D 607287 14; D 60493 15; D 602366 14;
   D 599588 14; D 596594 14; D 593382 14; D 589945 14; D 58627 15; D 58234 15; D 578131 14; D 573618 14; D 568774 14; D 563569 14; D 557974 14;
   D 551961 14; D 545504 14; D 538582 14; D 531168 14; D 523237 14; D 514759 14; D 505702 14; D 49603 15; D 485708 14; D 474704 14; D 462986 14;
   D 450526 14; D 437302 14; D 423299 14; D 408511 14; D 39294 15; D 376597 14; D 359505 14; D 341698 14; D 323229 14; D 304167 14; D 284608 14;
   D 264668 14; D 244497 14; D 224276 14; D 204221 14; D 184588 14; D 165677 14; D 147833 14; D 131451 14; D 116984 14; D 104941 14; D 958973 13;
   D 904952 13];
  [D 196599 11; D 320177 12; D 146904 13; D 387541 13; D 75687 14; D 122914 14; D 176651 14; D 233237 14; D 289751 14; D 344193 14; D 395396 14;
   D 442817 14; D 486209 14; D 525546 14; D 560916 14; D 592452 14; D 620348 14; D 644825 14; D 666183 14; D 68479 15; D 70102 15; D 715193 14;
   D 727564 14; D 738323 14; D 747628 14; D 755603 14; D 762358 14; D 767997 14; D 772612 14; D 776306 14; D 779201 14; D 781431 14; D 783119 14;
   D 784361 14; D 785231 14; D 785788 14; D 786081 14; D 786143 14; D 785997 14; D 78565 15; D 7851 16; D 784344 14; D 783387 14; D 782238 14;
   D 780914 14; D 77943 15; D 77779 15; D 775993 14; D 774028 14; D 77188 15; D 769531 14; D 766963 14; D 764157 14; D 761102 14; D 757794 14;
   D 754234 14; D 750421 14; D 746344 14; D 741987 14; D 737326 14; D 732331 14; D 72697 15; D 72121 15; D 715013 14; D 708345 14; D 701175 14;
   D 693473 14; D 685213 14; D 676365 14; D 666892 14; D 656755 14; D 645911 14; D 634314 14; D 621917 14; D 608678 14; D 594555 14; D 579511 14;
   D 563519 14; D 546558 14; D 528617 14; D 50969 15; D 489784 14; D 468917 14; D 447121 14; D 424447 14; D 400969 14; D 376785 14; D 352021 14;
   D 326836 14; D 301426 14; D 276022 14; D 250898 14; D 226375 14; D 202817 14; D 180645 14; D 160334 14; D 142418 14; D 127498 14; D 116241 14;
   D 109388 14];
  [D 271145 11; D 442373 12; D 201096 13; D 525746 13; D 101817 14; D 164081 14; D 234211 14; D 307381 14; D 379858 14; D 449186 14; D 514025 14;
   D 57374 15; D 628123 14; D 677166 14; D 721034 14; D 759924 14; D 794119 14; D 823948 14; D 849863 14; D 872379 14; D 891972 14; D 90903 15;
   D 923852 14; D 93667 15; D 947667 14; D 957001 14; D 964814 14; D 971233 14; D 976395 14; D 980453 14; D 983589 14; D 985973 14; D 987748 14;
   D 989019 14; D 989869 14; D 990367 14; D 990564 14; D 99049 15; D 990159 14; D 989571 14; D 988723 14; D 987619 14; D 986275 14; D 984715 14;
   D 982958 14; D 981014 14; D 978879 14; D 976539 14; D 973978 14; D 971171 14; D 968094 14; D 964728 14; D 961062 14; D 957097 14; D 952836 14;
   D 948277 14; D 943408 14; D 938205 14; D 932638 14; D 92667 15; D 920259 14; D 913362 14; D 905936 14; D 897939 14; D 889338 14; D 880101 14;
   D 870194 14; D 859577 14; D 848203 14; D 83602 15; D 822971 14; D 808996 14; D 794037 14; D 778038 14; D 760947 14; D 742719 14; D 723319 14;
   D 702721 14; D 680905 14; D 657858 14; D 63358 15; D 608085 14; D 581403 14; D 553586 14; D 524713 14; D 494888 14; D 46425 15; D 432973 14;
   D 401267 14; D 369386 14; D 337623 14; D 306321 14; D 27587 15; D 246715 14; D 219357 14; D 194357 14; D 172338 14; D 153992 14; D 140082 14;
   D 131446 14];
  [D 373763 11; D 609502 12; D 274581 13; D 711399 13; D 136628 14; D 21852 15; D 309833 14; D 404246 14; D 497019 14; D 585159 14; D 667144 14;
   D 742241 14; D 810297 14; D 871367 14; D 925682 14; D 973566 14; D 10154 16; D 105171 15; D 108314 15; D 111038 15; D 113402 15; D 115453 15;
   D 117226 15; D 118748 15; D 120043 15; D 12113 16; D 122026 15; D 122751 15; D 123323 15; D 123766 15; D 124104 15; D 124357 15; D 124542 15;
   D 124669 15; D 124748 15; D 124788 15; D 124792 15; D 124764 15; D 124702 15; D 124607 15; D 12448 16; D 124322 15; D 124137 15; D 123928 15;
   D 123696 15; D 12344 16; D 12316 16; D 122852 15; D 122514 15; D 122143 15; D 121736 15; D 121293 15; D 120814 15; D 120301 15; D 119752 15;
   D 119166 15; D 118541 15; D 117871 15; D 117152 15; D 11638 16; D 115548 15; D 114652 15; D 113687 15; D 112649 15; D 111534 15; D 110339 15;
   D 109057 15; D 107684 15; D 106211 15; D 104631 15; D 102937 15; D 101122 15; D 991788 14; D 971004 14; D 94882 15; D 925192 14; D 900084 14;
   D 873466 14; D 845318 14; D 815633 14; D 78442 15; D 751711 14; D 71756 15; D 682054 14; D 645311 14; D 607484 14; D 568768 14; D 529396 14;
   D 489644 14; D 449833 14; D 410332 14; D 371562 14; D 333997 14; D 298165 14; D 264655 14; D 234117 14; D 207265 14; D 18488 15; D 167817 14;
   D 157009 14];
  [D 514647 11; D 837945 12; D 374025 13; D 96029 14; D 182912 14; D 290371 14; D 409011 14; D 530592 14; D 649137 14; D 761021 14; D 864533 14;
   D 958869 14; D 104391 15; D 111985 15; D 118701 15; D 124586 15; D 129698 15; D 134112 15; D 137923 15; D 141218 15; D 144069 15; D 146531 15;
   D 148647 15; D 150449 15; D 151966 15; D 153224 15; D 154245 15; D 155056 15; D 155685 15; D 156166 15; D 156529 15; D 156795 15; D 156983 15;
   D 157106 15; D 157176 15; D 157199 15; D 157179 15; D 157116 15; D 157011 15; D 156865 15; D 156679 15; D 156459 15; D 156208 15; D 155929 15;
   D 155621 15; D 155282 15; D 15491 16; D 154501 15; D 15405 16; D 153555 15; D 153017 15; D 152435 15; D 151812 15; D 151146 15; D 150437 15;
   D 149679 15; D 148867 15; D 147996 15; D 147059 15; D 146049 15; D 144961 15; D 143788 15; D 142527 15; D 141173 15; D 139721 15; D 138164 15;
   D 136494 15; D 134702 15; D 132778 15; D 130712 15; D 128497 15; D 126122 15; D 123581 15; D 120867 15; D 117976 15; D 114901 15; D 11164 16;
   D 108189 15; D 104546 15; D 100713 15; D 966936 14; D 92493 15; D 881217 14; D 835935 14; D 78926 15; D 741414 14; D 692659 14; D 643302 14;
   D 593699 14; D 544253 14; D 495421 14; D 447713 14; D 401691 14; D 357975 14; D 317244 14; D 280232 14; D 247739 14; D 220633 14; D 199854 14;
   D 192275 14];
  [D 707555 11; D 114939 13; D 508258 13; D 129328 14; D 244328 14; D 385032 14; D 538857 14; D 695126 14; D 84635 15; D 988199 14; D 11187 16;
   D 123706 15; D 134321 15; D 14375 16; D 152041 15; D 159263 15; D 1655 17; D 170865 15; D 175485 15; D 179468 15; D 182904 15; D 185855 15;
   D 188373 15; D 190499 15; D 192268 15; D 193714 15; D 194867 15; D 195766 15; D 196455 15; D 196975 15; D 197361 15; D 197638 15; D 197825 15;
   D 197939 15; D 19799 16; D 197986 15; D 197927 15; D 197813 15; D 197644 15; D 197426 15; D 197163 15; D 196861 15; D 196524 15; D 196151 15;
   D 19574 16; D 195287 15; D 194788 15; D 194237 15; D 193633 15; D 192974 15; D 192263 15; D 191501 15; D 190689 15; D 189824 15; D 188899 15;
   D 187909 15; D 186846 15; D 185701 15; D 184466 15; D 183134 15; D 1817 17; D 180158 15; D 178504 15; D 176729 15; D 174825 15; D 172781 15;
   D 170585 15; D 168226 15; D 165691 15; D 16297 16; D 160051 15; D 156927 15; D 153589 15; D 150032 15; D 146248 15; D 142233 15; D 137982 15;
   D 133494 15; D 128769 15; D 123813 15; D 118632 15; D 113239 15; D 10765 16; D 101887 15; D 959759 14; D 899457 14; D 83832 15; D 776747 14;
   D 715188 14; D 654145 14; D 594172 14; D 535874 14; D 479906 14; D 426979 14; D 377851 14; D 33334 15; D 294322 14; D 271004 14; D 24509 15;
   D 22777 15];
  [D 971006 11; D 157281 13; D 689141 13; D 173789 14; D 325673 14; D 509524 14; D 708591 14; D 909089 14; D 11017 16; D 128131 15; D 144564 15;
   D 159396 15; D 172631 15; D 184321 15; D 194543 15; D 203392 15; D 210994 15; D 217513 15; D 223111 15; D 227926 15; D 23206 16; D 23559 16;
   D 238578 15; D 241075 15; D 243127 15; D 244776 15; D 246068 15; D 24706 16; D 24781 16; D 24837 16; D 248776 15; D 249057 15; D 249238 15;
   D 249333 15; D 249355 15; D 249305 15; D 249185 15; D 248995 15; D 248738 15; D 248424 15; D 248059 15; D 24765 16; D 247196 15; D 246695 15;
   D 246141 15; D 24553 16; D 244855 15; D 244112 15; D 243302 15; D 242427 15; D 241492 15; D 240495 15; D 239432 15; D 238298 15; D 237082 15;
   D 235775 15; D 234368 15; D 232848 15; D 23121 16; D 229445 15; D 227549 15; D 225514 15; D 223331 15; D 220987 15; D 218469 15; D 215762 15;
   D 21285 16; D 20972 16; D 206356 15; D 202747 15; D 198884 15; D 194756 15; D 190355 15; D 185674 15; D 180705 15; D 175443 15; D 169888 15;
   D 164039 15; D 157904 15; D 151492 15; D 14482 16; D 137908 15; D 130781 15; D 123471 15; D 116013 15; D 108446 15; D 100819 15; D 931806 14;
   D 855881 14; D 781022 14; D 707886 14; D 637173 14; D 569628 14; D 506039 14; D 447238 14; D 408287 14; D 360752 14; D 320799 14; D 289556 14;
   D 268256 14];
  [D 132987 12; D 214721 13; D 932436 13; D 233051 14; D 433225 14; D 672982 14; D 930118 14; D 118694 15; D 143191 15; D 165906 15; D 186576 15;
   D 205141 15; D 221621 15; D 236098 15; D 248682 15; D 25951 16; D 26877 16; D 276688 15; D 283472 15; D 289286 15; D 294253 15; D 298466 15;
   D 302 18; D 30492 16; D 307283 15; D 30915 16; D 310588 15; D 311677 15; D 312492 15; D 313088 15; D 313509 15; D 313789 15; D 313952 15;
   D 314016 15; D 313987 15; D 313866 15; D 313654 15; D 313356 15; D 31298 16; D 312539 15; D 312041 15; D 311487 15; D 310873 15; D 310195 15;
   D 309444 15; D 308613 15; D 307696 15; D 306695 15; D 305615 15; D 30446 16; D 303229 15; D 301918 15; D 300517 15; D 299016 15; D 297402 15;
   D 295662 15; D 293782 15; D 291754 15; D 289571 15; D 287225 15; D 284708 15; D 282006 15; D 279104 15; D 275983 15; D 272625 15; D 26901 16;
   D 265121 15; D 260939 15; D 256452 15; D 251648 15; D 246514 15; D 241041 15; D 235218 15; D 229036 15; D 222491 15; D 215581 15; D 208309 15;
   D 200683 15; D 19272 16; D 184438 15; D 175865 15; D 167032 15; D 157976 15; D 148742 15; D 139376 15; D 129933 15; D 120473 15; D 111058 15;
   D 101758 15; D 926434 14; D 837908 14; D 752787 14; D 671889 14; D 616986 14; D 545927 14; D 481653 14; D 425187 14; D 377629 14; D 340179 14;
   D 314153 14];
  [D 181795 12; D 292595 13; D 125898 14; D 311896 14; D 575184 14; D 887259 14; D 121884 15; D 15473 16; D 185845 15; D 214537 15; D 240513 15;
   D 26372 16; D 28422 16; D 302124 15; D 317593 15; D 330828 15; D 342104 15; D 35172 16; D 359937 15; D 366952 15; D 37291 16; D 377924 15;
   D 382087 15; D 385483 15; D 388187 15; D 390285 15; D 391877 15; D 393069 15; D 393948 15; D 394577 15; D 395005 15; D 395272 15; D 395402 15;
   D 395411 15; D 395301 15; D 395072 15; D 394728 15; D 394282 15; D 393749 15; D 393142 15; D 392463 15; D 391711 15; D 390877 15; D 389952 15;
   D 388926 15; D 387792 15; D 386551 15; D 385212 15; D 383779 15; D 382253 15; D 380627 15; D 378891 15; D 377029 15; D 375025 15; D 372862 15;
   D 370526 15; D 368004 15; D 365289 15; D 362373 15; D 359243 15; D 355882 15; D 352269 15; D 34838 16; D 344192 15; D 339679 15; D 33482 16;
   D 329594 15; D 323986 15; D 31798 16; D 311563 15; D 30472 16; D 29744 16; D 289712 15; D 28153 16; D 272896 15; D 263813 15; D 254297 15;
   D 244368 15; D 234053 15; D 223386 15; D 212408 15; D 201166 15; D 189712 15; D 178106 15; D 166413 15; D 154701 15; D 143045 15; D 131523 15;
   D 120213 15; D 1092 17; D 985656 14; D 913853 14; D 816373 14; D 725117 14; D 641032 14; D 565115 14; D 498434 14; D 442138 14; D 397488 14;
   D 365887 14];
  [D 248361 12; D 39795 14; D 169653 14; D 416617 14; D 762263 14; D 116774 15; D 159461 15; D 201409 15; D 240882 15; D 277084 15; D 309692 15;
   D 338676 15; D 364143 15; D 38626 16; D 40525 16; D 421413 15; D 435139 15; D 446817 15; D 456764 15; D 465216 15; D 472348 15; D 478297 15;
   D 483183 15; D 487108 15; D 49018 16; D 492523 15; D 494279 15; D 495579 15; D 496518 15; D 497171 15; D 497595 15; D 497832 15; D 497905 15;
   D 497823 15; D 497587 15; D 497199 15; D 496673 15; D 496031 15; D 495291 15; D 49446 16; D 493535 15; D 492508 15; D 491368 15; D 490099 15;
   D 488694 15; D 487153 15; D 485487 15; D 483703 15; D 481804 15; D 479781 15; D 477619 15; D 475301 15; D 472804 15; D 470107 15; D 467191 15;
   D 464043 15; D 460654 15; D 457013 15; D 453103 15; D 448902 15; D 444383 15; D 439514 15; D 434265 15; D 428606 15; D 422507 15; D 415947 15;
   D 408904 15; D 401362 15; D 393303 15; D 384707 15; D 375562 15; D 365855 15; D 355583 15; D 344746 15; D 333356 15; D 321433 15; D 309006 15;
   D 296113 15; D 282799 15; D 269115 15; D 255121 15; D 240885 15; D 226479 15; D 211982 15; D 197478 15; D 183053 15; D 168797 15; D 1548 17;
   D 141153 15; D 1321 17; D 119288 15; D 107068 15; D 955307 14; D 847689 14; D 748795 14; D 659639 14; D 581312 14; D 515001 14; D 462029 14;
   D 423888 14];
  [D 339033 12; D 540164 13; D 228189 14; D 555478 14; D 100842 15; D 153436 15; D 208307 15; D 261805 15; D 311828 15; D 357451 15; D 398346 15;
   D 43451 16; D 46611 16; D 493395 15; D 516681 15; D 536409 15; D 553115 15; D 567292 15; D 579325 15; D 589494 15; D 598011 15; D 605047 15;
   D 610752 15; D 615262 15; D 618728 15; D 621334 15; D 623264 15; D 624671 15; D 625665 15; D 62633 16; D 626731 15; D 626911 15; D 626886 15;
   D 62666 16; D 626234 15; D 625624 15; D 624855 15; D 623954 15; D 622936 15; D 621799 15; D 620535 15; D 619127 15; D 617559 15; D 615816 15;
   D 6139 17; D 611822 15; D 609597 15; D 607226 15; D 604701 15; D 602002 15; D 599107 15; D 595986 15; D 592613 15; D 588963 15; D 585021 15;
   D 580776 15; D 576214 15; D 571313 15; D 566043 15; D 560368 15; D 554249 15; D 547646 15; D 54052 16; D 532837 15; D 524568 15; D 515691 15;
   D 506181 15; D 496017 15; D 485176 15; D 473641 15; D 4614 17; D 44845 16; D 434796 15; D 420458 15; D 405465 15; D 389858 15; D 373687 15;
   D 357014 15; D 339906 15; D 32244 16; D 304702 15; D 286784 15; D 268783 15; D 250801 15; D 232942 15; D 21531 16; D 198007 15; D 181134 15;
   D 170314 15; D 154432 15; D 139229 15; D 124798 15; D 111227 15; D 986109 14; D 870433 14; D 76626 15; D 674682 14; D 596922 14; D 534361 14;
   D 488593 14];
  [D 462284 12; D 731759 13; D 30635 15; D 739314 14; D 133182 15; D 201293 15; D 271718 15; D 33986 16; D 403186 15; D 460629 15; D 511864 15;
   D 556942 15; D 596111 15; D 62973 16; D 658255 15; D 682324 15; D 702654 15; D 719859 15; D 734401 15; D 746615 15; D 756759 15; D 76505 16;
   D 771674 15; D 776823 15; D 780714 15; D 783601 15; D 785715 15; D 787226 15; D 788261 15; D 788918 15; D 789268 15; D 789346 15; D 789161 15;
   D 788716 15; D 788021 15; D 787109 15; D 786018 15; D 784772 15; D 783375 15; D 781819 15; D 780082 15; D 778144 15; D 775983 15; D 773599 15;
   D 771006 15; D 768224 15; D 765259 15; D 7621 17; D 758724 15; D 7551 17; D 751193 15; D 746965 15; D 742387 15; D 737439 15; D 732108 15;
   D 726376 15; D 720215 15; D 713585 15; D 706439 15; D 698726 15; D 690395 15; D 681395 15; D 671685 15; D 661231 15; D 650003 15; D 637973 15;
   D 625112 15; D 611392 15; D 596793 15; D 581303 15; D 56492 16; D 547659 15; D 529549 15; D 510633 15; D 490969 15; D 470625 15; D 449682 15;
   D 42823 16; D 406371 15; D 384214 15; D 361878 15; D 339483 15; D 317156 15; D 295022 15; D 273202 15; D 251815 15; D 238412 15; D 21808 16;
   D 198457 15; D 179638 15; D 161716 15; D 144776 15; D 128906 15; D 114193 15; D 100729 15; D 8861 16; D 779469 14; D 688641 14; D 615064 14;
   D 560449 14];
  [D 629471 12; D 989706 13; D 410561 14; D 982329 14; D 175614 15; D 263682 15; D 353945 15; D 440633 15; D 520724 15; D 592981 15; D 657108 15;
   D 713242 15; D 76174 16; D 803113 15; D 838028 15; D 867387 15; D 892124 15; D 912993 15; D 930545 15; D 945188 15; D 957235 15; D 966962 15;
   D 974613 15; D 980454 15; D 984803 15; D 987993 15; D 990293 15; D 991897 15; D 992954 15; D 993575 15; D 993826 15; D 993733 15; D 993299 15;
   D 992533 15; D 991468 15; D 990155 15; D 988635 15; D 986922 15; D 985007 15; D 982867 15; D 980474 15; D 977799 15; D 974834 15; D 971598 15;
   D 968116 15; D 964402 15; D 960446 15; D 956217 15; D 951675 15; D 946776 15; D 941471 15; D 935721 15; D 929501 15; D 922794 15; D 915579 15;
   D 907819 15; D 89946 16; D 890443 15; D 8807 17; D 870164 15; D 858773 15; D 846473 15; D 833226 15; D 818991 15; D 803734 15; D 787416 15;
   D 770004 15; D 751476 15; D 731819 15; D 711036 15; D 689153 15; D 666214 15; D 642281 15; D 617434 15; D 591767 15; D 565387 15; D 538416 15;
   D 510987 15; D 483243 15; D 455334 15; D 427416 15; D 399643 15; D 372168 15; D 345136 15; D 32853 16; D 302675 15; D 277592 15; D 25339 16;
   D 230165 15; D 208009 15; D 187005 15; D 167232 15; D 148767 15; D 131688 15; D 116081 15; D 102037 15; D 896656 14; D 790936 14; D 704741 14;
   D 639917 14];
  [D 855787 12; D 13364 15; D 549301 14; D 13031 16; D 231208 15; D 344916 15; D 46045 16; D 570608 15; D 671802 15; D 762624 15; D 842812 15;
   D 912642 15; D 972631 15; D 102349 16; D 10662 17; D 110201 16; D 11321 17; D 115739 16; D 117855 16; D 119606 16; D 121032 16; D 122168 16;
   D 123047 16; D 123706 16; D 124191 16; D 124542 16; D 12479 17; D 124958 16; D 125063 16; D 125116 16; D 125124 16; D 125087 16; D 125007 16;
   D 124885 16; D 124729 16; D 124544 16; D 124335 16; D 1241 18; D 123836 16; D 123541 16; D 123211 16; D 122843 16; D 122439 16; D 122003 16;
   D 121538 16; D 121042 16; D 120512 16; D 119942 16; D 119328 16; D 118662 16; D 117939 16; D 117156 16; D 116312 16; D 115402 16; D 114424 16;
   D 113369 16; D 112229 16; D 110997 16; D 109663 16; D 108219 16; D 106659 16; D 104977 16; D 103169 16; D 10123 17; D 99156 16; D 969419 15;
   D 945854 15; D 920853 15; D 894431 15; D 866624 15; D 837501 15; D 807149 15; D 775677 15; D 743214 15; D 709905 15; D 675911 15; D 641408 15;
   D 606585 15; D 571635 15; D 536755 15; D 502139 15; D 467974 15; D 434435 15; D 414474 15; D 382527 15; D 351578 15; D 321743 15; D 293123 15;
   D 265808 15; D 239874 15; D 21539 16; D 192422 15; D 171032 15; D 151286 15; D 133259 15; D 117038 15; D 102729 15; D 904632 14; D 804021 14;
   D 727473 14];
  [D 116152 13; D 18015 15; D 733714 14; D 172592 15; D 303959 15; D 450563 15; D 59826 16; D 738095 15; D 865835 15; D 979893 15; D 108009 16;
   D 116687 16; D 124098 16; D 130345 16; D 135567 16; D 139933 16; D 143593 16; D 146656 16; D 149203 16; D 151292 16; D 152974 16; D 154294 16;
   D 155297 16; D 156038 16; D 156576 16; D 15696 17; D 157226 16; D 157398 16; D 157497 16; D 157534 16; D 157513 16; D 157434 16; D 1573 18;
   D 157117 16; D 156895 16; D 15664 17; D 156352 16; D 156028 16; D 155666 16; D 155258 16; D 154802 16; D 1543 18; D 153755 16; D 153171 16;
   D 152549 16; D 151884 16; D 15117 17; D 150399 16; D 149563 16; D 148655 16; D 14767 17; D 146606 16; D 14546 17; D 144225 16; D 142892 16;
   D 141451 16; D 139891 16; D 138201 16; D 136369 16; D 134388 16; D 132252 16; D 129953 16; D 127487 16; D 124846 16; D 122027 16; D 119025 16;
   D 115841 16; D 112476 16; D 108936 16; D 105232 16; D 101375 16; D 973812 15; D 932668 15; D 890518 15; D 847579 15; D 804084 15; D 760279 15;
   D 716415 15; D 672744 15; D 62951 16; D 586943 15; D 561863 15; D 52118 16; D 481654 15; D 443434 15; D 406643 15; D 371387 15; D 337752 15;
   D 305806 15; D 275606 15; D 2472 17; D 220632 15; D 195947 15; D 173194 15; D 152437 15; D 133754 15; D 117251 15; D 10306 16; D 913568 14;
   D 823621 14];
  [D 157376 13; D 242437 14; D 978494 14; D 228252 15; D 399037 15; D 587803 15; D 776396 15; D 953731 15; D 111483 16; D 125796 16; D 138305 16;
   D 149079 16; D 158226 16; D 165891 16; D 172274 16; D 177599 16; D 182047 16; D 185753 16; D 188812 16; D 191298 16; D 193275 16; D 1948 18;
   D 195939 16; D 196769 16; D 197365 16; D 197783 16; D 198062 16; D 198235 16; D 198321 16; D 198329 16; D 198262 16; D 198121 16; D 197913 16;
   D 197648 16; D 197338 16; D 196986 16; D 196591 16; D 196146 16; D 195645 16; D 195082 16; D 194458 16; D 193777 16; D 193047 16; D 192267 16;
   D 191433 16; D 190538 16; D 189571 16; D 188522 16; D 187381 16; D 186142 16; D 184802 16; D 183357 16; D 181798 16; D 180115 16; D 178294 16;
   D 17632 17; D 174177 16; D 171854 16; D 169338 16; D 166623 16; D 163699 16; D 160559 16; D 157196 16; D 153602 16; D 149776 16; D 145715 16;
   D 141425 16; D 136914 16; D 132196 16; D 127288 16; D 12221 17; D 116987 16; D 111643 16; D 106209 16; D 100715 16; D 951938 15; D 896774 15;
   D 841984 15; D 787874 15; D 734732 15; D 704189 15; D 653656 15; D 604673 15; D 557407 15; D 511993 15; D 468539 15; D 427126 15; D 387812 15;
   D 350637 15; D 315627 15; D 282803 15; D 252182 15; D 223785 15; D 197642 15; D 173803 15; D 152339 15; D 13335 16; D 116977 15; D 103409 15;
   D 928889 14];
  [D 213004 13; D 325788 14; D 1303 17; D 301427 15; D 523152 15; D 7659 17; D 100644 16; D 123114 16; D 143413 16; D 161359 16; D 176962 16;
   D 190327 16; D 201606 16; D 211005 16; D 218806 16; D 225297 16; D 230702 16; D 23518 17; D 238847 16; D 241797 16; D 244108 16; D 245862 16;
   D 24715 17; D 248077 16; D 248734 16; D 249184 16; D 249474 16; D 249639 16; D 249698 16; D 24966 17; D 249523 16; D 249293 16; D 248984 16;
   D 248612 16; D 248184 16; D 247701 16; D 247156 16; D 246543 16; D 245851 16; D 245078 16; D 24423 17; D 243316 16; D 242338 16; D 241294 16;
   D 240172 16; D 238961 16; D 237646 16; D 236215 16; D 234659 16; D 232972 16; D 231151 16; D 229185 16; D 22706 17; D 224759 16; D 222261 16;
   D 219548 16; D 216601 16; D 213408 16; D 209957 16; D 206238 16; D 202241 16; D 197956 16; D 193375 16; D 188494 16; D 183314 16; D 17784 17;
   D 172087 16; D 166072 16; D 159819 16; D 153356 16; D 146715 16; D 139931 16; D 133043 16; D 126091 16; D 119119 16; D 112168 16; D 10528 17;
   D 984945 15; D 945829 15; D 881092 15; D 818197 15; D 757377 15; D 698821 15; D 642679 15; D 589058 15; D 538033 15; D 489646 15; D 443916 15;
   D 400842 15; D 360414 15; D 322613 15; D 287426 15; D 254846 15; D 224881 15; D 197564 15; D 172956 15; D 151157 15; D 132314 15; D 116633 15;
   D 104384 15];
  [D 288056 13; D 437179 14; D 17326 16; D 397512 15; D 684987 15; D 996767 15; D 130325 16; D 15877 17; D 18433 17; D 206812 16; D 22626 17;
   D 242823 16; D 256716 16; D 268236 16; D 27777 17; D 285681 16; D 292243 16; D 297645 16; D 302032 16; D 30552 17; D 308211 16; D 310217 16;
   D 311669 16; D 312702 16; D 313422 16; D 3139 18; D 314194 16; D 314339 16; D 314353 16; D 314239 16; D 314 19; D 313649 16; D 313207 16;
   D 312689 16; D 312102 16; D 311438 16; D 310689 16; D 309841 16; D 308889 16; D 307836 16; D 306694 16; D 305471 16; D 304163 16; D 302759 16;
   D 301243 16; D 299598 16; D 297805 16; D 295852 16; D 293732 16; D 291439 16; D 288962 16; D 286282 16; D 283377 16; D 28022 17; D 276787 16;
   D 273054 16; D 269003 16; D 264621 16; D 259893 16; D 254806 16; D 249348 16; D 24351 17; D 237284 16; D 230675 16; D 22369 17; D 216348 16;
   D 208675 16; D 200703 16; D 19247 17; D 184017 16; D 175394 16; D 16665 17; D 157841 16; D 149022 16; D 140248 16; D 131574 16; D 123047 16;
   D 118212 16; D 110118 16; D 102273 16; D 947054 15; D 874368 15; D 804834 15; D 73856 16; D 675608 15; D 616002 15; D 559729 15; D 506756 15;
   D 457031 15; D 410495 15; D 367088 15; D 326755 15; D 28946 16; D 255184 15; D 223942 15; D 195785 15; D 170812 15; D 149178 15; D 131109 15;
   D 116909 15];
  [D 389154 13; D 585811 14; D 230059 15; D 52353 16; D 895771 15; D 129576 16; D 168585 16; D 204568 16; D 236726 16; D 264871 16; D 289091 16;
   D 3096 18; D 326698 16; D 340812 16; D 352461 16; D 362101 16; D 370059 16; D 376568 16; D 381801 16; D 38591 17; D 389029 16; D 391313 16;
   D 392946 16; D 394093 16; D 394875 16; D 395376 16; D 395662 16; D 395768 16; D 395706 16; D 395479 16; D 395096 16; D 394582 16; D 393962 16;
   D 39325 17; D 392443 16; D 391531 16; D 390498 16; D 38933 17; D 388028 16; D 386606 16; D 385077 16; D 383441 16; D 381686 16; D 379792 16;
   D 377736 16; D 375494 16; D 373047 16; D 370386 16; D 367504 16; D 364387 16; D 361011 16; D 357349 16; D 353365 16; D 349027 16; D 344304 16;
   D 339171 16; D 333611 16; D 327606 16; D 321139 16; D 314192 16; D 306754 16; D 298818 16; D 290386 16; D 281473 16; D 272104 16; D 262314 16;
   D 252146 16; D 24165 17; D 230883 16; D 21991 17; D 208798 16; D 19762 17; D 186449 16; D 175357 16; D 164413 16; D 153679 16; D 147673 16;
   D 137532 16; D 127726 16; D 11829 17; D 109248 16; D 100618 16; D 924102 15; D 846299 15; D 772762 15; D 703442 15; D 638259 15; D 577111 15;
   D 519884 15; D 466463 15; D 416734 15; D 370601 15; D 327987 15; D 288849 15; D 253179 15; D 221018 15; D 192464 15; D 167684 15; D 146925 15;
   D 130528 15];
  [D 525114 13; D 783834 14; D 305076 15; D 688619 15; D 117003 16; D 168261 16; D 217866 16; D 263346 16; D 30378 17; D 338987 16; D 369125 16;
   D 394496 16; D 415523 16; D 432811 16; D 447045 16; D 458785 16; D 468427 16; D 476254 16; D 482484 16; D 487304 16; D 4909 18; D 493492 16;
   D 495324 16; D 496591 16; D 497431 16; D 497947 16; D 498206 16; D 498242 16; D 498062 16; D 49767 17; D 497089 16; D 496357 16; D 4955 18;
   D 494524 16; D 493417 16; D 492162 16; D 490737 16; D 489136 16; D 487372 16; D 485465 16; D 483421 16; D 481229 16; D 478866 16; D 476301 16;
   D 473503 16; D 470445 16; D 467111 16; D 463494 16; D 459577 16; D 455333 16; D 450723 16; D 445704 16; D 440232 16; D 434266 16; D 427773 16;
   D 420729 16; D 413111 16; D 404897 16; D 396065 16; D 386597 16; D 376487 16; D 365739 16; D 35437 17; D 342417 16; D 329924 16; D 316952 16;
   D 303566 16; D 289844 16; D 275871 16; D 261737 16; D 247537 16; D 233368 16; D 219324 16; D 205493 16; D 197596 16; D 184462 16; D 171729 16;
   D 159446 16; D 147653 16; D 136379 16; D 125644 16; D 115458 16; D 105822 16; D 967323 15; D 88179 16; D 801481 15; D 72623 16; D 655852 15;
   D 590161 15; D 52897 16; D 47211 16; D 419433 15; D 370823 15; D 3262 17; D 285537 15; D 248864 15; D 216278 15; D 187956 15; D 164173 15;
   D 145312 15];
  [D 707665 13; D 104743 15; D 40403 16; D 904653 15; D 152652 16; D 218266 16; D 281288 16; D 338731 16; D 389536 16; D 43355 17; D 47102 17;
   D 502378 16; D 528221 16; D 549394 16; D 566781 16; D 581072 16; D 592742 16; D 602134 16; D 609526 16; D 615158 16; D 619286 16; D 62222 17;
   D 624269 16; D 625659 16; D 626552 16; D 627064 16; D 627268 16; D 627188 16; D 626828 16; D 626203 16; D 625358 16; D 624336 16; D 62316 17;
   D 621823 16; D 620304 16; D 618575 16; D 616617 16; D 614439 16; D 612067 16; D 609518 16; D 606784 16; D 60384 17; D 600646 16; D 597162 16;
   D 593348 16; D 589182 16; D 584652 16; D 579739 16; D 574411 16; D 56862 17; D 562309 16; D 55542 17; D 547898 16; D 5397 18; D 530791 16;
   D 521143 16; D 510725 16; D 49951 17; D 487474 16; D 474609 16; D 460917 16; D 446427 16; D 431182 16; D 415246 16; D 398697 16; D 381623 16;
   D 364128 16; D 346324 16; D 328331 16; D 310276 16; D 292284 16; D 274478 16; D 256972 16; D 247034 16; D 230476 16; D 214457 16; D 199038 16;
   D 184267 16; D 170179 16; D 156795 16; D 144122 16; D 132161 16; D 120901 16; D 110325 16; D 100413 16; D 911389 15; D 824756 15; D 743952 15;
   D 6687 17; D 598738 15; D 53383 16; D 473769 15; D 418392 15; D 367586 15; D 3213 17; D 279549 15; D 242427 15; D 210128 15; D 182955 15;
   D 161337 15];
  [D 952382 13; D 139798 15; D 534408 15; D 118706 16; D 198945 16; D 282854 16; D 36285 17; D 435352 16; D 499145 16; D 554131 16; D 600681 16;
   D 639406 16; D 671151 16; D 697079 16; D 718316 16; D 735698 16; D 749803 16; D 76105 17; D 769792 16; D 776345 16; D 781065 16; D 78438 17;
   D 786662 16; D 788174 16; D 789107 16; D 789591 16; D 789693 16; D 78943 17; D 788807 16; D 787864 16; D 786666 16; D 785258 16; D 783648 16;
   D 781816 16; D 779728 16; D 777351 16; D 774678 16; D 771739 16; D 768567 16; D 765162 16; D 761498 16; D 757528 16; D 753199 16; D 748456 16;
   D 743262 16; D 737601 16; D 731451 16; D 724776 16; D 717516 16; D 709597 16; D 700944 16; D 691482 16; D 68115 17; D 669905 16; D 657708 16;
   D 644519 16; D 6303 18; D 615022 16; D 598669 16; D 58125 17; D 562796 16; D 543367 16; D 523049 16; D 501941 16; D 480165 16; D 457854 16;
   D 435159 16; D 41224 17; D 389262 16; D 366391 16; D 343787 16; D 321599 16; D 309045 16; D 288132 16; D 267939 16; D 248543 16; D 230003 16;
   D 212357 16; D 195629 16; D 179825 16; D 164941 16; D 150958 16; D 137853 16; D 125592 16; D 11414 17; D 103459 16; D 935079 15; D 842485 15;
   D 756428 15; D 67656 16; D 602562 15; D 53417 16; D 471163 15; D 413394 15; D 360778 15; D 313315 15; D 271103 15; D 234347 15; D 20338 16;
   D 178686 15];
  [D 127993 14; D 186357 15; D 70602 16; D 155585 16; D 259004 16; D 366201 16; D 467668 16; D 559111 16; D 639162 16; D 707807 16; D 765598 16;
   D 81338 17; D 852361 16; D 884109 16; D 91004 17; D 931165 16; D 948186 16; D 961625 16; D 971928 16; D 979517 16; D 984899 16; D 988634 16;
   D 991164 16; D 992792 16; D 993743 16; D 994157 16; D 994088 16; D 993545 16; D 992552 16; D 991182 16; D 989515 16; D 987587 16; D 985385 16;
   D 982873 16; D 980004 16; D 976747 16; D 973127 16; D 96919 17; D 964956 16; D 960403 16; D 955476 16; D 950108 16; D 944225 16; D 937769 16;
   D 930712 16; D 923032 16; D 914686 16; D 905603 16; D 89569 17; D 884845 16; D 872971 16; D 859983 16; D 84582 17; D 83043 17; D 813764 16;
   D 79577 17; D 776407 16; D 755655 16; D 733521 16; D 710045 16; D 685308 16; D 659417 16; D 632508 16; D 604738 16; D 576286 16; D 54735 17;
   D 51814 17; D 488876 16; D 459776 16; D 431049 16; D 402887 16; D 386971 16; D 360512 16; D 335011 16; D 310562 16; D 287238 16; D 265085 16;
   D 244128 16; D 224372 16; D 205803 16; D 188396 16; D 172114 16; D 156912 16; D 142739 16; D 129542 16; D 117266 16; D 105858 16; D 952643 15;
   D 854365 15; D 763301 15; D 679038 15; D 601246 15; D 529645 15; D 464035 15; D 404303 15; D 350431 15; D 302512 15; D 260768 15; D 225565 15;
   D 197446 15];
  [D 171796 14; D 248115 15; D 931665 15; D 203697 16; D 336852 16; D 473677 16; D 602281 16; D 717536 16; D 817923 16; D 903566 16; D 975257 16;
   D 103418 17; D 108203 17; D 11209 18; D 115255 17; D 11782 18; D 11987 18; D 121472 17; D 122682 17; D 123557 17; D 124169 17; D 124589 17;
   D 124867 17; D 125041 17; D 125134 17; D 125162 17; D 125127 17; D 125032 17; D 124882 17; D 124688 17; D 124459 17; D 124195 17; D 123894 17;
   D 12355 18; D 123156 17; D 122713 17; D 122227 17; D 121701 17; D 121136 17; D 120526 17; D 119861 17; D 119133 17; D 118333 17; D 117456 17;
   D 116499 17; D 115458 17; D 114324 17; D 113086 17; D 111731 17; D 110244 17; D 108615 17; D 106836 17; D 104899 17; D 102797 17; D 100524 17;
   D 98075 17; D 954459 16; D 926376 16; D 896552 16; D 865087 16; D 832124 16; D 797838 16; D 762438 16; D 726158 16; D 689259 16; D 65202 17;
   D 614728 16; D 57767 17; D 541121 16; D 505333 16; D 485085 16; D 451555 16; D 41929 17; D 388411 16; D 359006 16; D 331132 16; D 304815 16;
   D 280056 16; D 256832 16; D 235106 16; D 214825 16; D 195926 16; D 178341 16; D 161996 16; D 14682 17; D 132736 16; D 119677 16; D 107572 16;
   D 963628 15; D 859907 15; D 764062 15; D 67567 16; D 594387 15; D 519961 15; D 452239 15; D 391181 15; D 336877 15; D 289561 15; D 249639 15;
   D 217715 15];
  [D 230415 14; D 329947 15; D 122804 16; D 266405 16; D 437675 16; D 612162 16; D 77505 17; D 920221 16; D 104604 17; D 115281 17; D 124168 17;
   D 131428 17; D 137301 17; D 142059 17; D 145921 17; D 149032 17; D 151498 17; D 153402 17; D 154816 17; D 155823 17; D 156517 17; D 156987 17;
   D 157291 17; D 157472 17; D 157558 17; D 157562 17; D 157486 17; D 157332 17; D 157114 17; D 156844 17; D 156531 17; D 156171 17; D 15576 18;
   D 155287 17; D 154749 17; D 154152 17; D 153501 17; D 152801 17; D 152046 17; D 151225 17; D 150326 17; D 149338 17; D 148251 17; D 147062 17;
   D 145767 17; D 144355 17; D 142812 17; D 141121 17; D 139265 17; D 137229 17; D 134998 17; D 132565 17; D 129921 17; D 127057 17; D 123965 17;
   D 120641 17; D 117084 17; D 1133 19; D 109303 17; D 10511 18; D 100745 17; D 962347 16; D 916097 16; D 869043 16; D 821554 16; D 774008 16;
   D 726782 16; D 680237 16; D 634701 16; D 608863 16; D 566304 16; D 525409 16; D 486333 16; D 449185 16; D 414034 16; D 380908 16; D 349802 16;
   D 320682 16; D 293494 16; D 268163 16; D 244606 16; D 222729 16; D 202434 16; D 183623 16; D 166198 16; D 150064 16; D 135132 16; D 121318 16;
   D 108545 16; D 967423 15; D 858503 15; D 758165 15; D 665988 15; D 581658 15; D 504976 15; D 435875 15; D 374437 15; D 320911 15; D 275739 15;
   D 239594 15];
  [D 308776 14; D 438305 15; D 161695 16; D 348061 16; D 568144 16; D 790471 16; D 996641 16; D 117939 17; D 133698 17; D 147001 17; D 158009 17;
   D 16695 18; D 174157 17; D 179982 17; D 184689 17; D 188459 17; D 191419 17; D 193675 17; D 195322 17; D 196476 17; D 197263 17; D 197787 17;
   D 198115 17; D 1983 19; D 198369 17; D 198333 17; D 198195 17; D 197961 17; D 197651 17; D 197281 17; D 196854 17; D 196364 17; D 1958 19;
   D 195153 17; D 194424 17; D 193623 17; D 192757 17; D 191823 17; D 19081 18; D 189703 17; D 188486 17; D 187144 17; D 185671 17; D 184063 17;
   D 182308 17; D 18039 18; D 178288 17; D 175977 17; D 173437 17; D 170649 17; D 167602 17; D 164284 17; D 160682 17; D 156787 17; D 152592 17;
   D 148095 17; D 143304 17; D 138233 17; D 132906 17; D 127354 17; D 12161 18; D 115716 17; D 109717 17; D 10366 18; D 975953 16; D 915729 16;
   D 8564 18; D 82135 17; D 765331 16; D 71123 17; D 659308 16; D 609765 16; D 56274 17; D 518314 16; D 476521 16; D 437345 16; D 40074 17; D 366626 16;
   D 334905 16; D 305461 16; D 278169 16; D 252899 16; D 229522 16; D 207905 16; D 187927 16; D 169465 16; D 15241 17; D 136658 16; D 122116 16;
   D 108698 16; D 963309 15; D 84952 16; D 745098 15; D 649655 15; D 562939 15; D 48485 16; D 415454 15; D 355014 15; D 304012 15; D 263194 15];
  [D 413396 14; D 581631 15; D 212678 16; D 454297 16; D 736839 16; D 101991 17; D 128068 17; D 151061 17; D 170788 17; D 187352 17; D 200976 17;
   D 211983 17; D 220827 17; D 227955 17; D 233691 17; D 238252 17; D 241798 17; D 244461 17; D 246373 17; D 247692 17; D 248582 17; D 249161 17;
   D 249513 17; D 249693 17; D 249731 17; D 249634 17; D 249406 17; D 249064 17; D 248634 17; D 248128 17; D 247547 17; D 246877 17; D 246106 17;
   D 245225 17; D 244244 17; D 243175 17; D 242022 17; D 240774 17; D 239413 17; D 237917 17; D 236266 17; D 234448 17; D 232457 17; D 230282 17;
   D 227903 17; D 225295 17; D 222426 17; D 219267 17; D 215793 17; D 211987 17; D 207833 17; D 203315 17; D 19842 18; D 193138 17; D 187464 17;
   D 181407 17; D 174984 17; D 168226 17; D 16117 18; D 153862 17; D 146355 17; D 138707 17; D 130982 17; D 123244 17; D 11556 18; D 107991 17;
   D 10349 18; D 963523 16; D 894649 16; D 828619 16; D 765691 16; D 706042 16; D 649775 16; D 596925 16; D 547469 16; D 501338 16; D 458423 16;
   D 418591 16; D 381687 16; D 347545 16; D 315993 16; D 286859 16; D 25997 17; D 235162 16; D 212279 16; D 191175 16; D 171712 16; D 153766 16;
   D 137223 16; D 121981 16; D 107951 16; D 950592 15; D 83242 16; D 724525 15; D 626588 15; D 538466 15; D 460208 15; D 392083 15; D 334617 15;
   D 288634 15];
  [D 5529 16; D 770999 15; D 279452 16; D 592394 16; D 954799 16; D 131491 17; D 164457 17; D 193369 17; D 21805 18; D 23866 18; D 255511 17;
   D 269055 17; D 279907 17; D 288628 17; D 295611 17; D 301121 17; D 305359 17; D 308494 17; D 310705 17; D 312211 17; D 313213 17; D 31385 18;
   D 314219 17; D 314383 17; D 314368 17; D 314179 17; D 313826 17; D 31334 18; D 312748 17; D 312061 17; D 311269 17; D 310354 17; D 309301 17;
   D 308109 17; D 306797 17; D 305376 17; D 303839 17; D 302168 17; D 300334 17; D 298309 17; D 296073 17; D 293615 17; D 290925 17; D 287983 17;
   D 284755 17; D 281202 17; D 277286 17; D 27297 18; D 268229 17; D 263043 17; D 257391 17; D 251255 17; D 244619 17; D 237476 17; D 229833 17;
   D 221712 17; D 21315 18; D 204195 17; D 194905 17; D 18535 18; D 175604 17; D 165751 17; D 155876 17; D 146067 17; D 136404 17; D 130613 17;
   D 121507 17; D 112727 17; D 104316 17; D 963093 16; D 887285 16; D 81587 17; D 74889 17; D 686308 16; D 628027 16; D 573903 16; D 523753 16;
   D 477373 16; D 434543 16; D 395034 16; D 358619 16; D 325075 16; D 294184 16; D 265744 16; D 239561 16; D 215455 16; D 193262 16; D 172831 16;
   D 154026 16; D 136725 16; D 120824 16; D 106231 16; D 92872 16; D 806889 15; D 69642 16; D 597117 15; D 509001 15; D 432347 15; D 367724 15;
   D 316039 15];
  [D 738687 14; D 102094 16; D 366825 16; D 771763 16; D 12362 18; D 169398 17; D 211047 17; D 247383 17; D 278244 17; D 303874 17; D 324703 17;
   D 341365 17; D 354679 17; D 365345 17; D 373839 17; D 380486 17; D 385537 17; D 389214 17; D 391764 17; D 39348 18; D 394603 17; D 395297 17;
   D 395675 17; D 395804 17; D 395705 17; D 395382 17; D 394859 17; D 39418 18; D 393374 17; D 39244 18; D 391361 17; D 390112 17; D 388681 17;
   D 38708 18; D 385333 17; D 383443 17; D 381392 17; D 379148 17; D 376672 17; D 373931 17; D 370908 17; D 367591 17; D 363959 17; D 359974 17;
   D 355586 17; D 350745 17; D 345399 17; D 339512 17; D 333056 17; D 326005 17; D 318332 17; D 310016 17; D 301044 17; D 291422 17; D 281174 17;
   D 270344 17; D 258993 17; D 247197 17; D 235043 17; D 22263 18; D 210066 17; D 197463 17; D 184936 17; D 172593 17; D 165128 17; D 1535 19;
   D 142291 17; D 131562 17; D 121356 17; D 111703 17; D 10262 18; D 941126 16; D 861751 16; D 787943 16; D 719506 16; D 656201 16; D 597753 16;
   D 543873 16; D 494261 16; D 448614 16; D 406647 16; D 36807 17; D 33262 17; D 300043 16; D 270106 16; D 242592 16; D 217303 16; D 194059 16;
   D 172699 16; D 153079 16; D 135071 16; D 118569 16; D 103483 16; D 897418 15; D 772972 15; D 661223 15; D 562158 15; D 476053 15; D 403516 15;
   D 345543 15];
  [D 985809 14; D 13506 17; D 481057 16; D 100454 17; D 159924 17; D 21808 18; D 270668 17; D 316311 17; D 354879 17; D 386731 17; D 412462 17;
   D 432955 17; D 449288 17; D 462327 17; D 472649 17; D 480652 17; D 486657 17; D 490955 17; D 49389 18; D 495841 17; D 497094 17; D 49784 18;
   D 498213 17; D 498278 17; D 498048 17; D 497535 17; D 496785 17; D 49585 18; D 494755 17; D 493486 17; D 492017 17; D 490315 17; D 488381 17;
   D 486244 17; D 483923 17; D 481409 17; D 478665 17; D 475644 17; D 472298 17; D 468593 17; D 464515 17; D 460043 17; D 455134 17; D 44973 18;
   D 443761 17; D 437162 17; D 429875 17; D 421862 17; D 413089 17; D 403521 17; D 393126 17; D 381886 17; D 3698 19; D 356893 17; D 343219 17;
   D 328854 17; D 313893 17; D 298448 17; D 282648 17; D 266633 17; D 250549 17; D 234547 17; D 218771 17; D 203351 17; D 194269 17; D 179943 17;
   D 166235 17; D 153204 17; D 140891 17; D 129316 17; D 118487 17; D 108396 17; D 990268 16; D 90352 17; D 8234 18; D 749548 16; D 68158 17;
   D 619104 16; D 561727 16; D 509062 16; D 460745 16; D 416426 16; D 375775 16; D 338488 16; D 304283 16; D 272899 16; D 244103 16; D 217678 16;
   D 193435 16; D 1712 18; D 150826 16; D 132183 16; D 115164 16; D 99684 16; D 856824 15; D 731241 15; D 620031 15; D 523464 15; D 442187 15;
   D 37729 16];
  [D 131412 15; D 178504 16; D 630275 16; D 130641 17; D 206731 17; D 280557 17; D 346924 17; D 404229 17; D 452404 17; D 491963 17; D 523732 17;
   D 548935 17; D 568969 17; D 5849 19; D 597429 17; D 607051 17; D 614168 17; D 619174 17; D 622545 17; D 624757 17; D 626145 17; D 626938 17;
   D 627282 17; D 627238 17; D 626814 17; D 62604 18; D 624986 17; D 623711 17; D 622226 17; D 620503 17; D 618501 17; D 616192 17; D 613596 17;
   D 610754 17; D 607673 17; D 604321 17; D 600641 17; D 596569 17; D 592048 17; D 587051 17; D 581558 17; D 575526 17; D 568885 17; D 561548 17;
   D 553426 17; D 544437 17; D 534523 17; D 52364 18; D 511742 17; D 498785 17; D 484738 17; D 469594 17; D 453376 17; D 436145 17; D 417996 17;
   D 399047 17; D 379443 17; D 359348 17; D 338943 17; D 31842 18; D 297977 17; D 277803 17; D 258073 17; D 246325 17; D 227992 17; D 210455 17;
   D 193792 17; D 178056 17; D 163277 17; D 149464 17; D 136608 17; D 124685 17; D 113662 17; D 103497 17; D 941404 16; D 855435 16; D 77654 17;
   D 704209 16; D 637932 16; D 577237 16; D 521664 16; D 470786 16; D 424205 16; D 381555 16; D 342497 16; D 306724 16; D 273954 16; D 243935 16;
   D 216439 16; D 191265 16; D 168233 16; D 147192 16; D 128013 16; D 110594 16; D 948601 15; D 80766 16; D 682996 15; D 574862 15; D 483944 15;
   D 411432 15];
  [D 175029 15; D 235703 16; D 825032 16; D 169759 17; D 267036 17; D 360698 17; D 444408 17; D 516321 17; D 576463 17; D 625566 17; D 664769 17;
   D 695762 17; D 720333 17; D 739784 17; D 754974 17; D 766518 17; D 774929 17; D 780743 17; D 784608 17; D 787108 17; D 788635 17; D 789459 17;
   D 789737 17; D 789519 17; D 788816 17; D 787687 17; D 78623 18; D 784501 17; D 782488 17; D 780147 17; D 777424 17; D 774307 17; D 770844 17;
   D 767074 17; D 762981 17; D 758502 17; D 753557 17; D 748063 17; D 741965 17; D 735238 17; D 727842 17; D 7197 19; D 710704 17; D 700737 17;
   D 689685 17; D 677461 17; D 664003 17; D 64925 18; D 633145 17; D 615639 17; D 596713 17; D 576383 17; D 554718 17; D 53183 18; D 50787 18;
   D 483018 17; D 457483 17; D 431502 17; D 405323 17; D 379205 17; D 3534 19; D 328142 17; D 312922 17; D 289437 17; D 266971 17; D 245629 17;
   D 225485 17; D 206579 17; D 188923 17; D 172508 17; D 157303 17; D 143262 17; D 130331 17; D 118447 17; D 107544 17; D 975546 16; D 884104 16;
   D 800464 16; D 723992 16; D 654101 16; D 590231 16; D 531864 16; D 478522 16; D 429767 16; D 385196 16; D 344444 16; D 307179 16; D 273101 16;
   D 241941 16; D 213461 16; D 187449 16; D 163725 16; D 142135 16; D 122557 16; D 104898 16; D 891008 15; D 751456 15; D 630551 15; D 52901 16;
   D 44813 16];
  [D 23297 16; D 31094 17; D 107903 17; D 220412 17; D 344684 17; D 463441 17; D 568973 17; D 659174 17; D 734216 17; D 795128 17; D 843488 17;
   D 881597 17; D 911724 17; D 935461 17; D 953851 17; D 967671 17; D 977581 17; D 984317 17; D 988741 17; D 991554 17; D 993217 17; D 994046 17;
   D 994201 17; D 993717 17; D 992621 17; D 991019 17; D 989028 17; D 986686 17; D 98396 18; D 980778 17; D 977085 17; D 972904 17; D 968305 17;
   D 963308 17; D 957859 17; D 951863 17; D 945207 17; D 937797 17; D 929588 17; D 920543 17; D 910583 17; D 89958 18; D 887384 17; D 873841 17;
   D 858821 17; D 842232 17; D 823996 17; D 804036 17; D 782282 17; D 758693 17; D 733277 17; D 706101 17; D 677298 17; D 647053 17; D 615593 17;
   D 583185 17; D 55013 18; D 516752 17; D 483391 17; D 450378 17; D 418024 17; D 398283 17; D 368168 17; D 339352 17; D 311978 17; D 286148 17;
   D 261917 17; D 239306 17; D 218302 17; D 198865 17; D 180939 17; D 16445 18; D 149318 17; D 135454 17; D 12277 18; D 111178 17; D 100592 17;
   D 909301 16; D 821145 16; D 740725 16; D 667367 16; D 60045 17; D 539402 16; D 483701 16; D 43287 17; D 386477 16; D 344128 16; D 30547 17;
   D 270187 16; D 237995 16; D 208645 16; D 181923 16; D 157645 16; D 135664 16; D 115869 16; D 981853 15; D 825846 15; D 690852 15; D 57762 16;
   D 487556 15];
  [D 309861 15; D 409823 16; D 141002 17; D 285956 17; D 444604 17; D 59509 18; D 72807 18; D 841157 17; D 934743 17; D 101026 18; D 106989 18;
   D 111675 18; D 115368 18; D 118262 18; D 120486 18; D 122136 18; D 1233 20; D 124079 18; D 124584 18; D 124899 18; D 125078 18; D 125158 18;
   D 125152 18; D 125064 18; D 124901 18; D 124678 18; D 124407 18; D 124091 18; D 123721 18; D 123289 18; D 122791 18; D 122233 18; D 121624 18;
   D 120961 18; D 120234 18; D 11943 19; D 118533 18; D 117536 18; D 116433 18; D 115217 18; D 113874 18; D 112386 18; D 110732 18; D 108892 18;
   D 106855 18; D 104608 18; D 102142 18; D 994463 17; D 965149 17; D 933461 17; D 89946 18; D 863297 17; D 825195 17; D 785437 17; D 744359 17;
   D 702347 17; D 65982 18; D 617218 17; D 574983 17; D 533528 17; D 507896 17; D 469245 17; D 432242 17; D 397083 17; D 363909 17; D 332799 17;
   D 303785 17; D 276852 17; D 251953 17; D 229013 17; D 207936 17; D 188618 17; D 170944 17; D 154798 17; D 140063 17; D 126628 17; D 114385 17;
   D 103233 17; D 930776 16; D 8383 18; D 754096 16; D 67742 17; D 607593 16; D 543994 16; D 486059 16; D 433278 16; D 385186 16; D 341367 16;
   D 301447 16; D 265091 16; D 232006 16; D 201936 16; D 174665 16; D 150015 16; D 127851 16; D 10808 17; D 906629 15; D 756112 15; D 630026 15;
   D 529889 15];
  [D 411802 15; D 539702 16; D 184102 17; D 370714 17; D 573102 17; D 763697 17; D 931184 17; D 10729 19; D 118955 18; D 128312 18; D 135664 18;
   D 141424 18; D 14595 19; D 149476 18; D 15216 19; D 154127 18; D 15549 19; D 156389 18; D 156964 18; D 157315 18; D 157504 18; D 157573 18;
   D 157534 18; D 157389 18; D 157153 18; D 156846 18; D 156481 18; D 156053 18; D 155552 18; D 154967 18; D 154298 18; D 153558 18; D 152752 18;
   D 151871 18; D 1509 20; D 149819 18; D 148612 18; D 147272 18; D 145791 18; D 144156 18; D 142344 18; D 140329 18; D 138085 18; D 135591 18;
   D 132832 18; D 129795 18; D 126465 18; D 122833 18; D 118894 18; D 114652 18; D 110123 18; D 105334 18; D 100319 18; D 951201 17; D 897869 17;
   D 84373 18; D 789359 17; D 735333 17; D 682208 17; D 648901 17; D 599257 17; D 55169 18; D 506475 17; D 463805 17; D 423795 17; D 386494 17;
   D 35189 18; D 319924 17; D 2905 19; D 263496 17; D 238775 17; D 216186 17; D 195578 17; D 176799 17; D 159701 17; D 144145 17; D 129998 17;
   D 117135 17; D 105443 17; D 948152 16; D 851551 16; D 763742 16; D 683918 16; D 611345 16; D 545356 16; D 485348 16; D 430775 16; D 381145 16;
   D 336016 16; D 294994 16; D 257733 16; D 223931 16; D 193329 16; D 165716 16; D 140928 16; D 118852 16; D 994303 15; D 8267 17; D 686495 15;
   D 575323 15];
  [D 546822 15; D 710149 16; D 240185 17; D 480242 17; D 738259 17; D 979534 17; D 119039 18; D 13679 19; D 151322 18; D 162909 18; D 171972 18;
   D 179053 18; D 184596 18; D 188888 18; D 192124 18; D 19446 19; D 196052 18; D 197088 18; D 197742 18; D 198128 18; D 198325 18; D 198372 18;
   D 198281 18; D 198057 18; D 197724 18; D 197306 18; D 196813 18; D 196235 18; D 195556 18; D 194766 18; D 193874 18; D 192894 18; D 191826 18;
   D 190654 18; D 189354 18; D 187901 18; D 186279 18; D 18448 19; D 182493 18; D 180292 18; D 177845 18; D 175117 18; D 172076 18; D 1687 20;
   D 164971 18; D 160871 18; D 156386 18; D 151504 18; D 146227 18; D 140571 18; D 134565 18; D 128253 18; D 121685 18; D 114925 18; D 108041 18;
   D 101106 18; D 94198 18; D 873897 17; D 830595 17; D 766792 17; D 705592 17; D 647375 17; D 592413 17; D 540873 17; D 492832 17; D 448284 17;
   D 407158 17; D 369334 17; D 334656 17; D 302943 17; D 274001 17; D 247631 17; D 223634 17; D 201817 17; D 181997 17; D 164 20; D 147663 17;
   D 132836 17; D 119383 17; D 107175 17; D 960991 16; D 860488 16; D 769289 16; D 686526 16; D 611413 16; D 543237 16; D 481355 16; D 425187 16;
   D 374213 16; D 327969 16; D 286045 16; D 248085 16; D 213781 16; D 182883 16; D 155192 16; D 130569 16; D 10894 17; D 903009 15; D 74731 16;
   D 624059 15];
  [D 725477 15; D 933652 16; D 31311 18; D 621691 17; D 950424 17; D 125569 18; D 152103 18; D 174328 18; D 192422 18; D 206764 18; D 217934 18;
   D 226638 18; D 233424 18; D 238642 18; D 242536 18; D 245305 18; D 247159 18; D 248352 18; D 249092 18; D 249515 18; D 24971 19; D 24972 19;
   D 249553 18; D 24922 19; D 248757 18; D 248192 18; D 247527 18; D 246745 18; D 245826 18; D 244766 18; D 243582 18; D 242287 18; D 240871 18;
   D 239307 18; D 237563 18; D 235611 18; D 233435 18; D 231025 18; D 228356 18; D 225391 18; D 222083 18; D 218389 18; D 214274 18; D 209713 18;
   D 204682 18; D 19916 19; D 19313 19; D 186587 18; D 179543 18; D 172033 18; D 164106 18; D 155826 18; D 147271 18; D 138528 18; D 129693 18;
   D 120864 18; D 112141 18; D 103613 18; D 983059 17; D 904258 17; D 829222 17; D 758334 17; D 69184 18; D 629859 17; D 572399 17; D 519381 17;
   D 470653 17; D 426017 17; D 385239 17; D 348066 17; D 314238 17; D 283495 17; D 255584 17; D 230263 17; D 207304 17; D 186496 17; D 167641 17;
   D 15056 18; D 135088 17; D 121074 17; D 108381 17; D 968842 16; D 864709 16; D 770386 16; D 684945 16; D 607546 16; D 53743 17; D 473915 16;
   D 416389 16; D 364304 16; D 317178 16; D 27459 17; D 236177 16; D 20164 17; D 17074 17; D 143309 16; D 119249 16; D 985459 15; D 812773 15;
   D 676313 15];
  [D 961643 15; D 122649 17; D 40787 18; D 804258 17; D 122282 18; D 160888 18; D 194263 18; D 222077 18; D 244597 18; D 262341 18; D 276104 18;
   D 286802 18; D 295106 18; D 301443 18; D 30612 19; D 309392 18; D 311549 18; D 312919 18; D 313751 18; D 314209 18; D 314393 18; D 314342 18;
   D 314063 18; D 313582 18; D 312948 18; D 312187 18; D 31129 19; D 310233 18; D 308993 18; D 307576 18; D 30601 19; D 304298 18; D 302417 18;
   D 300328 18; D 297988 18; D 295368 18; D 292454 18; D 289224 18; D 285638 18; D 28164 19; D 277168 18; D 272171 18; D 266612 18; D 26046 19;
   D 253685 18; D 24626 19; D 238174 18; D 229432 18; D 220067 18; D 210139 18; D 199725 18; D 188919 18; D 177834 18; D 16659 19; D 155317 18;
   D 144144 18; D 133194 18; D 12627 19; D 116118 18; D 106437 18; D 972836 17; D 886925 17; D 806826 17; D 732578 17; D 664091 17; D 601183 17;
   D 543601 17; D 491045 17; D 443185 17; D 399683 17; D 360198 17; D 324396 17; D 29196 18; D 262594 17; D 236017 17; D 211973 17; D 190225 17;
   D 170557 17; D 152773 17; D 136693 17; D 122155 17; D 109011 17; D 971286 16; D 86386 17; D 766739 16; D 678933 16; D 599551 16; D 527787 16;
   D 462922 16; D 404312 16; D 351389 16; D 303656 16; D 260685 16; D 22212 17; D 187677 16; D 157151 16; D 130419 16; D 10745 17; D 883204 15;
   D 732311 15];
  [D 127356 16; D 160993 17; D 53092 18; D 103975 18; D 157238 18; D 206038 18; D 248001 18; D 282795 18; D 310808 18; D 332752 18; D 349711 18;
   D 362857 18; D 373011 18; D 3807 20; D 386304 18; D 390161 18; D 392665 18; D 394236 18; D 395168 18; D 395655 18; D 395808 18; D 395662 18;
   D 395226 18; D 394548 18; D 393688 18; D 392663 18; D 391454 18; D 390025 18; D 388358 18; D 386476 18; D 384408 18; D 382143 18; D 37964 19;
   D 376845 18; D 373706 18; D 370195 18; D 366296 18; D 361967 18; D 357144 18; D 351748 18; D 345705 18; D 338956 18; D 331459 18; D 323175 18;
   D 314066 18; D 304107 18; D 293293 18; D 281655 18; D 269256 18; D 25619 19; D 242574 18; D 228544 18; D 214256 18; D 199877 18; D 185577 18;
   D 17152 19; D 162486 18; D 1494 20; D 136902 18; D 12507 19; D 113955 18; D 103588 18; D 939768 17; D 85113 18; D 769747 17; D 695302 17; D 62741 18;
   D 565645 17; D 509566 17; D 458723 17; D 41268 18; D 371026 17; D 333364 17; D 299328 17; D 268582 17; D 240814 17; D 215741 17; D 193106 17;
   D 172674 17; D 154234 17; D 137592 17; D 122575 17; D 109024 17; D 967974 16; D 857656 16; D 758121 16; D 668319 16; D 587303 16; D 514227 16;
   D 448334 16; D 388956 16; D 335508 16; D 287485 16; D 244467 16; D 206116 16; D 172183 16; D 142514 16; D 11706 17; D 958944 15; D 792293 15];
  [D 168556 16; D 211168 17; D 690604 17; D 134333 18; D 202074 18; D 263731 18; D 316472 18; D 359978 18; D 394808 18; D 421936 18; D 442832 18;
   D 458982 18; D 471392 18; D 480706 18; D 48741 19; D 491944 18; D 494847 18; D 496642 18; D 497679 18; D 498186 18; D 498281 18; D 497991 18;
   D 497339 18; D 496399 18; D 495237 18; D 493858 18; D 492228 18; D 490301 18; D 48807 19; D 48558 19; D 482851 18; D 47985 19; D 476514 18;
   D 47277 19; D 468563 18; D 463868 18; D 458652 18; D 452845 18; D 446351 18; D 43907 19; D 43091 19; D 42181 19; D 411717 18; D 400581 18;
   D 388358 18; D 375031 18; D 360617 18; D 345183 18; D 328837 18; D 31172 19; D 294002 18; D 275878 18; D 257563 18; D 239278 18; D 221242 18;
   D 203655 18; D 192587 18; D 176442 18; D 161133 18; D 146737 18; D 133299 18; D 120837 18; D 109344 18; D 987942 17; D 89149 18; D 80359 18;
   D 723694 17; D 651226 17; D 585596 17; D 52624 18; D 472607 17; D 424179 17; D 380475 17; D 341051 17; D 305498 17; D 273445 17; D 244554 17;
   D 218517 17; D 195056 17; D 173921 17; D 154882 17; D 137735 17; D 122292 17; D 108386 17; D 958644 16; D 8459 18; D 744392 16; D 653008 16;
   D 570753 16; D 496739 16; D 43018 17; D 37039 17; D 316774 16; D 268838 16; D 226178 16; D 188497 16; D 155604 16; D 127428 16; D 104035 16;
   D 856511 15];
  [D 222951 16; D 276774 17; D 897695 17; D 173447 18; D 259554 18; D 337421 18; D 403683 18; D 458061 18; D 501346 18; D 534872 18; D 560617 18;
   D 580453 18; D 595607 18; D 606878 18; D 614877 18; D 620195 18; D 623556 18; D 625602 18; D 626746 18; D 627255 18; D 627249 18; D 62675 19;
   D 625804 18; D 624516 18; D 622953 18; D 6211 20; D 618901 18; D 616307 18; D 61334 19; D 610053 18; D 606449 18; D 602466 18; D 598013 18;
   D 592999 18; D 58737 19; D 581098 18; D 574117 18; D 56632 19; D 557574 18; D 54775 19; D 536749 18; D 524499 18; D 510933 18; D 495988 18;
   D 479622 18; D 461838 18; D 442693 18; D 422309 18; D 400853 18; D 378532 18; D 35559 19; D 332299 18; D 308948 18; D 285825 18; D 263202 18;
   D 24871 19; D 227846 18; D 208025 18; D 189359 18; D 171918 18; D 155735 18; D 140806 18; D 127104 18; D 114582 18; D 103177 18; D 928179 17;
   D 834309 17; D 749392 17; D 67268 18; D 603444 17; D 541012 17; D 484746 17; D 43406 18; D 388417 17; D 347327 17; D 310346 17; D 277071 17;
   D 247136 17; D 220212 17; D 196002 17; D 174234 17; D 154667 17; D 137081 17; D 121276 17; D 107074 17; D 943136 16; D 828489 16; D 725497 16;
   D 63299 17; D 549927 16; D 475388 16; D 408565 16; D 348763 16; D 295397 16; D 247993 16; D 206194 16; D 169764 16; D 138607 16; D 112781 16;
   D 925232 15];
  [D 29471 17; D 362499 17; D 11661 19; D 223816 18; D 333208 18; D 431509 18; D 514724 18; D 582665 18; D 636431 18; D 677856 18; D 709573 18;
   D 733926 18; D 752418 18; D 766037 18; D 775559 18; D 781784 18; D 78567 19; D 787991 18; D 78924 19; D 789723 18; D 789556 18; D 788758 18;
   D 787417 18; D 78567 19; D 783571 18; D 781079 18; D 778115 18; D 774639 18; D 770707 18; D 766375 18; D 761612 18; D 756316 18; D 750365 18;
   D 743654 18; D 736136 18; D 727759 18; D 718411 18; D 707933 18; D 696151 18; D 682909 18; D 6681 20; D 651637 18; D 633431 18; D 613412 18;
   D 591554 18; D 567897 18; D 542566 18; D 515754 18; D 487712 18; D 458741 18; D 429183 18; D 399408 18; D 369797 18; D 340715 18; D 321749 18;
   D 294782 18; D 269105 18; D 244882 18; D 22222 19; D 201173 18; D 18175 19; D 163921 18; D 14763 19; D 1328 20; D 119339 18; D 107152 18; D 96138 18;
   D 861987 17; D 772391 17; D 6917 19; D 619073 17; D 553737 17; D 494983 17; D 442165 17; D 394699 17; D 352052 17; D 313747 17; D 279349 17;
   D 248469 17; D 220752 17; D 195881 17; D 173568 17; D 153553 17; D 135604 17; D 119509 17; D 105077 17; D 921394 16; D 805416 16; D 70147 17;
   D 608334 16; D 524932 16; D 450319 16; D 383679 16; D 324326 16; D 271701 16; D 225378 16; D 185072 16; D 150655 16; D 122173 16; D 998738 15];
  [D 389301 16; D 474433 17; D 151379 18; D 288642 18; D 427547 18; D 551592 18; D 656063 18; D 740915 18; D 807669 18; D 858842 18; D 897914 18;
   D 927803 18; D 950348 18; D 966777 18; D 978086 18; D 985361 18; D 989845 18; D 992466 18; D 993813 18; D 994226 18; D 993807 18; D 992592 18;
   D 990726 18; D 988371 18; D 985554 18; D 982202 18; D 978214 18; D 973577 18; D 968386 18; D 962678 18; D 956372 18; D 949321 18; D 941364 18;
   D 932395 18; D 922365 18; D 911174 18; D 898646 18; D 884559 18; D 868689 18; D 850865 18; D 830963 18; D 80887 19; D 784478 18; D 75772 19;
   D 728606 18; D 697247 18; D 663859 18; D 62874 19; D 592255 18; D 55483 19; D 516938 18; D 479073 18; D 441723 18; D 416922 18; D 382071 18;
   D 348798 18; D 317342 18; D 287866 18; D 260459 18; D 235148 18; D 211909 18; D 190675 18; D 17135 19; D 153821 18; D 137961 18; D 123642 18;
   D 110733 18; D 991099 17; D 886546 17; D 792561 17; D 708122 17; D 632291 17; D 564217 17; D 503126 17; D 448319 17; D 399164 17; D 355091 17;
   D 315587 17; D 280188 17; D 248477 17; D 220078 17; D 194651 17; D 17189 18; D 15152 18; D 133293 17; D 116985 17; D 102396 17; D 893471 16;
   D 776769 16; D 672431 16; D 579195 16; D 495958 16; D 421767 16; D 355817 16; D 297452 16; D 246165 16; D 201615 16; D 163634 16; D 132253 16;
   D 107733 16];
  [D 51389 17; D 620514 17; D 196389 18; D 372035 18; D 548326 18; D 704798 18; D 835909 18; D 941838 18; D 102468 19; D 108789 19; D 113601 19;
   D 117268 19; D 120014 19; D 121993 19; D 123333 19; D 124182 19; D 124698 19; D 124993 19; D 125135 19; D 125162 19; D 125083 19; D 124904 19;
   D 124648 19; D 124332 19; D 123954 19; D 123503 19; D 122968 19; D 122352 19; D 121668 19; D 120916 19; D 12008 20; D 11914 20; D 118076 19;
   D 116879 19; D 115542 19; D 114046 19; D 112366 19; D 110471 19; D 108336 19; D 10594 20; D 10327 20; D 100309 19; D 970472 18; D 934791 18;
   D 896132 18; D 854715 18; D 810884 18; D 765078 18; D 71782 19; D 669707 18; D 621375 18; D 573471 18; D 5266 20; D 496054 18; D 452936 18;
   D 41207 19; D 373699 18; D 337969 18; D 304941 18; D 274598 18; D 246869 18; D 221638 18; D 19876 19; D 178076 18; D 159415 18; D 14261 19;
   D 127495 18; D 113913 18; D 10172 19; D 907791 17; D 809666 17; D 721697 17; D 64286 18; D 572232 17; D 508979 17; D 452351 17; D 401669 17;
   D 356326 17; D 315773 17; D 279515 17; D 247109 17; D 218154 17; D 192288 17; D 169189 17; D 148563 17; D 13015 18; D 113713 17; D 99043 17;
   D 859518 16; D 742729 16; D 63859 17; D 545815 16; D 463291 16; D 390078 16; D 325405 16; D 268677 16; D 219482 16; D 177608 16; D 143067 16;
   D 116131 16];
  [D 677863 16; D 811041 17; D 254624 18; D 479259 18; D 70289 19; D 900195 18; D 106468 19; D 119687 19; D 129964 19; D 137769 19; D 143697 19;
   D 148194 19; D 151535 19; D 153913 19; D 155498 19; D 156487 19; D 15708 20; D 157409 19; D 157556 19; D 157558 19; D 157425 19; D 157169 19;
   D 156821 19; D 156397 19; D 15589 20; D 155284 19; D 154568 19; D 153754 19; D 152854 19; D 15186 20; D 15075 20; D 149496 19; D 148076 19;
   D 146481 19; D 144698 19; D 142697 19; D 140442 19; D 137895 19; D 135024 19; D 131809 19; D 128231 19; D 124271 19; D 119917 19; D 115172 19;
   D 110056 19; D 104606 19; D 988752 18; D 929262 18; D 868332 18; D 806776 18; D 745437 18; D 685135 18; D 64507 19; D 589209 18; D 536106 18;
   D 486127 18; D 439503 18; D 396348 18; D 356671 18; D 320397 18; D 28739 19; D 25747 19; D 230433 18; D 20606 19; D 184129 18; D 164425 18;
   D 14674 19; D 130881 18; D 116669 18; D 103939 18; D 925412 17; D 823406 17; D 732147 17; D 650532 17; D 577568 17; D 512363 17; D 454114 17;
   D 402099 17; D 35567 18; D 314241 17; D 277288 17; D 244338 17; D 214967 17; D 188792 17; D 16547 18; D 144695 17; D 126192 17; D 109713 17;
   D 950397 16; D 819782 16; D 703565 16; D 600248 16; D 508536 16; D 427331 16; D 355734 16; D 293043 16; D 238769 16; D 192646 16; D 154664 16;
   D 125102 16];
  [D 893499 16; D 105938 18; D 32993 19; D 617056 18; D 90061 19; D 114932 19; D 135561 19; D 15205 20; D 164793 19; D 174432 19; D 181731 19;
   D 187243 19; D 191304 19; D 194158 19; D 196027 19; D 197178 19; D 197858 19; D 198222 19; D 198367 19; D 19833 20; D 198119 19; D 19776 20;
   D 19729 20; D 196723 19; D 196043 19; D 195229 19; D 194275 19; D 193202 19; D 192018 19; D 190704 19; D 189228 19; D 187554 19; D 185661 19;
   D 183538 19; D 181159 19; D 178481 19; D 175454 19; D 172031 19; D 168178 19; D 163871 19; D 159083 19; D 153794 19; D 147996 19; D 141705 19;
   D 134958 19; D 127815 19; D 120352 19; D 112659 19; D 10484 20; D 970021 18; D 892559 18; D 81702 19; D 767755 18; D 698759 18; D 633636 18;
   D 572751 18; D 516304 18; D 464348 18; D 416818 18; D 373559 18; D 334352 18; D 298936 18; D 267029 18; D 238344 18; D 212596 18; D 18951 19;
   D 168832 18; D 150324 18; D 133767 18; D 118962 18; D 105729 18; D 93906 18; D 833468 17; D 739201 17; D 655078 17; D 580039 17; D 513131 17;
   D 4535 19; D 400376 17; D 353071 17; D 310962 17; D 273493 17; D 240165 17; D 210527 17; D 184178 17; D 160757 17; D 139943 17; D 121447 17;
   D 105015 17; D 90419 17; D 774603 16; D 659644 16; D 557807 16; D 467816 16; D 388622 16; D 319404 16; D 25958 17; D 208823 16; D 167094 16;
   D 13468 17];
  [D 117689 17; D 138286 18; D 427259 18; D 794059 18; D 115344 19; D 146683 19; D 172547 19; D 193106 19; D 208902 19; D 220804 19; D 229792 19;
   D 236542 19; D 241473 19; D 244892 19; D 247092 19; D 24843 20; D 249206 19; D 249605 19; D 249738 19; D 24964 20; D 249322 19; D 248825 19;
   D 248194 19; D 247435 19; D 246523 19; D 245432 19; D 244167 19; D 242756 19; D 241197 19; D 239458 19; D 237493 19; D 23526 20; D 232741 19;
   D 229915 19; D 226739 19; D 223152 19; D 219088 19; D 214493 19; D 20933 20; D 203566 19; D 197169 19; D 19012 20; D 18242 20; D 174105 19;
   D 16524 20; D 155913 19; D 146234 19; D 136331 19; D 126342 19; D 116411 19; D 106675 19; D 100194 19; D 912332 18; D 827472 18; D 747925 18;
   D 674026 18; D 605908 18; D 543537 18; D 486744 18; D 435265 18; D 388776 18; D 346916 18; D 30931 19; D 275582 18; D 245376 18; D 218349 18;
   D 194186 18; D 172596 18; D 153316 18; D 136105 18; D 120748 18; D 107051 18; D 948387 17; D 839561 17; D 742622 17; D 656314 17; D 579506 17;
   D 511185 17; D 450443 17; D 396463 17; D 348513 17; D 305937 17; D 268146 17; D 234613 17; D 204866 17; D 178483 17; D 155088 17; D 134345 17;
   D 115957 17; D 996603 16; D 852226 16; D 724418 16; D 611434 16; D 51179 17; D 424268 16; D 347909 16; D 282024 16; D 226217 16; D 180412 16;
   D 144903 16];
  [D 154932 17; D 1804 20; D 552986 18; D 102132 19; D 147662 19; D 18714 20; D 219554 19; D 245179 19; D 264752 19; D 279447 19; D 290511 19;
   D 298775 19; D 304755 19; D 30884 20; D 311427 19; D 31298 20; D 313862 19; D 314294 19; D 314399 19; D 314209 19; D 313744 19; D 313065 19;
   D 312221 19; D 311205 19; D 309982 19; D 308524 19; D 306854 19; D 305 22; D 302945 19; D 300639 19; D 298022 19; D 295048 19; D 291698 19;
   D 287935 19; D 283692 19; D 278885 19; D 273433 19; D 267274 19; D 260365 19; D 252662 19; D 24413 20; D 234754 19; D 224557 19; D 213605 19;
   D 201998 19; D 189867 19; D 177367 19; D 164674 19; D 151973 19; D 139448 19; D 130939 19; D 119309 19; D 108254 19; D 978587 18; D 881777 18;
   D 79238 19; D 710423 18; D 63574 19; D 568027 18; D 506881 18; D 451844 18; D 402431 18; D 358152 18; D 318532 18; D 283119 18; D 251495 18;
   D 223273 18; D 198101 18; D 175658 18; D 155659 18; D 137844 18; D 121983 18; D 107866 18; D 953092 17; D 841448 17; D 742235 17; D 654115 17;
   D 575888 17; D 50648 18; D 444926 17; D 390363 17; D 342019 17; D 2992 19; D 261288 17; D 227731 17; D 198034 17; D 171759 17; D 148515 17;
   D 127955 17; D 109773 17; D 936999 16; D 795022 16; D 66977 17; D 55953 17; D 462884 16; D 378717 16; D 306219 16; D 24491 17; D 194674 16;
   D 155809 16];
  [D 203852 17; D 2352 20; D 715311 18; D 1313 21; D 188957 19; D 23867 20; D 27928 20; D 311207 19; D 335454 19; D 353596 19; D 367213 19; D 377323 19;
   D 384565 19; D 389438 19; D 392474 19; D 394274 19; D 395272 19; D 39573 20; D 395784 19; D 395461 19; D 394797 19; D 393878 19; D 39275 20;
   D 391391 19; D 389752 19; D 387811 19; D 385613 19; D 383177 19; D 380465 19; D 377404 19; D 373917 19; D 369961 19; D 365509 19; D 360496 19;
   D 354825 19; D 348383 19; D 341074 19; D 332831 19; D 323596 19; D 313317 19; D 301958 19; D 289518 19; D 276056 19; D 261679 19; D 246539 19;
   D 230824 19; D 214749 19; D 198552 19; D 182477 19; D 166753 19; D 156253 19; D 14186 20; D 128276 19; D 115589 19; D 103847 19; D 930652 18;
   D 832302 18; D 743081 18; D 662504 18; D 589993 18; D 524924 18; D 466656 18; D 414566 18; D 368054 18; D 326564 18; D 289581 18; D 256633 18;
   D 227294 18; D 201183 18; D 177953 18; D 157296 18; D 138937 18; D 122627 18; D 108146 18; D 952948 17; D 838969 17; D 737934 17; D 648423 17;
   D 569166 17; D 499024 17; D 436981 17; D 382125 17; D 333646 17; D 290816 17; D 252988 17; D 219587 17; D 1901 19; D 164072 17; D 141101 17;
   D 120832 17; D 102953 17; D 871937 16; D 733197 16; D 61133 17; D 504696 16; D 411998 16; D 332288 16; D 264992 16; D 209942 16; D 167437 16];
  [D 268071 17; D 306468 18; D 924788 18; D 168716 19; D 241705 19; D 304287 19; D 355148 19; D 394911 19; D 424941 19; D 447338 19; D 464092 19;
   D 47645 20; D 48521 20; D 49101 20; D 494569 19; D 496651 19; D 497773 19; D 498248 19; D 498215 19; D 497702 19; D 496772 19; D 495536 19;
   D 49403 20; D 492212 19; D 490017 19; D 487446 19; D 484557 19; D 481355 19; D 477771 19; D 473703 19; D 469063 19; D 463807 19; D 45789 20;
   D 451208 19; D 443623 19; D 434993 19; D 425207 19; D 414188 19; D 401862 19; D 388167 19; D 373073 19; D 356614 19; D 338897 19; D 320091 19;
   D 300416 19; D 280138 19; D 259553 19; D 238978 19; D 218723 19; D 204904 19; D 186183 19; D 16844 20; D 151812 19; D 136382 19; D 122184 19;
   D 109215 19; D 974408 18; D 868032 18; D 772308 18; D 686437 18; D 609592 18; D 540945 18; D 479712 18; D 425146 18; D 376561 18; D 333328 18;
   D 294878 18; D 260699 18; D 23033 19; D 203359 18; D 179419 18; D 158178 18; D 139344 18; D 122652 18; D 107868 18; D 947819 17; D 83205 18;
   D 729695 17; D 639252 17; D 55938 18; D 48888 18; D 426682 17; D 371833 17; D 323482 17; D 280874 17; D 243334 17; D 210267 17; D 181145 17;
   D 1555 19; D 132921 17; D 113048 17; D 955686 16; D 802125 16; D 667509 16; D 549947 16; D 447934 16; D 360365 16; D 286555 16; D 226279 16;
   D 179833 16];
  [D 352317 17; D 399102 18; D 119499 19; D 216695 19; D 30906 20; D 387815 19; D 451495 19; D 500999 19; D 538182 19; D 565831 19; D 586438 19;
   D 601534 19; D 612113 19; D 619004 19; D 623171 19; D 625574 19; D 626826 19; D 627298 19; D 627129 19; D 626348 19; D 625065 19; D 623411 19;
   D 621401 19; D 618967 19; D 616037 19; D 612643 19; D 608852 19; D 604639 19; D 599896 19; D 594488 19; D 588319 19; D 581343 19; D 573476 19;
   D 564563 19; D 554416 19; D 542862 19; D 529777 19; D 515067 19; D 498637 19; D 480421 19; D 460412 19; D 438697 19; D 415457 19; D 390944 19;
   D 365473 19; D 339413 19; D 313166 19; D 287144 19; D 261734 19; D 244689 19; D 221534 19; D 199747 19; D 179463 19; D 160755 19; D 143636 19;
   D 128075 19; D 114008 19; D 101347 19; D 899914 18; D 798342 18; D 707675 18; D 626866 18; D 554929 18; D 490946 18; D 434077 18; D 38356 19;
   D 338708 18; D 298905 18; D 2636 20; D 2323 20; D 204565 18; D 180004 18; D 158266 18; D 139037 18; D 12204 19; D 107024 18; D 937672 17;
   D 820707 17; D 717571 17; D 626682 17; D 546629 17; D 476157 17; D 414147 17; D 359604 17; D 311644 17; D 269485 17; D 232431 17; D 19987 18;
   D 171261 17; D 146128 17; D 124056 17; D 104683 17; D 876993 16; D 728409 16; D 598896 16; D 486719 16; D 390591 16; D 3097 18; D 243753 16;
   D 193039 16];
  [D 462766 17; D 519444 18; D 154334 19; D 278194 19; D 395034 19; D 494114 19; D 573818 19; D 635427 19; D 681459 19; D 715589 19; D 740927 19;
   D 75935 20; D 772108 19; D 780279 19; D 785154 19; D 787917 19; D 789305 19; D 789741 19; D 789364 19; D 788217 19; D 786466 19; D 784258 19;
   D 781576 19; D 77832 20; D 774421 19; D 769954 19; D 764982 19; D 759432 19; D 753147 19; D 745958 19; D 737767 19; D 728511 19; D 718047 19;
   D 70615 20; D 692578 19; D 677125 19; D 659653 19; D 640038 19; D 618168 19; D 593984 19; D 567527 19; D 538966 19; D 508582 19; D 476744 19;
   D 443896 19; D 410542 19; D 377218 19; D 344447 19; D 321966 19; D 291785 19; D 263256 19; D 236596 19; D 211933 19; D 189316 19; D 168726 19;
   D 150095 19; D 133319 19; D 118273 19; D 10482 20; D 928174 18; D 821286 18; D 726218 18; D 641754 18; D 566763 18; D 500226 18; D 44122 19;
   D 388919 18; D 342585 18; D 301558 18; D 26525 19; D 233136 18; D 20475 19; D 179673 18; D 157535 18; D 138004 18; D 120785 18; D 105615 18;
   D 922576 17; D 805045 17; D 701691 17; D 610856 17; D 531066 17; D 46101 18; D 399525 17; D 345583 17; D 298269 17; D 256778 17; D 220399 17;
   D 188506 17; D 16055 18; D 136053 17; D 114598 17; D 958274 16; D 794393 16; D 651822 16; D 52856 17; D 423116 16; D 334533 16; D 262436 16;
   D 207105 16];
  [D 607473 17; D 6757 20; D 199224 19; D 356992 19; D 504742 19; D 629355 19; D 729083 19; D 80573 20; D 862708 19; D 904835 19; D 935977 19;
   D 958442 19; D 973802 19; D 983474 19; D 98917 20; D 992338 19; D 993858 19; D 994212 19; D 993527 19; D 991882 19; D 989515 19; D 98657 20;
   D 982992 19; D 97864 20; D 973471 19; D 967606 19; D 961082 19; D 953762 19; D 945426 19; D 935874 19; D 925012 19; D 912732 19; D 898804 19;
   D 88292 20; D 864771 19; D 844129 19; D 820828 19; D 794707 19; D 765641 19; D 733602 19; D 698714 19; D 661265 19; D 621676 19; D 580472 19;
   D 538273 19; D 49576 20; D 453627 19; D 412529 19; D 3848 21; D 347484 19; D 31246 20; D 279945 19; D 250046 19; D 222774 19; D 198066 19;
   D 175802 19; D 155829 19; D 137971 19; D 122048 19; D 107877 19; D 95285 19; D 841078 18; D 741949 18; D 654094 18; D 576274 18; D 50738 19;
   D 446418 18; D 392503 18; D 344848 18; D 302749 18; D 265583 18; D 232792 18; D 203881 18; D 178408 18; D 15598 19; D 136247 18; D 118898 18;
   D 103654 18; D 902696 17; D 785249 17; D 682251 17; D 591974 17; D 512884 17; D 443625 17; D 382996 17; D 329935 17; D 283509 17; D 242893 17;
   D 207365 17; D 176292 17; D 149122 17; D 125377 17; D 104648 17; D 865853 16; D 709021 16; D 573678 16; D 458099 16; D 361164 16; D 282402 16;
   D 222079 16];
  [D 796946 17; D 878502 18; D 257045 19; D 457915 19; D 644693 19; D 80137 20; D 926117 19; D 102144 20; D 109196 20; D 114395 20; D 118221 20;
   D 120958 20; D 122804 20; D 123947 20; D 124612 20; D 124973 20; D 125138 20; D 125157 20; D 125044 20; D 124813 20; D 124495 20; D 124103 20;
   D 123625 20; D 123045 20; D 122362 20; D 121593 20; D 120736 20; D 119769 20; D 118663 20; D 117396 20; D 115956 20; D 114326 20; D 112471 20;
   D 11035 21; D 107926 20; D 105172 20; D 102068 20; D 985937 19; D 947375 19; D 905029 19; D 859155 19; D 810209 19; D 7588 21; D 705671 19;
   D 651671 19; D 597702 19; D 544651 19; D 50801 20; D 459277 19; D 413306 19; D 370452 19; D 330917 19; D 294769 19; D 261963 19; D 232371 19;
   D 20581 20; D 182062 19; D 160893 19; D 142063 19; D 125345 19; D 110518 19; D 973831 18; D 857543 18; D 754656 18; D 663675 18; D 583264 18;
   D 512234 18; D 449525 18; D 394195 18; D 345406 18; D 302414 18; D 264555 18; D 231242 18; D 201949 18; D 17621 19; D 153611 18; D 133782 18;
   D 116398 18; D 101166 18; D 878286 17; D 761577 17; D 659506 17; D 57028 18; D 492317 17; D 42422 18; D 364757 17; D 312844 17; D 26753 18;
   D 22798 18; D 193465 17; D 163352 17; D 137092 17; D 114215 17; D 943209 16; D 770812 16; D 622308 16; D 495712 16; D 389712 16; D 303732 16;
   D 238014 16];
  [D 104489 18; D 114158 19; D 331493 19; D 587128 19; D 823167 19; D 10201 21; D 11761 21; D 12946 21; D 138187 20; D 144603 20; D 149301 20;
   D 152632 20; D 154847 20; D 156197 20; D 156971 20; D 157382 20; D 157556 20; D 157549 20; D 157373 20; D 157053 20; D 156628 20; D 156106 20;
   D 155468 20; D 154695 20; D 153796 20; D 152789 20; D 151663 20; D 150385 20; D 148917 20; D 147237 20; D 14533 21; D 143166 20; D 140694 20;
   D 137862 20; D 134626 20; D 130956 20; D 126826 20; D 122212 20; D 117106 20; D 111523 20; D 10551 21; D 991325 19; D 924797 19; D 856545 19;
   D 787713 19; D 719477 19; D 652946 19; D 607733 19; D 547477 19; D 491037 19; D 438767 19; D 390832 19; D 347234 19; D 307853 19; D 272476 19;
   D 240836 19; D 212633 19; D 18756 20; D 165312 19; D 1456 21; D 128153 19; D 112723 19; D 990861 18; D 870414 18; D 764084 18; D 670268 18;
   D 58754 19; D 514633 18; D 450422 18; D 393907 18; D 344202 18; D 300517 18; D 262153 18; D 228487 18; D 198967 18; D 173101 18; D 150454 18;
   D 130641 18; D 113318 18; D 981829 17; D 849674 17; D 734347 17; D 633755 17; D 546055 17; D 469623 17; D 40303 18; D 345022 17; D 2945 19;
   D 250503 17; D 212192 17; D 17884 18; D 149818 17; D 124587 17; D 102691 17; D 837532 16; D 674702 16; D 536133 16; D 420303 16; D 326509 16;
   D 254963 16];
  [D 136933 18; D 148269 19; D 427304 19; D 752505 19; D 10507 21; D 129817 20; D 149319 20; D 164046 20; D 174845 20; D 182762 20; D 188528 20;
   D 192578 20; D 19523 21; D 196821 20; D 197722 20; D 198188 20; D 198366 20; D 198317 20; D 198053 20; D 197614 20; D 197048 20; D 196353 20;
   D 195503 20; D 194477 20; D 193296 20; D 191977 20; D 190496 20; D 188804 20; D 186857 20; D 184632 20; D 182107 20; D 17923 21; D 175936 20;
   D 172156 20; D 167842 20; D 162958 20; D 15747 21; D 151352 20; D 144605 20; D 137265 20; D 129404 20; D 121123 20; D 112544 20; D 103808 20;
   D 950686 19; D 864752 19; D 804922 19; D 726095 19; D 65185 20; D 582778 19; D 519208 19; D 461235 19; D 40877 20; D 361584 19; D 319356 19;
   D 281713 19; D 248255 19; D 218583 19; D 192313 19; D 169083 19; D 148561 19; D 130442 19; D 114457 19; D 100362 19; D 879396 18; D 769982 18;
   D 673669 18; D 588943 18; D 51446 19; D 449029 18; D 391593 18; D 341213 18; D 297059 18; D 25839 19; D 224554 18; D 194968 18; D 169119 18;
   D 146553 18; D 126865 18; D 109701 18; D 947467 17; D 817251 17; D 703922 17; D 605335 17; D 519605 17; D 445077 17; D 380302 17; D 324011 17;
   D 2751 19; D 232603 17; D 195688 17; D 163635 17; D 135826 17; D 111744 17; D 909544 16; D 731126 16; D 579556 16; D 453071 16; D 350821 16;
   D 272985 16];
  [D 179371 18; D 192477 19; D 550558 19; D 964091 19; D 134068 20; D 165158 20; D 189531 20; D 207829 20; D 221189 20; D 230957 20; D 23803 21;
   D 242948 20; D 24612 21; D 247994 20; D 24904 21; D 249563 20; D 249737 20; D 249623 20; D 249239 20; D 248645 20; D 247891 20; D 246967 20;
   D 245833 20; D 244476 20; D 242929 20; D 241201 20; D 239249 20; D 237008 20; D 234428 20; D 231485 20; D 228138 20; D 224314 20; D 219923 20;
   D 214882 20; D 209139 20; D 202646 20; D 195361 20; D 187262 20; D 178368 20; D 168745 20; D 158502 20; D 147782 20; D 136758 20; D 125619 20;
   D 114565 20; D 103784 20; D 963958 19; D 866462 19; D 775279 19; D 691001 19; D 613892 19; D 543942 19; D 48093 20; D 424486 19; D 37415 20;
   D 329415 19; D 289757 19; D 254669 19; D 223666 19; D 196303 19; D 172172 19; D 150906 19; D 132174 19; D 115684 19; D 101177 19; D 884217 18;
   D 772136 18; D 673719 18; D 587363 18; D 511647 18; D 445314 18; D 387247 18; D 336457 18; D 29207 19; D 25331 19; D 219491 18; D 190007 18;
   D 164321 18; D 14196 19; D 122509 18; D 105598 18; D 909046 17; D 781452 17; D 6707 19; D 574605 17; D 491252 17; D 418967 17; D 35629 18;
   D 30195 18; D 254841 17; D 214009 17; D 17863 18; D 148001 17; D 12153 18; D 987234 16; D 791863 16; D 626183 16; D 488153 16; D 376761 16;
   D 292136 16];
  [D 234851 18; D 249743 19; D 709052 19; D 12347 21; D 171017 20; D 210065 20; D 240515 20; D 263243 20; D 279774 20; D 291821 20; D 300492 20;
   D 306458 20; D 310245 20; D 312449 20; D 31366 21; D 314243 20; D 314401 20; D 314192 20; D 313645 20; D 312846 20; D 311844 20; D 310613 20;
   D 309103 20; D 307314 20; D 305291 20; D 303024 20; D 300449 20; D 297481 20; D 294066 20; D 290173 20; D 285737 20; D 280651 20; D 274797 20;
   D 268083 20; D 260444 20; D 251821 20; D 242166 20; D 231467 20; D 219771 20; D 20719 21; D 193884 20; D 180054 20; D 165937 20; D 151787 20;
   D 137859 20; D 128072 20; D 115299 20; D 10328 21; D 921161 19; D 818613 19; D 725309 19; D 641084 19; D 565537 19; D 498118 19; D 438188 19;
   D 385074 19; D 338103 19; D 296632 19; D 260064 19; D 227847 19; D 199484 19; D 174529 19; D 152587 19; D 133304 19; D 116368 19; D 101503 19;
   D 88466 19; D 770393 18; D 670321 18; D 582751 18; D 506184 18; D 439294 18; D 380907 18; D 329987 18; D 285615 18; D 246981 18; D 213371 18;
   D 184153 18; D 158774 18; D 136743 18; D 117632 18; D 101064 18; D 86708 18; D 742744 17; D 6351 19; D 541936 17; D 461323 17; D 39158 18;
   D 331247 17; D 279059 17; D 233922 17; D 194897 17; D 161184 17; D 132105 17; D 107101 17; D 857218 16; D 67623 17; D 525699 16; D 404424 16;
   D 312478 16];
  [D 307343 18; D 323895 19; D 912782 19; D 15807 21; D 218083 20; D 267114 20; D 305147 20; D 333368 20; D 353819 20; D 368675 20; D 3793 22;
   D 386528 20; D 39104 21; D 393632 20; D 39503 21; D 395674 20; D 395794 20; D 395447 20; D 394681 20; D 393612 20; D 392282 20; D 390643 20;
   D 388637 20; D 386286 20; D 38364 21; D 380665 20; D 377264 20; D 373334 20; D 368818 20; D 363671 20; D 357787 20; D 351019 20; D 343221 20;
   D 334287 20; D 324139 20; D 3127 22; D 299923 20; D 285818 20; D 270479 20; D 254078 20; D 236846 20; D 219064 20; D 201051 20; D 183142 20;
   D 165657 20; D 153557 20; D 137749 20; D 12298 21; D 10935 21; D 969034 19; D 856383 19; D 755159 19; D 664726 19; D 5843 21; D 513021 19;
   D 450008 19; D 39441 20; D 345425 19; D 302309 19; D 264391 19; D 231065 19; D 201793 19; D 176098 19; D 153556 19; D 133793 19; D 116478 19;
   D 10132 20; D 880592 18; D 764684 18; D 663456 18; D 575125 18; D 498116 18; D 431035 18; D 372655 18; D 321889 18; D 277783 18; D 239494 18;
   D 206281 18; D 177493 18; D 152558 18; D 130975 18; D 112304 18; D 961615 17; D 822116 17; D 701612 17; D 597549 17; D 507704 17; D 430146 17;
   D 363202 17; D 305421 17; D 255557 17; D 212537 17; D 175451 17; D 143528 17; D 116132 17; D 927509 16; D 729922 16; D 56586 17; D 43391 17;
   D 334073 16];
  [D 402012 18; D 419867 19; D 117456 20; D 202293 20; D 278019 20; D 339571 20; D 38706 21; D 422094 20; D 447395 20; D 465711 20; D 478719 20;
   D 487465 20; D 492835 20; D 495878 20; D 497488 20; D 49819 21; D 498242 20; D 497697 20; D 496641 20; D 495216 20; D 49345 21; D 491269 20;
   D 488612 20; D 48553 21; D 482069 20; D 478159 20; D 473665 20; D 468464 20; D 462498 20; D 45569 21; D 447881 20; D 438875 20; D 428495 20;
   D 416621 20; D 403152 20; D 387998 20; D 371118 20; D 352566 20; D 332503 20; D 311184 20; D 288937 20; D 26615 21; D 243249 20; D 220665 20;
   D 204628 20; D 183894 20; D 164392 20; D 146296 20; D 1297 22; D 114629 20; D 101055 20; D 889099 19; D 780996 19; D 68516 20; D 600455 19;
   D 525753 19; D 459984 19; D 402146 19; D 35133 20; D 306716 19; D 267572 19; D 233248 19; D 203169 19; D 176827 19; D 153774 19; D 133613 19;
   D 115997 19; D 100615 19; D 871972 18; D 75502 19; D 653175 18; D 564566 18; D 487543 18; D 420649 18; D 362605 18; D 312282 18; D 26869 19;
   D 230958 18; D 198324 18; D 17012 19; D 14576 19; D 124733 18; D 106594 18; D 909526 17; D 774709 17; D 658543 17; D 558471 17; D 472276 17;
   D 398039 17; D 334106 17; D 279052 17; D 231658 17; D 190885 17; D 155861 17; D 125863 17; D 100308 17; D 787498 16; D 6088 18; D 465321 16;
   D 35698 17];
  [D 52558 19; D 544028 19; D 151079 20; D 2588 22; D 354326 20; D 431579 20; D 490855 20; D 534339 20; D 565639 20; D 588213 20; D 604129 20;
   D 614698 20; D 621079 20; D 624648 20; D 626494 20; D 627246 20; D 627185 20; D 626365 20; D 624924 20; D 623031 20; D 620686 20; D 617785 20;
   D 614274 20; D 610242 20; D 605714 20; D 60057 21; D 594628 20; D 587752 20; D 579875 20; D 570865 20; D 560497 20; D 548515 20; D 534711 20;
   D 518946 20; D 501089 20; D 48104 21; D 458783 20; D 434439 20; D 408269 20; D 380639 20; D 352009 20; D 322907 20; D 293894 20; D 265516 20;
   D 24566 21; D 219977 20; D 195992 20; D 173881 20; D 153722 20; D 135511 20; D 119185 20; D 104634 20; D 917273 19; D 803185 19; D 702601 19;
   D 614098 19; D 53633 20; D 468068 19; D 408197 19; D 355723 19; D 30976 20; D 269524 19; D 234326 19; D 203556 19; D 176676 19; D 153212 19;
   D 132748 19; D 114916 19; D 993907 18; D 858861 18; D 7415 20; D 639604 18; D 551215 18; D 474614 18; D 408287 18; D 350906 18; D 301307 18;
   D 258469 18; D 221499 18; D 189616 18; D 162139 18; D 138473 18; D 118102 18; D 100575 18; D 855012 17; D 725414 17; D 614016 17; D 518278 17;
   D 436005 17; D 365306 17; D 304558 17; D 252374 17; D 207575 17; D 169171 17; D 136342 17; D 108428 17; D 849209 16; D 654683 16; D 498762 16;
   D 381264 16];
  [D 686782 18; D 704589 19; D 19425 21; D 330978 20; D 451451 20; D 548386 20; D 622355 20; D 676315 20; D 715033 20; D 74285 21; D 762307 20;
   D 775061 20; D 782634 20; D 786816 20; D 788924 20; D 789709 20; D 78947 21; D 788273 20; D 786324 20; D 783812 20; D 780699 20; D 776843 20;
   D 772219 20; D 766951 20; D 761023 20; D 754247 20; D 746392 20; D 73731 21; D 726911 20; D 714983 20; D 701213 20; D 685277 20; D 666939 20;
   D 646029 20; D 622381 20; D 595896 20; D 566608 20; D 534746 20; D 500702 20; D 465 23; D 428274 20; D 391233 20; D 354606 20; D 328291 20;
   D 294579 20; D 262865 20; D 23345 21; D 206502 20; D 18207 21; D 160108 20; D 140501 20; D 123092 20; D 107698 20; D 941278 19; D 821924 19;
   D 717117 19; D 625202 19; D 544665 19; D 47415 20; D 41245 20; D 358497 19; D 311348 19; D 270175 19; D 234245 19; D 202916 19; D 175621 19;
   D 151861 19; D 131198 19; D 113243 19; D 976577 18; D 841413 18; D 724303 18; D 622932 18; D 535266 18; D 45952 19; D 394131 18; D 337732 18;
   D 289126 18; D 247268 18; D 211249 18; D 180275 18; D 153656 18; D 130792 18; D 111164 18; D 943196 17; D 798698 17; D 674767 17; D 568491 17;
   D 477363 17; D 399227 17; D 332234 17; D 274809 17; D 225615 17; D 183529 17; D 147623 17; D 117149 17; D 915316 16; D 703682 16; D 534338 16;
   D 406983 16];
  [D 896975 18; D 912136 19; D 24966 21; D 423146 20; D 575046 20; D 696645 20; D 788924 20; D 855873 20; D 903765 20; D 938028 20; D 961799 20;
   D 977165 20; D 986144 20; D 991036 20; D 993432 20; D 99422 21; D 993712 20; D 992001 20; D 989384 20; D 986055 20; D 981922 20; D 976806 20;
   D 970734 20; D 963855 20; D 956085 20; D 947153 20; D 936772 20; D 924789 20; D 911058 20; D 895259 20; D 876967 20; D 855787 20; D 831453 20;
   D 803745 20; D 772466 20; D 737535 20; D 699082 20; D 657486 20; D 613322 20; D 567327 20; D 520367 20; D 473383 20; D 4273 22; D 394661 20;
   D 352856 20; D 313809 20; D 27783 21; D 245065 20; D 215515 20; D 189074 20; D 165562 20; D 144757 20; D 126413 20; D 110283 20; D 961277 19;
   D 837226 19; D 728632 19; D 633645 19; D 550618 19; D 478093 19; D 414781 19; D 359551 19; D 311406 19; D 269469 19; D 23297 20; D 201232 19;
   D 173659 19; D 149726 19; D 128974 19; D 110997 19; D 954389 18; D 819872 18; D 703679 18; D 603408 18; D 516957 18; D 442487 18; D 378394 18;
   D 323275 18; D 275913 18; D 235245 18; D 20035 19; D 170426 18; D 14478 19; D 122811 18; D 104 21; D 87898 18; D 741184 17; D 623278 17; D 5224 19;
   D 436092 17; D 362254 17; D 299098 17; D 245106 17; D 19901 18; D 15976 18; D 12651 18; D 986087 16; D 755973 16; D 572156 16; D 434196 16];
  [D 117101 19; D 118031 20; D 320754 20; D 540809 20; D 732287 20; D 884789 20; D 999876 20; D 108293 21; D 114216 21; D 118435 21; D 121337 21;
   D 123186 21; D 124249 21; D 12482 22; D 125091 21; D 125165 21; D 125075 21; D 124835 21; D 124485 21; D 124044 21; D 123496 21; D 122818 21;
   D 122023 21; D 121125 21; D 120105 21; D 118927 21; D 117556 21; D 115976 21; D 114163 21; D 112069 21; D 109639 21; D 106827 21; D 103601 21;
   D 999329 20; D 95801 21; D 912024 20; D 861655 20; D 807491 20; D 75036 21; D 691284 20; D 631435 20; D 572036 20; D 514248 20; D 473918 20;
   D 422232 20; D 374288 20; D 330391 20; D 290639 20; D 254965 20; D 22318 21; D 195021 20; D 170182 20; D 14834 21; D 12918 21; D 1124 22;
   D 977233 19; D 848976 19; D 736981 19; D 639252 19; D 554029 19; D 479761 19; D 415086 19; D 35881 20; D 309881 19; D 267379 19; D 230492 19;
   D 198509 19; D 170805 19; D 146832 19; D 126107 19; D 108209 19; D 927663 18; D 794557 18; D 679937 18; D 581325 18; D 496563 18; D 423768 18;
   D 361302 18; D 307742 18; D 261853 18; D 222562 18; D 188943 18; D 160192 18; D 135618 18; D 114622 18; D 966895 17; D 813768 17; D 683033 17;
   D 571422 17; D 476141 17; D 394803 17; D 32538 18; D 266156 17; D 215695 17; D 172812 17; D 136553 17; D 10618 18; D 811733 16; D 612317 16;
   D 462949 16];
  [D 152816 19; D 152669 20; D 41194 21; D 690975 20; D 932286 20; D 11235 22; D 126699 21; D 137001 21; D 144327 21; D 14952 22; D 153059 21;
   D 15528 22; D 156538 21; D 157204 21; D 157507 21; D 15757 22; D 157422 21; D 15709 22; D 156625 21; D 156041 21; D 155312 21; D 154418 21;
   D 153378 21; D 152205 21; D 150866 21; D 149312 21; D 147503 21; D 14542 22; D 143024 21; D 140248 21; D 137022 21; D 133291 21; D 129019 21;
   D 124168 21; D 118718 21; D 112676 21; D 106094 21; D 990595 20; D 916897 20; D 841253 20; D 765221 20; D 690374 20; D 636654 20; D 568489 20;
   D 504768 20; D 446054 20; D 392618 20; D 344485 20; D 301489 20; D 263334 20; D 229646 20; D 200016 20; D 174028 20; D 151281 20; D 131399 20;
   D 11404 21; D 988965 19; D 856956 19; D 741957 19; D 641845 19; D 554753 19; D 479047 19; D 413292 19; D 356231 19; D 306759 19; D 263908 19;
   D 226828 19; D 194775 19; D 167095 19; D 143216 19; D 122637 19; D 104919 19; D 8968 20; D 765851 18; D 653433 18; D 557012 18; D 474382 18;
   D 40363 19; D 343097 18; D 291345 18; D 247131 18; D 209381 18; D 177169 18; D 149696 18; D 126274 18; D 106314 18; D 893064 17; D 748181 17;
   D 624763 17; D 519632 17; D 430079 17; D 353807 17; D 288877 17; D 233667 17; D 18684 18; D 14732 18; D 114275 17; D 871137 16; D 654915 16;
   D 493284 16];
  [D 199344 19; D 197391 20; D 528856 20; D 882569 20; D 118662 21; D 142631 21; D 160517 21; D 173293 21; D 182353 21; D 188742 21; D 193054 21;
   D 195719 21; D 197207 21; D 197981 21; D 198318 21; D 198357 21; D 198129 21; D 197674 21; D 197057 21; D 196284 21; D 195318 21; D 19414 22;
   D 192783 21; D 191249 21; D 189489 21; D 187438 21; D 185053 21; D 182308 21; D 17914 22; D 17546 22; D 171179 21; D 166235 21; D 160581 21;
   D 154174 21; D 146996 21; D 139074 21; D 130494 21; D 121382 21; D 111903 21; D 102247 21; D 926187 20; D 832177 20; D 765652 20; D 681252 20;
   D 602906 20; D 531176 20; D 466267 20; D 408091 20; D 356348 20; D 310601 20; D 270339 20; D 235022 20; D 204118 20; D 177124 20; D 153575 20;
   D 133051 20; D 115176 20; D 996212 19; D 860931 19; D 743365 19; D 641272 19; D 552686 19; D 475887 19; D 409369 19; D 351811 19; D 302056 19;
   D 259089 19; D 222023 19; D 190081 19; D 162582 19; D 138934 19; D 118616 19; D 101179 19; D 862267 18; D 734183 18; D 624561 18; D 530821 18;
   D 450729 18; D 382353 18; D 324022 18; D 274296 18; D 231932 18; D 195861 18; D 165164 18; D 139051 18; D 116845 18; D 97966 18; D 819184 17;
   D 682781 17; D 566841 17; D 468295 17; D 384541 17; D 313391 17; D 253015 17; D 201907 17; D 158855 17; D 12292 18; D 934351 16; D 700032 16;
   D 525227 16];
  [D 259933 19; D 255111 20; D 678715 20; D 112695 21; D 150997 21; D 181036 21; D 203325 21; D 219169 21; D 230372 21; D 238228 21; D 243478 21;
   D 24667 22; D 248428 21; D 249325 21; D 249695 21; D 249695 21; D 249355 21; D 248738 21; D 247921 21; D 246897 21; D 245616 21; D 244069 21;
   D 2423 23; D 240294 21; D 237978 21; D 235272 21; D 232131 21; D 228512 21; D 224323 21; D 219443 21; D 213766 21; D 207221 21; D 199746 21;
   D 191294 21; D 181855 21; D 171492 21; D 160334 21; D 148564 21; D 136406 21; D 124117 21; D 111964 21; D 103114 21; D 919834 20; D 815624 20;
   D 719539 20; D 632104 20; D 553411 20; D 483211 20; D 421025 20; D 366235 20; D 318155 20; D 276087 20; D 239358 20; D 207338 20; D 179455 20;
   D 155196 20; D 134104 20; D 11578 21; D 998709 19; D 860693 19; D 741055 19; D 637437 19; D 547777 19; D 47027 20; D 403336 19; D 345591 19;
   D 295827 19; D 252986 19; D 216144 19; D 184494 19; D 157333 19; D 134048 19; D 114106 19; D 970431 18; D 824579 18; D 700017 18; D 593733 18;
   D 503119 18; D 425927 18; D 360218 18; D 304322 18; D 256806 18; D 216436 18; D 182154 18; D 153056 18; D 128365 18; D 107419 18; D 896537 17;
   D 745861 17; D 618066 17; D 509676 17; D 417753 17; D 339825 17; D 273832 17; D 218079 17; D 171202 17; D 132145 17; D 100153 17; D 747737 16;
   D 558789 16];
  [D 338794 19; D 329577 20; D 87074 21; D 14386 22; D 192099 21; D 229735 21; D 257504 21; D 27715 22; D 291001 21; D 300659 21; D 307042 21;
   D 310862 21; D 312937 21; D 313974 21; D 314374 21; D 314309 21; D 313815 21; D 312986 21; D 311905 21; D 31055 22; D 308854 21; D 306828 21;
   D 304521 21; D 301894 21; D 298846 21; D 295278 21; D 291143 21; D 286372 21; D 280829 21; D 274359 21; D 266838 21; D 25818 22; D 248309 21;
   D 237172 21; D 224786 21; D 21126 22; D 196786 21; D 181621 21; D 166073 21; D 150483 21; D 135189 21; D 124203 21; D 110399 21; D 975653 20;
   D 858092 20; D 751736 20; D 656499 20; D 571915 20; D 497268 20; D 43171 21; D 374338 20; D 324257 20; D 280624 20; D 242656 20; D 209652 20;
   D 180985 20; D 156104 20; D 134524 20; D 115821 20; D 996243 19; D 856097 19; D 734945 19; D 630314 19; D 540042 19; D 46224 20; D 395256 19;
   D 337648 19; D 288158 19; D 245687 19; D 209278 19; D 1781 21; D 151428 19; D 128634 19; D 109173 19; D 925736 18; D 784278 18; D 663836 18;
   D 561373 18; D 474276 18; D 400295 18; D 337499 18; D 284232 18; D 239074 18; D 20081 19; D 168402 18; D 140962 18; D 117736 18; D 980779 17;
   D 814417 17; D 673623 17; D 554465 17; D 453623 17; D 368311 17; D 296213 17; D 235422 17; D 184404 17; D 141975 17; D 107281 17; D 798074 16;
   D 59395 17];
  [D 441396 19; D 425615 20; D 111672 21; D 183592 21; D 244332 21; D 291478 21; D 326065 21; D 350425 21; D 367547 21; D 379412 21; D 387167 21;
   D 391731 21; D 394179 21; D 395373 21; D 395796 21; D 395633 21; D 394929 21; D 39382 22; D 392392 21; D 390597 21; D 388357 21; D 385708 21;
   D 3827 23; D 379259 21; D 375244 21; D 370544 21; D 365103 21; D 358809 21; D 351473 21; D 342899 21; D 332944 21; D 321502 21; D 308478 21;
   D 293827 21; D 277604 21; D 25999 22; D 241262 21; D 221777 21; D 201952 21; D 182233 21; D 163046 21; D 149454 21; D 132379 21; D 116614 21;
   D 102262 21; D 8935 22; D 778427 20; D 676645 20; D 587135 20; D 508759 20; D 440342 20; D 380752 20; D 328936 20; D 283931 20; D 244876 20;
   D 211012 20; D 181669 20; D 156262 20; D 134281 20; D 11528 21; D 988689 19; D 847093 19; D 725042 19; D 61995 20; D 529557 19; D 451893 19;
   D 385239 19; D 328096 19; D 279162 19; D 237302 19; D 201531 19; D 170996 19; D 144956 19; D 122772 19; D 10389 20; D 878339 18; D 741927 18;
   D 626128 18; D 527906 18; D 444656 18; D 374146 18; D 314463 18; D 263976 18; D 221288 18; D 185212 18; D 154733 18; D 128989 18; D 107249 18;
   D 888894 17; D 733854 17; D 602917 17; D 492341 17; D 39899 18; D 320258 17; D 254003 17; D 198505 17; D 152433 17; D 114829 17; D 851052 16;
   D 630654 16];
  [D 574825 19; D 549429 20; D 143171 21; D 234235 21; D 310698 21; D 369744 21; D 412812 21; D 443015 21; D 464178 21; D 478748 21; D 488158 21;
   D 493607 21; D 496489 21; D 49786 22; D 498291 21; D 497982 21; D 496997 21; D 49552 22; D 493634 21; D 491257 21; D 488304 21; D 484849 21;
   D 480926 21; D 476411 21; D 471123 21; D 464937 21; D 457778 21; D 449471 21; D 439761 21; D 428406 21; D 415241 21; D 400133 21; D 382969 21;
   D 363724 21; D 342521 21; D 319637 21; D 295465 21; D 270498 21; D 245294 21; D 220427 21; D 202275 21; D 179666 21; D 1586 23; D 139279 21;
   D 121795 21; D 106145 21; D 922612 20; D 800279 20; D 693048 20; D 599412 20; D 517872 20; D 446999 20; D 385489 20; D 332157 20; D 285956 20;
   D 245962 20; D 211366 20; D 181463 20; D 155638 20; D 133355 20; D 114146 20; D 976032 19; D 833724 19; D 711434 19; D 606463 19; D 51646 20;
   D 439376 19; D 373432 19; D 317079 19; D 268976 19; D 227958 19; D 193018 19; D 163287 19; D 138012 19; D 116545 19; D 983306 18; D 828887 18;
   D 698084 18; D 587375 18; D 493743 18; D 41461 19; D 347774 18; D 291356 18; D 243758 18; D 203618 18; D 16978 19; D 141261 18; D 117228 18;
   D 969769 17; D 799118 17; D 655305 17; D 53411 18; D 432007 17; D 346067 17; D 273888 17; D 213544 17; D 163542 17; D 122804 17; D 906629 16;
   D 668805 16];
  [D 748269 19; D 708997 20; D 183494 21; D 298767 21; D 395005 21; D 468938 21; D 522555 21; D 560001 21; D 586152 21; D 604033 21; D 61544 22;
   D 621937 21; D 625328 21; D 626894 21; D 627312 21; D 62679 22; D 625428 21; D 62347 22; D 620979 21; D 617832 21; D 613951 21; D 609449 21;
   D 604327 21; D 598401 21; D 591436 21; D 583302 21; D 573881 21; D 562912 21; D 55006 22; D 535033 21; D 51764 22; D 497708 21; D 475117 21;
   D 449882 21; D 422229 21; D 392567 21; D 361449 21; D 329546 21; D 297596 21; D 26633 22; D 243809 21; D 215789 21; D 189863 21; D 166236 21;
   D 144975 21; D 126038 21; D 109309 21; D 946213 20; D 817859 20; D 706064 20; D 608927 20; D 52467 21; D 451674 20; D 388493 20; D 333852 20;
   D 286631 20; D 245854 20; D 210671 20; D 18034 21; D 154217 20; D 131741 20; D 112423 20; D 958373 19; D 816136 19; D 694294 19; D 590041 19;
   D 500941 19; D 424877 19; D 360015 19; D 304765 19; D 257755 19; D 217797 19; D 183867 19; D 155085 19; D 130693 19; D 11004 20; D 925691 18;
   D 778018 18; D 653297 18; D 548042 18; D 459277 18; D 384466 18; D 321454 18; D 268406 18; D 223767 18; D 186217 18; D 154637 18; D 128083 18;
   D 105755 18; D 869801 17; D 711913 17; D 579138 17; D 467509 17; D 373739 17; D 295141 17; D 229556 17; D 175316 17; D 131206 17; D 96471 17;
   D 708262 16];
  [D 973665 19; D 914574 20; D 235102 21; D 380982 21; D 502084 21; D 594636 21; D 661369 21; D 707794 21; D 740104 21; D 762036 21; D 775846 21;
   D 783586 21; D 78757 22; D 789349 21; D 789719 21; D 788893 21; D 787031 21; D 78444 22; D 781151 21; D 776988 21; D 7719 23; D 766036 21;
   D 759347 21; D 751561 21; D 742394 21; D 731704 21; D 719302 21; D 704814 21; D 687806 21; D 667938 21; D 644976 21; D 618706 21; D 589009 21;
   D 555983 21; D 519995 21; D 481639 21; D 441682 21; D 40103 22; D 360645 21; D 330653 21; D 293593 21; D 258955 21; D 227122 21; D 198287 21;
   D 172478 21; D 149598 21; D 129463 21; D 111845 21; D 96492 21; D 831517 20; D 715855 20; D 615718 20; D 529117 20; D 454288 20; D 389682 20;
   D 333944 20; D 285896 20; D 244512 20; D 208901 20; D 178289 20; D 152001 20; D 12945 21; D 110129 20; D 935926 19; D 794567 19; D 673867 19;
   D 570927 19; D 483235 19; D 408616 19; D 345192 19; D 29134 20; D 245666 19; D 206965 19; D 174207 19; D 146505 19; D 123099 19; D 103342 19;
   D 866784 18; D 72635 19; D 608088 18; D 508567 18; D 424872 18; D 354527 18; D 295434 18; D 245815 18; D 204165 18; D 169213 18; D 139886 18;
   D 115279 18; D 94631 18; D 773044 17; D 62764 18; D 505643 17; D 403373 17; D 31782 18; D 246572 17; D 18776 18; D 140025 17; D 102514 17;
   D 748829 16];
  [D 126652 20; D 117934 21; D 301132 21; D 485701 21; D 638056 21; D 753894 21; D 836936 21; D 894489 21; D 9344 23; D 961283 21; D 977983 21;
   D 987196 21; D 991868 21; D 993875 21; D 994144 21; D 992892 21; D 990371 21; D 986948 21; D 982603 21; D 977104 21; D 970448 21; D 962815 21;
   D 954069 21; D 943837 21; D 931779 21; D 917734 21; D 901401 21; D 882261 21; D 859763 21; D 833517 21; D 803228 21; D 768639 21; D 729661 21;
   D 686519 21; D 639789 21; D 590308 21; D 539135 21; D 487477 21; D 436576 21; D 399256 21; D 353225 21; D 310508 21; D 271506 21; D 236383 21;
   D 205104 21; D 177494 21; D 153287 21; D 13217 22; D 113817 21; D 979071 20; D 8414 22; D 722426 20; D 619712 20; D 531111 20; D 454742 20;
   D 38897 21; D 332371 20; D 28371 21; D 241915 20; D 206055 20; D 17532 21; D 149008 20; D 126509 20; D 107293 20; D 909008 19; D 769334 19;
   D 650463 19; D 549414 19; D 463613 19; D 39084 20; D 329184 19; D 277002 19; D 232882 19; D 195616 19; D 16417 20; D 137659 19; D 115327 19;
   D 96533 19; D 807279 18; D 674466 18; D 562941 18; D 469351 18; D 390858 18; D 325062 18; D 269933 18; D 223756 18; D 185088 18; D 152712 18;
   D 125605 18; D 102907 18; D 839008 17; D 679834 17; D 546559 17; D 43506 18; D 341976 17; D 264608 17; D 200871 17; D 149246 17; D 108767 17;
   D 790238 16];
  [D 164689 20; D 152022 21; D 38559 22; D 619052 21; D 810689 21; D 95564 22; D 105896 22; D 11303 23; D 117959 22; D 121252 22; D 123269 22;
   D 124365 22; D 124912 22; D 125136 22; D 125145 22; D 124961 22; D 124622 22; D 124171 22; D 123597 22; D 122871 22; D 122002 22; D 121009 22;
   D 119864 22; D 118519 22; D 116934 22; D 115089 22; D 112938 22; D 110408 22; D 107434 22; D 10397 23; D 99978 22; D 954289 21; D 903208 21;
   D 846967 21; D 78642 22; D 722743 21; D 657377 21; D 591915 21; D 527935 21; D 48164 22; D 42461 22; D 37205 22; D 324362 21; D 281652 21;
   D 243799 21; D 21052 22; D 181444 21; D 156154 21; D 134227 21; D 115259 21; D 988778 20; D 847464 20; D 725672 20; D 620789 20; D 530541 20;
   D 452948 20; D 386297 20; D 329098 20; D 280063 20; D 238072 20; D 202153 20; D 171465 20; D 145278 20; D 122958 20; D 103958 20; D 878022 19;
   D 740821 19; D 624439 19; D 525829 19; D 44237 20; D 371813 19; D 312224 19; D 261951 19; D 219579 19; D 183901 19; D 153886 19; D 128657 19;
   D 10747 20; D 896907 18; D 747825 18; D 622905 18; D 518299 18; D 430756 18; D 357529 18; D 296304 18; D 245132 18; D 202372 18; D 166645 18;
   D 136795 18; D 111854 18; D 910124 17; D 735941 17; D 590399 17; D 468887 17; D 367646 17; D 283669 17; D 214632 17; D 15884 18; D 115199 17;
   D 832151 16];
  [D 214074 20; D 195895 21; D 493588 21; D 788827 21; D 102983 22; D 121117 22; D 133969 22; D 142813 22; D 148898 22; D 15293 23; D 155362 22;
   D 156665 22; D 157304 22; D 157552 22; D 157531 22; D 157267 22; D 156814 22; D 156218 22; D 15546 23; D 154505 22; D 153373 22; D 152079 22;
   D 15058 23; D 148811 22; D 14673 23; D 144307 22; D 141471 22; D 138129 22; D 1342 24; D 129631 22; D 124374 22; D 118398 22; D 111716 22;
   D 104399 22; D 965715 21; D 883969 21; D 800692 21; D 717965 21; D 656161 21; D 580505 21; D 510015 21; D 445484 21; D 387285 21; D 335434 21;
   D 289684 21; D 249616 21; D 214721 21; D 184449 21; D 158265 21; D 135661 21; D 116176 21; D 993951 20; D 849572 20; D 725448 20; D 618825 20;
   D 527316 20; D 448851 20; D 38164 21; D 324131 20; D 274979 20; D 23302 21; D 197243 20; D 166777 20; D 140863 20; D 11885 21; D 100173 20;
   D 843443 19; D 709464 19; D 596187 19; D 500522 19; D 419816 19; D 351804 19; D 294547 19; D 246392 19; D 205931 19; D 171966 19; D 143478 19;
   D 119604 19; D 996138 18; D 828872 18; D 689014 18; D 57215 19; D 474555 18; D 393095 18; D 325131 18; D 268446 18; D 221179 18; D 18177 19;
   D 148914 18; D 121518 18; D 986719 17; D 796179 17; D 637298 17; D 50492 18; D 39485 18; D 303743 17; D 229014 17; D 168767 17; D 121764 17;
   D 874179 16];
  [D 278167 20; D 252345 21; D 631654 21; D 100493 22; D 130795 22; D 153478 22; D 169461 22; D 180424 22; D 187934 22; D 192866 22; D 195798 22;
   D 197345 22; D 198089 22; D 19836 23; D 198294 22; D 197919 22; D 197317 22; D 196533 22; D 195531 22; D 194277 22; D 192803 22; D 191117 22;
   D 189153 22; D 186828 22; D 184097 22; D 180912 22; D 177172 22; D 172758 22; D 167573 22; D 161551 22; D 154635 22; D 146795 22; D 138068 22;
   D 128569 22; D 118473 22; D 108004 22; D 974225 21; D 869959 21; D 793038 21; D 699073 21; D 612143 21; D 533076 21; D 462173 21; D 399316 21;
   D 344088 21; D 295891 21; D 254041 21; D 217829 21; D 186575 21; D 159647 21; D 136474 21; D 116553 21; D 994417 20; D 847559 20; D 721625 20;
   D 613734 20; D 521392 20; D 442443 20; D 375021 20; D 317511 20; D 268515 20; D 226824 20; D 191394 20; D 161323 20; D 135831 20; D 114247 20;
   D 959957 19; D 805794 19; D 675732 19; D 566125 19; D 473857 19; D 396267 19; D 331087 19; D 276386 19; D 230523 19; D 192105 19; D 159951 19;
   D 133064 19; D 110597 19; D 918387 18; D 761876 18; D 631374 18; D 522622 18; D 432041 18; D 356627 18; D 293861 18; D 241634 18; D 198181 18;
   D 162029 18; D 131947 18; D 106912 18; D 860756 17; D 687372 17; D 543204 17; D 423586 17; D 3248 19; D 243968 17; D 17897 18; D 12841 18;
   D 915902 16];
  [D 36132 21; D 324955 21; D 808113 21; D 127994 22; D 166088 22; D 194454 22; D 214329 22; D 227917 22; D 237184 22; D 243213 22; D 246741 22;
   D 248578 22; D 249443 22; D 249732 22; D 249596 22; D 249075 22; D 248277 22; D 247243 22; D 245922 22; D 244277 22; D 242361 22; D 240162 22;
   D 237586 22; D 234532 22; D 23095 23; D 226763 22; D 221832 22; D 216003 22; D 209164 22; D 201235 22; D 192144 22; D 181874 22; D 170499 22;
   D 158191 22; D 145198 22; D 131825 22; D 118414 22; D 105308 22; D 957617 21; D 841187 21; D 734215 21; D 637519 21; D 551279 21; D 475181 21;
   D 408583 21; D 350657 21; D 300499 21; D 257201 21; D 21991 22; D 187839 21; D 160289 21; D 136646 21; D 116371 21; D 989995 20; D 841295 20;
   D 714129 20; D 605491 20; D 512787 20; D 433773 20; D 366509 20; D 30932 21; D 260758 20; D 219575 20; D 184693 20; D 155186 20; D 130257 20;
   D 10922 21; D 9149 21; D 765634 19; D 640113 19; D 534675 19; D 4462 21; D 372035 19; D 309927 19; D 257965 19; D 214531 19; D 178257 19;
   D 147988 19; D 12275 20; D 101722 19; D 842154 18; D 696487 18; D 575353 18; D 474673 18; D 391027 18; D 321555 18; D 263869 18; D 215975 18;
   D 176209 18; D 143188 18; D 115764 18; D 929864 17; D 740709 17; D 58376 18; D 453828 17; D 346784 17; D 25942 18; D 189378 17; D 13508 18;
   D 956883 16];
  [D 469159 20; D 418322 21; D 103358 22; D 162987 22; D 210866 22; D 246331 22; D 271042 22; D 287884 22; D 299315 22; D 306678 22; D 31092 23;
   D 313098 22; D 3141 24; D 314401 22; D 314164 22; D 313447 22; D 312392 22; D 311031 22; D 309287 22; D 307136 22; D 304645 22; D 301775 22;
   D 298397 22; D 294388 22; D 289689 22; D 284183 22; D 277679 22; D 269986 22; D 260974 22; D 250541 22; D 238605 22; D 225171 22; D 210372 22;
   D 19446 23; D 177776 22; D 160735 22; D 143784 22; D 131021 22; D 115538 22; D 101143 22; D 880065 21; D 76202 22; D 65728 22; D 565263 21;
   D 485032 21; D 415466 21; D 355383 21; D 303636 21; D 259155 21; D 22097 22; D 188225 21; D 16017 22; D 136152 21; D 11561 22; D 980566 20;
   D 830727 20; D 702961 20; D 594145 20; D 501581 20; D 422941 20; D 356216 20; D 299674 20; D 251824 20; D 211381 20; D 177242 20; D 148461 20;
   D 124226 20; D 103844 20; D 867213 19; D 723534 19; D 603102 19; D 502261 19; D 417912 19; D 347425 19; D 28858 20; D 239496 19; D 198592 19;
   D 164532 19; D 136193 19; D 112633 19; D 930578 18; D 768051 18; D 633182 18; D 521321 18; D 42858 19; D 351716 18; D 288024 18; D 235252 18;
   D 191525 18; D 15529 19; D 125259 18; D 100366 18; D 797367 17; D 626575 17; D 48552 18; D 369606 17; D 275279 17; D 199911 17; D 14171 18;
   D 99666 17];
  [D 608962 20; D 538345 21; D 13216 23; D 2075 24; D 26767 23; D 312 25; D 34272 23; D 363593 22; D 377688 22; D 386675 22; D 39177 23; D 39435 23;
   D 395507 22; D 395807 22; D 395424 22; D 394447 22; D 393056 22; D 391263 22; D 388965 22; D 386158 22; D 382919 22; D 379172 22; D 374738 22;
   D 36948 23; D 363317 22; D 356075 22; D 347496 22; D 337349 22; D 325483 22; D 311765 22; D 296112 22; D 278569 22; D 259352 22; D 238823 22;
   D 217451 22; D 19579 23; D 174418 22; D 158522 22; D 139286 22; D 121529 22; D 105426 22; D 910391 21; D 783356 21; D 672212 21; D 57564 22;
   D 492148 21; D 420213 21; D 358393 21; D 305352 21; D 259899 21; D 220988 21; D 187705 21; D 159261 21; D 134975 21; D 114261 21; D 966107 20;
   D 815896 20; D 688213 20; D 579817 20; D 487914 20; D 410095 20; D 344291 20; D 288719 20; D 241849 20; D 202369 20; D 169156 20; D 141249 20;
   D 117828 20; D 981952 19; D 817563 19; D 680067 19; D 565184 19; D 469294 19; D 389336 19; D 322724 19; D 267281 19; D 221176 19; D 182866 19;
   D 15106 20; D 124672 19; D 102794 19; D 846679 18; D 696578 18; D 572342 18; D 469556 18; D 384544 18; D 314245 18; D 256117 18; D 208051 18;
   D 168301 18; D 135423 18; D 108226 18; D 857361 17; D 671597 17; D 518558 17; D 393151 17; D 291437 17; D 21048 18; D 148233 17; D 103481 17];
  [D 790141 20; D 692588 21; D 168944 22; D 264114 22; D 339716 22; D 395116 22; D 433304 22; D 459171 22; D 476543 22; D 487502 22; D 493616 22;
   D 49667 23; D 498 25; D 498279 22; D 497691 22; D 496371 22; D 494538 22; D 492176 22; D 489152 22; D 485495 22; D 481285 22; D 476387 22;
   D 470569 22; D 463675 22; D 455592 22; D 446062 22; D 434748 22; D 421376 22; D 405762 22; D 387741 22; D 367239 22; D 344368 22; D 319465 22;
   D 293035 22; D 265722 22; D 238257 22; D 211377 22; D 191634 22; D 167788 22; D 145927 22; D 126225 22; D 108717 22; D 933282 21; D 799169 21;
   D 683016 21; D 582866 21; D 496785 21; D 422953 21; D 359722 21; D 305631 21; D 259402 21; D 219927 21; D 18625 22; D 157547 21; D 133108 21;
   D 112325 21; D 946713 20; D 796947 20; D 67006 21; D 562699 20; D 471981 20; D 395429 20; D 330916 20; D 276621 20; D 230985 20; D 192674 20;
   D 160553 20; D 133653 20; D 111152 20; D 923521 19; D 766612 19; D 63579 20; D 526829 19; D 436164 19; D 360794 19; D 298196 19; D 24625 20;
   D 203179 19; D 167495 19; D 137953 19; D 113512 19; D 933037 18; D 766047 18; D 62812 19; D 514244 18; D 420252 18; D 342685 18; D 278677 18;
   D 225857 18; D 182263 18; D 146278 18; D 116574 18; D 920657 17; D 718716 17; D 5528 19; D 417276 17; D 307772 17; D 22099 18; D 154585 17;
   D 107096 17];
  [D 102491 21; D 890752 21; D 215908 22; D 336106 22; D 431083 22; D 500303 22; D 547767 22; D 57982 23; D 601224 22; D 614577 22; D 621906 22;
   D 625517 22; D 627038 22; D 627265 22; D 626391 22; D 62462 23; D 622208 22; D 619097 22; D 615123 22; D 610366 22; D 604891 22; D 598486 22;
   D 590852 22; D 581821 22; D 571216 22; D 558671 22; D 543754 22; D 526145 22; D 505613 22; D 481963 22; D 455145 22; D 425383 22; D 393172 22;
   D 359219 22; D 324394 22; D 289655 22; D 263243 22; D 231476 22; D 201979 22; D 175117 22; D 151052 22; D 129775 22; D 111155 22; D 949859 21;
   D 810254 21; D 690185 21; D 58721 22; D 49906 22; D 423701 21; D 359345 21; D 304435 21; D 257627 21; D 217763 21; D 183848 21; D 155026 21;
   D 130561 21; D 10982 22; D 922598 20; D 774123 20; D 648755 20; D 543042 20; D 454024 20; D 379165 20; D 316296 20; D 263565 20; D 219394 20;
   D 182438 20; D 151556 20; D 12578 21; D 104289 20; D 863903 19; D 714994 19; D 591234 19; D 488473 19; D 403231 19; D 332582 19; D 274081 19;
   D 225677 19; D 18566 20; D 152599 19; D 125305 19; D 102785 19; D 84214 19; D 689069 18; D 562949 18; D 459062 18; D 373502 18; D 303041 18;
   D 245012 18; D 197214 18; D 15784 19; D 125409 18; D 987152 17; D 767765 17; D 588065 17; D 441817 17; D 324148 17; D 231341 17; D 160706 17;
   D 110487 17];
  [D 132903 21; D 114527 22; D 275859 22; D 427635 22; D 546932 22; D 633402 22; D 69239 23; D 732104 22; D 758468 22; D 774721 22; D 7835 24;
   D 787763 22; D 789494 22; D 789621 22; D 788355 22; D 785992 22; D 782821 22; D 778722 22; D 773511 22; D 76733 23; D 760205 22; D 751823 22;
   D 741812 22; D 729984 22; D 716067 22; D 69955 23; D 679893 22; D 656721 22; D 629743 22; D 598734 22; D 563707 22; D 525045 22; D 483466 22;
   D 439944 22; D 395645 22; D 351812 22; D 318882 22; D 279388 22; D 242976 22; D 210029 22; D 180679 22; D 154854 22; D 132347 22; D 11287 23;
   D 961004 21; D 817123 21; D 693982 21; D 588765 21; D 498973 21; D 42242 22; D 357214 21; D 301724 21; D 25455 22; D 214488 21; D 180506 21;
   D 151716 21; D 127357 21; D 106776 21; D 894088 20; D 747751 20; D 624615 20; D 521145 20; D 434316 20; D 361551 20; D 30065 21; D 249743 20;
   D 207244 20; D 171805 20; D 142289 20; D 117732 20; D 973244 19; D 803821 19; D 66331 20; D 54689 20; D 450521 19; D 370821 19; D 304964 19;
   D 250589 19; D 20573 20; D 168747 19; D 138278 19; D 11319 20; D 925449 18; D 755631 18; D 615996 18; D 501206 18; D 406858 18; D 329315 18;
   D 265579 18; D 213186 18; D 170117 18; D 134726 18; D 105666 18; D 818521 17; D 624139 17; D 466592 17; D 340424 17; D 241442 17; D 16655 18;
   D 113635 17];
  [D 172288 21; D 147208 22; D 352371 22; D 543983 22; D 693802 22; D 8018 24; D 875105 22; D 924306 22; D 956762 22; D 976529 22; D 987037 22;
   D 992064 22; D 994018 22; D 993978 22; D 992176 22; D 989038 22; D 98487 23; D 979471 22; D 972652 22; D 964626 22; D 955348 22; D 944373 22;
   D 931254 22; D 915767 22; D 897495 22; D 875748 22; D 84986 23; D 819388 22; D 783966 22; D 743354 22; D 697675 22; D 647544 22; D 593979 22;
   D 538311 22; D 482093 22; D 426919 22; D 38597 23; D 336973 22; D 292111 22; D 25177 23; D 216026 22; D 184719 22; D 157539 22; D 134092 22;
   D 113959 22; D 967248 21; D 820038 21; D 694481 21; D 587515 21; D 496474 21; D 419058 21; D 353292 21; D 297482 21; D 250173 21; D 210119 21;
   D 176252 21; D 147655 21; D 12354 22; D 103235 21; D 861603 20; D 718231 20; D 59801 21; D 497341 20; D 413157 20; D 342849 20; D 284206 20;
   D 235351 20; D 194701 20; D 160916 20; D 132869 20; D 10961 21; D 903414 19; D 743951 19; D 61211 20; D 503207 19; D 413332 19; D 339224 19;
   D 278166 19; D 227898 19; D 186543 19; D 152542 19; D 124605 19; D 101662 19; D 828278 18; D 673725 18; D 546927 18; D 442916 18; D 3576 20;
   D 287612 18; D 230199 18; D 183108 18; D 144504 18; D 112892 18; D 870712 17; D 66078 18; D 491399 17; D 356461 17; D 251216 17; D 172082 17;
   D 116529 17]].

(** sigma_nu_n, ParamTables.cxx:11416-13676 *)
Definition sigma_nu_neutron : list (list decimal) := [
  [D 57935 7; D 500519 7; D 187559 8; D 579158 8; D 144069 9; D 300542 9; D 550844 9; D 916468 9; D 141599 10; D 206284 10; D 286738 10; D 38337 11;
   D 496021 10; D 624208 10; D 767241 10; D 924118 10; D 10935 12; D 127395 11; D 146404 11; D 16623 12; D 186728 11; D 207758 11; D 229187 11;
   D 250892 11; D 272765 11; D 294704 11; D 316621 11; D 338434 11; D 360074 11; D 381482 11; D 402613 11; D 423413 11; D 443848 11; D 463889 11;
   D 483522 11; D 502719 11; D 521461 11; D 539724 11; D 557496 11; D 574774 11; D 591551 11; D 607821 11; D 623572 11; D 6388 13; D 653506 11;
   D 667692 11; D 681362 11; D 694509 11; D 707138 11; D 719251 11; D 730853 11; D 741952 11; D 752552 11; D 762661 11; D 772282 11; D 781426 11;
   D 790102 11; D 798321 11; D 806095 11; D 813435 11; D 820357 11; D 826878 11; D 833011 11; D 838773 11; D 844175 11; D 849233 11; D 85396 12;
   D 858368 11; D 862469 11; D 866274 11; D 869793 11; D 873036 11; D 876011 11; D 878726 11; D 88119 12; D 883408 11; D 88539 12; D 887141 11;
   D 888669 11; D 88998 12; D 89108 12; D 891975 11; D 892673 11; D 893181 11; D 893507 11; D 893653 11; D 893631 11; D 893448 11; D 893112 11;
   D 892632 11; D 892016 11; D 891275 11; D 890418 11; D 889457 11; D 888404 11; D 887271 11; D 886074 11; D 884828 11; D 883549 11; D 882254 11];
  [D 943042 6; D 769699 7; D 307252 8; D 97146 9; D 241154 9; D 4991 11; D 906596 9; D 149493 10; D 228854 10; D 33049 11; D 455408 10; D 603491 10;
   D 77408 11; D 966127 10; D 117809 11; D 140787 11; D 165327 11; D 191208 11; D 218201 11; D 246086 11; D 27465 12; D 303696 11; D 333049 11;
   D 362549 11; D 392052 11; D 421432 11; D 450579 11; D 479403 11; D 507831 11; D 535786 11; D 563212 11; D 590076 11; D 61635 12; D 641995 11;
   D 666973 11; D 691263 11; D 714852 11; D 737733 11; D 759897 11; D 781324 11; D 80201 12; D 821954 11; D 841159 11; D 85963 12; D 877358 11;
   D 894351 11; D 910612 11; D 926153 11; D 94098 12; D 955106 11; D 968534 11; D 98128 12; D 993357 11; D 100478 12; D 101557 12; D 102575 12;
   D 103533 12; D 104435 12; D 105282 12; D 106076 12; D 10682 13; D 107516 12; D 108165 12; D 10877 13; D 109332 12; D 109853 12; D 110334 12;
   D 110776 12; D 11118 13; D 111548 12; D 11188 13; D 112178 12; D 112442 12; D 112674 12; D 112873 12; D 113042 12; D 113179 12; D 113288 12;
   D 113368 12; D 11342 13; D 113444 12; D 113443 12; D 113416 12; D 113365 12; D 113291 12; D 113194 12; D 113076 12; D 112938 12; D 112782 12;
   D 112608 12; D 112419 12; D 112215 12; D 112 15; D 111775 12; D 111542 12; D 111303 12; D 11106 13; D 110815 12; D 110572 12; D 110331 12];
  [D 149424 7; D 11885 9; D 501325 8; D 160376 9; D 395939 9; D 813052 9; D 146371 10; D 239165 10; D 362843 10; D 519441 10; D 709425 10; D 93187 11;
   D 118536 11; D 146761 11; D 177551 11; D 210568 11; D 245473 11; D 281918 11; D 31957 12; D 35811 12; D 397248 11; D 436727 11; D 476314 11;
   D 515806 11; D 555025 11; D 593825 11; D 63209 12; D 669704 11; D 706579 11; D 74266 12; D 777907 11; D 812258 11; D 845659 11; D 878082 11;
   D 909512 11; D 939939 11; D 969335 11; D 997689 11; D 102499 12; D 105125 12; D 107647 12; D 110064 12; D 112377 12; D 114587 12; D 116695 12;
   D 118703 12; D 120611 12; D 122421 12; D 124136 12; D 125757 12; D 127286 12; D 128728 12; D 130085 12; D 13136 13; D 132557 12; D 13368 13;
   D 134732 12; D 135715 12; D 136632 12; D 137488 12; D 138282 12; D 139019 12; D 1397 14; D 140326 12; D 1409 14; D 141423 12; D 141895 12;
   D 14232 13; D 142697 12; D 143028 12; D 143315 12; D 143557 12; D 143756 12; D 143913 12; D 14403 13; D 144106 12; D 144144 12; D 144143 12;
   D 144106 12; D 144034 12; D 143927 12; D 143787 12; D 143616 12; D 143414 12; D 143185 12; D 142929 12; D 142648 12; D 142346 12; D 142024 12;
   D 141684 12; D 141328 12; D 14096 13; D 140581 12; D 140194 12; D 139801 12; D 139405 12; D 139009 12; D 138616 12; D 13823 13; D 137854 12];
  [D 231603 7; D 183207 8; D 810034 8; D 260565 9; D 639335 9; D 130172 10; D 232235 10; D 37597 11; D 565384 10; D 802271 10; D 108593 11; D 14144 12;
   D 178463 11; D 219207 11; D 263165 11; D 309823 11; D 358657 11; D 409165 11; D 460869 11; D 513341 11; D 566203 11; D 619121 11; D 671801 11;
   D 723995 11; D 775511 11; D 826177 11; D 875839 11; D 924402 11; D 971805 11; D 101796 12; D 106278 12; D 110623 12; D 114828 12; D 118891 12;
   D 122809 12; D 12658 13; D 130204 12; D 13368 13; D 137011 12; D 140194 12; D 143232 12; D 146126 12; D 148878 12; D 15149 13; D 153964 12;
   D 156304 12; D 158511 12; D 160592 12; D 162549 12; D 164388 12; D 166114 12; D 167732 12; D 169248 12; D 170666 12; D 17199 13; D 173225 12;
   D 174375 12; D 175443 12; D 176431 12; D 177344 12; D 178182 12; D 178949 12; D 179647 12; D 180277 12; D 180841 12; D 18134 13; D 181777 12;
   D 182152 12; D 182467 12; D 182723 12; D 182923 12; D 183066 12; D 183154 12; D 183189 12; D 183172 12; D 183105 12; D 182988 12; D 182825 12;
   D 182616 12; D 182364 12; D 182071 12; D 181739 12; D 181372 12; D 180972 12; D 18054 13; D 18008 13; D 179594 12; D 179085 12; D 178555 12;
   D 178006 12; D 177442 12; D 176864 12; D 176278 12; D 175684 12; D 175088 12; D 174493 12; D 173903 12; D 173323 12; D 172756 12; D 172209 12];
  [D 352435 7; D 28034 9; D 129345 9; D 41735 10; D 101683 10; D 205151 10; D 362624 10; D 581756 10; D 867185 10; D 12195 12; D 163638 11; D 211395 11;
   D 264596 11; D 32249 12; D 384308 11; D 449266 11; D 516609 11; D 585622 11; D 655672 11; D 726202 11; D 796725 11; D 866816 11; D 936129 11;
   D 10044 13; D 107137 12; D 113686 12; D 120076 12; D 126296 12; D 132332 12; D 138177 12; D 143827 12; D 149279 12; D 154527 12; D 159569 12;
   D 164405 12; D 169036 12; D 173462 12; D 177682 12; D 181699 12; D 185515 12; D 189135 12; D 192561 12; D 195795 12; D 198845 12; D 201714 12;
   D 20441 13; D 20694 13; D 209311 12; D 211532 12; D 21361 13; D 215552 12; D 217365 12; D 219056 12; D 220628 12; D 222089 12; D 223441 12;
   D 224689 12; D 225837 12; D 226886 12; D 227842 12; D 228705 12; D 229479 12; D 230165 12; D 230766 12; D 231283 12; D 231719 12; D 232076 12;
   D 232354 12; D 232557 12; D 232685 12; D 232741 12; D 232727 12; D 232644 12; D 232495 12; D 232283 12; D 232011 12; D 231681 12; D 231297 12;
   D 230862 12; D 230378 12; D 229849 12; D 229277 12; D 228665 12; D 228016 12; D 227332 12; D 226615 12; D 225869 12; D 225096 12; D 2243 14;
   D 223484 12; D 222651 12; D 221806 12; D 220951 12; D 220092 12; D 219233 12; D 21838 13; D 217537 12; D 216712 12; D 215909 12; D 215138 12];
  [D 528011 7; D 427633 8; D 204923 9; D 659008 9; D 159341 10; D 31861 11; D 558025 10; D 887353 10; D 131097 11; D 18272 12; D 243137 11; D 311563 11;
   D 386912 11; D 468049 11; D 55381 12; D 643066 11; D 734747 11; D 827907 11; D 921723 11; D 101547 12; D 110854 12; D 120045 12; D 129081 12;
   D 137925 12; D 146557 12; D 154961 12; D 163118 12; D 171011 12; D 178634 12; D 185982 12; D 193048 12; D 199828 12; D 206319 12; D 212525 12;
   D 218444 12; D 224077 12; D 229427 12; D 234499 12; D 239297 12; D 243826 12; D 248091 12; D 252101 12; D 255865 12; D 259392 12; D 262695 12;
   D 265784 12; D 268672 12; D 271369 12; D 273885 12; D 276231 12; D 278413 12; D 28044 13; D 282317 12; D 284052 12; D 285649 12; D 287112 12;
   D 288447 12; D 289656 12; D 290743 12; D 291711 12; D 292564 12; D 293303 12; D 293934 12; D 294455 12; D 294872 12; D 295187 12; D 295402 12;
   D 29552 13; D 295543 12; D 295476 12; D 295321 12; D 295082 12; D 294764 12; D 294371 12; D 293907 12; D 293375 12; D 292778 12; D 292121 12;
   D 291405 12; D 290634 12; D 28981 13; D 288936 12; D 288014 12; D 287049 12; D 286042 12; D 284997 12; D 283917 12; D 282805 12; D 281666 12;
   D 280502 12; D 279319 12; D 278121 12; D 276912 12; D 275699 12; D 274488 12; D 273286 12; D 2721 14; D 270941 12; D 269818 12; D 268743 12];
  [D 780549 7; D 653499 8; D 32059 10; D 10281 11; D 246503 10; D 488328 10; D 847507 10; D 133586 11; D 195584 11; D 270248 11; D 356677 11;
   D 453411 11; D 558783 11; D 671096 11; D 788653 11; D 909867 11; D 103331 12; D 115775 12; D 128212 12; D 140552 12; D 152725 12; D 164675 12;
   D 176352 12; D 187728 12; D 198779 12; D 209477 12; D 219803 12; D 229751 12; D 239312 12; D 248477 12; D 257242 12; D 265608 12; D 273577 12;
   D 281148 12; D 288326 12; D 295117 12; D 301527 12; D 307564 12; D 313237 12; D 318558 12; D 32354 13; D 328199 12; D 332551 12; D 336615 12;
   D 340407 12; D 343942 12; D 347236 12; D 3503 14; D 353147 12; D 355787 12; D 358229 12; D 36048 13; D 362547 12; D 364438 12; D 366157 12;
   D 367709 12; D 3691 14; D 370334 12; D 371415 12; D 372348 12; D 373134 12; D 37378 13; D 374288 12; D 374663 12; D 374907 12; D 375026 12;
   D 375025 12; D 374908 12; D 374683 12; D 374354 12; D 373926 12; D 373406 12; D 372797 12; D 372104 12; D 371329 12; D 370476 12; D 369549 12;
   D 368549 12; D 367481 12; D 366346 12; D 365148 12; D 36389 13; D 362574 12; D 361203 12; D 35978 13; D 358309 12; D 356793 12; D 355235 12;
   D 353639 12; D 35201 13; D 350354 12; D 348676 12; D 346984 12; D 345287 12; D 343594 12; D 341916 12; D 340267 12; D 33866 13; D 337112 12;
   D 335641 12];
  [D 114058 8; D 993959 8; D 497147 9; D 158461 10; D 376712 10; D 739523 10; D 127187 11; D 198695 11; D 288311 11; D 395053 11; D 517182 11;
   D 652332 11; D 79803 12; D 951783 11; D 11112 13; D 127414 12; D 143874 12; D 160342 12; D 176683 12; D 192795 12; D 208595 12; D 224011 12;
   D 239007 12; D 253544 12; D 267585 12; D 281106 12; D 294101 12; D 306554 12; D 318454 12; D 329802 12; D 3406 14; D 350846 12; D 360546 12;
   D 369707 12; D 378341 12; D 386457 12; D 394067 12; D 40119 13; D 407845 12; D 414054 12; D 419843 12; D 425238 12; D 430263 12; D 43494 13;
   D 439291 12; D 443332 12; D 447082 12; D 450554 12; D 45376 13; D 456711 12; D 459417 12; D 461887 12; D 464129 12; D 46615 13; D 467956 12;
   D 469554 12; D 470951 12; D 472151 12; D 47316 13; D 473985 12; D 474629 12; D 4751 14; D 475405 12; D 475549 12; D 475543 12; D 475393 12;
   D 475108 12; D 474696 12; D 474162 12; D 473514 12; D 472755 12; D 471889 12; D 470922 12; D 469855 12; D 468693 12; D 467438 12; D 466094 12;
   D 464664 12; D 463149 12; D 461552 12; D 459875 12; D 45812 13; D 45629 13; D 454387 12; D 452413 12; D 450372 12; D 448267 12; D 446103 12;
   D 443886 12; D 441624 12; D 439325 12; D 436999 12; D 434658 12; D 432315 12; D 429985 12; D 427684 12; D 42543 13; D 423246 12; D 421152 12;
   D 419175 12];
  [D 165194 8; D 150023 9; D 763188 9; D 241712 10; D 569337 10; D 110749 11; D 188799 11; D 29228 12; D 420412 11; D 571352 11; D 742024 11;
   D 928877 11; D 112828 12; D 133668 12; D 155083 12; D 176791 12; D 198553 12; D 220168 12; D 241479 12; D 262366 12; D 282726 12; D 302503 12;
   D 321641 12; D 340088 12; D 357816 12; D 374814 12; D 391057 12; D 406536 12; D 421255 12; D 435215 12; D 448416 12; D 460869 12; D 472588 12;
   D 483589 12; D 493887 12; D 503507 12; D 512477 12; D 520827 12; D 528598 12; D 535824 12; D 542542 12; D 548784 12; D 554581 12; D 559959 12;
   D 564941 12; D 569548 12; D 573796 12; D 577701 12; D 581279 12; D 584541 12; D 587497 12; D 590158 12; D 592534 12; D 594635 12; D 59647 13;
   D 598045 12; D 599369 12; D 600451 12; D 6013 14; D 601925 12; D 602337 12; D 602548 12; D 602571 12; D 602416 12; D 602094 12; D 601616 12;
   D 600987 12; D 600215 12; D 599306 12; D 598264 12; D 597094 12; D 595799 12; D 594384 12; D 592851 12; D 591203 12; D 589441 12; D 587569 12;
   D 585586 12; D 583493 12; D 581292 12; D 578983 12; D 576567 12; D 574047 12; D 571425 12; D 568705 12; D 565893 12; D 562996 12; D 560021 12;
   D 556978 12; D 553879 12; D 550737 12; D 547564 12; D 544377 12; D 541193 12; D 538032 12; D 534916 12; D 53187 13; D 528922 12; D 526105 12;
   D 523455 12];
  [D 23795 9; D 22601 10; D 115976 10; D 364885 10; D 851943 10; D 164181 11; D 277425 11; D 425614 11; D 607026 11; D 818274 11; D 105445 12;
   D 131034 12; D 158073 12; D 186071 12; D 2146 14; D 243292 12; D 271847 12; D 30002 13; D 327633 12; D 354533 12; D 380633 12; D 405856 12;
   D 430125 12; D 453404 12; D 475673 12; D 496902 12; D 517079 12; D 536214 12; D 554301 12; D 57135 13; D 58738 13; D 602412 12; D 616465 12;
   D 629572 12; D 641772 12; D 653106 12; D 663629 12; D 673394 12; D 682454 12; D 690857 12; D 698647 12; D 705862 12; D 712537 12; D 718702 12;
   D 72438 13; D 729596 12; D 734369 12; D 738717 12; D 742655 12; D 746198 12; D 749362 12; D 752161 12; D 754602 12; D 756703 12; D 758475 12;
   D 759929 12; D 761079 12; D 761942 12; D 762535 12; D 762875 12; D 76298 13; D 762864 12; D 762542 12; D 762026 12; D 761323 12; D 760443 12;
   D 759392 12; D 758175 12; D 7568 14; D 755269 12; D 753588 12; D 751757 12; D 749779 12; D 747654 12; D 745383 12; D 742965 12; D 7404 14;
   D 737685 12; D 734821 12; D 731809 12; D 728649 12; D 725346 12; D 721902 12; D 718325 12; D 714622 12; D 7108 14; D 706871 12; D 702844 12;
   D 698731 12; D 694546 12; D 690304 12; D 68602 13; D 681716 12; D 677414 12; D 673141 12; D 668927 12; D 664806 12; D 660821 12; D 657016 12;
   D 653446 12];
  [D 340821 8; D 339297 9; D 174893 10; D 545883 10; D 126265 11; D 24116 12; D 403848 11; D 61407 12; D 868577 11; D 116147 12; D 148541 12;
   D 183284 12; D 219646 12; D 256969 12; D 294693 12; D 33235 13; D 36957 13; D 406074 12; D 441632 12; D 476108 12; D 50939 13; D 541369 12;
   D 57199 13; D 601224 12; D 629029 12; D 655393 12; D 680328 12; D 703829 12; D 725912 12; D 746606 12; D 765944 12; D 783958 12; D 800698 12;
   D 816224 12; D 830606 12; D 843921 12; D 856249 12; D 867657 12; D 878213 12; D 887974 12; D 896992 12; D 90531 13; D 912964 12; D 919987 12;
   D 926411 12; D 932259 12; D 937554 12; D 94232 13; D 946576 12; D 950345 12; D 953639 12; D 956479 12; D 958885 12; D 960874 12; D 962468 12;
   D 963691 12; D 964569 12; D 965129 12; D 965392 12; D 965381 12; D 965113 12; D 964602 12; D 963861 12; D 962899 12; D 961726 12; D 960349 12;
   D 958775 12; D 957008 12; D 955053 12; D 95291 13; D 95058 13; D 948062 12; D 945353 12; D 942452 12; D 939354 12; D 936058 12; D 932563 12;
   D 928868 12; D 924975 12; D 920888 12; D 916612 12; D 912153 12; D 907516 12; D 902709 12; D 897741 12; D 892619 12; D 887352 12; D 881952 12;
   D 876432 12; D 870806 12; D 865094 12; D 859318 12; D 853503 12; D 847682 12; D 841891 12; D 836173 12; D 830579 12; D 825171 12; D 820018 12;
   D 815203 12];
  [D 4854 10; D 506022 9; D 261328 10; D 809409 10; D 185544 11; D 351199 11; D 582819 11; D 878528 11; D 123251 12; D 16352 13; D 207595 12;
   D 254402 12; D 302939 12; D 352345 12; D 4019 14; D 451015 12; D 499263 12; D 546287 12; D 591865 12; D 63584 13; D 678048 12; D 718403 12;
   D 756866 12; D 793373 12; D 827912 12; D 860497 12; D 891122 12; D 919817 12; D 946624 12; D 971588 12; D 994762 12; D 101623 13; D 103607 13;
   D 105439 13; D 107132 13; D 108694 13; D 110137 13; D 111469 13; D 112697 13; D 113828 13; D 114869 13; D 115822 13; D 116694 13; D 117487 13;
   D 118206 13; D 118853 13; D 119431 13; D 119943 13; D 120393 13; D 120781 13; D 121112 13; D 121388 13; D 121611 13; D 121787 13; D 121919 13;
   D 12201 14; D 122063 13; D 122082 13; D 122068 13; D 122024 13; D 121951 13; D 121852 13; D 121725 13; D 121574 13; D 121399 13; D 121199 13;
   D 120977 13; D 12073 14; D 12046 14; D 120167 13; D 119848 13; D 119505 13; D 119136 13; D 118742 13; D 118321 13; D 117875 13; D 117404 13;
   D 116907 13; D 116385 13; D 115839 13; D 115269 13; D 114675 13; D 114058 13; D 113418 13; D 112757 13; D 112073 13; D 111369 13; D 110646 13;
   D 109904 13; D 109147 13; D 108377 13; D 107596 13; D 106808 13; D 106019 13; D 105233 13; D 104458 13; D 103701 13; D 102971 13; D 102279 13;
   D 101635 13];
  [D 68748 9; D 749742 9; D 387737 10; D 119088 11; D 270457 11; D 507391 11; D 834449 11; D 124719 12; D 173557 12; D 228504 12; D 288033 12;
   D 350647 12; D 41501 13; D 480005 12; D 544715 12; D 608435 12; D 670646 12; D 730946 12; D 789121 12; D 844928 12; D 89822 13; D 948938 12;
   D 996997 12; D 104237 13; D 108508 13; D 112513 13; D 116254 13; D 119739 13; D 122974 13; D 125967 13; D 128731 13; D 131277 13; D 133622 13;
   D 135783 13; D 137772 13; D 139605 13; D 141292 13; D 142844 13; D 144269 13; D 145574 13; D 146767 13; D 147853 13; D 148836 13; D 149721 13;
   D 150514 13; D 151217 13; D 151836 13; D 152372 13; D 152832 13; D 153218 13; D 153536 13; D 15379 14; D 153987 13; D 15413 14; D 154226 13;
   D 154278 13; D 154289 13; D 154262 13; D 154199 13; D 154102 13; D 153973 13; D 153812 13; D 153622 13; D 153402 13; D 153153 13; D 152875 13;
   D 152567 13; D 152229 13; D 151859 13; D 151459 13; D 151025 13; D 15056 14; D 150061 13; D 14953 14; D 148967 13; D 148372 13; D 147745 13;
   D 147087 13; D 146396 13; D 145674 13; D 14492 14; D 144134 13; D 143316 13; D 142465 13; D 141583 13; D 14067 14; D 139727 13; D 138756 13;
   D 137758 13; D 136737 13; D 135697 13; D 134643 13; D 133579 13; D 132515 13; D 131457 13; D 130415 13; D 129399 13; D 128422 13; D 127498 13;
   D 126642 13];
  [D 968504 8; D 110742 10; D 571263 10; D 173894 11; D 391334 11; D 727679 11; D 118598 12; D 175794 12; D 242681 12; D 317139 12; D 397003 12;
   D 480232 12; D 565075 12; D 650098 12; D 734159 12; D 816433 12; D 896274 12; D 973312 12; D 104722 13; D 111774 13; D 118478 13; D 124821 13;
   D 1308 15; D 136416 13; D 14167 14; D 146566 13; D 151115 13; D 155324 13; D 159206 13; D 162779 13; D 166062 13; D 169077 13; D 171847 13;
   D 174392 13; D 176729 13; D 178876 13; D 180844 13; D 182646 13; D 184291 13; D 185789 13; D 187145 13; D 188368 13; D 189463 13; D 190438 13;
   D 191296 13; D 192044 13; D 192688 13; D 193233 13; D 193687 13; D 194056 13; D 194349 13; D 194572 13; D 194733 13; D 194838 13; D 194889 13;
   D 194893 13; D 194851 13; D 194766 13; D 194641 13; D 194478 13; D 194278 13; D 194041 13; D 193769 13; D 19346 14; D 193114 13; D 19273 14;
   D 192307 13; D 191844 13; D 191341 13; D 190798 13; D 190214 13; D 18959 14; D 188926 13; D 188223 13; D 18748 14; D 186696 13; D 185871 13;
   D 185005 13; D 184095 13; D 183142 13; D 182145 13; D 181102 13; D 180014 13; D 178881 13; D 177702 13; D 176479 13; D 175214 13; D 17391 14;
   D 172571 13; D 171201 13; D 169806 13; D 168393 13; D 16697 14; D 165546 13; D 16413 14; D 162735 13; D 161375 13; D 160067 13; D 158828 13;
   D 157683 13];
  [D 13575 10; D 162749 10; D 83558 11; D 252211 11; D 562411 11; D 103641 12; D 167429 12; D 246146 12; D 337147 12; D 437403 12; D 543896 12;
   D 653897 12; D 765139 12; D 8758 14; D 984513 12; D 109026 13; D 119236 13; D 129038 13; D 138388 13; D 147269 13; D 155665 13; D 163566 13;
   D 170976 13; D 177893 13; D 184326 13; D 190286 13; D 195786 13; D 200845 13; D 205486 13; D 209737 13; D 213631 13; D 217199 13; D 220467 13;
   D 223462 13; D 226204 13; D 228712 13; D 231 16; D 233082 13; D 234969 13; D 236671 13; D 238197 13; D 239558 13; D 24076 14; D 241812 13;
   D 242722 13; D 243497 13; D 244148 13; D 244684 13; D 245118 13; D 24546 14; D 245719 13; D 245903 13; D 246019 13; D 246073 13; D 246069 13;
   D 246011 13; D 245902 13; D 245746 13; D 245544 13; D 245296 13; D 245004 13; D 244667 13; D 244284 13; D 243853 13; D 243374 13; D 242846 13;
   D 242269 13; D 241641 13; D 240965 13; D 24024 14; D 239466 13; D 238643 13; D 237771 13; D 236849 13; D 235874 13; D 234846 13; D 233762 13;
   D 23262 14; D 231419 13; D 230158 13; D 228834 13; D 227447 13; D 225996 13; D 224482 13; D 222908 13; D 221275 13; D 219588 13; D 21785 14;
   D 216066 13; D 214242 13; D 212385 13; D 210502 13; D 208602 13; D 206697 13; D 2048 15; D 202926 13; D 201096 13; D 199331 13; D 197658 13;
   D 19611 14];
  [D 189858 9; D 237659 10; D 121529 11; D 363436 11; D 80309 12; D 146667 12; D 234904 12; D 342539 12; D 465602 12; D 599809 12; D 741022 12;
   D 885659 12; D 103081 13; D 11742 14; D 13142 14; D 14496 14; D 157973 13; D 170393 13; D 182183 13; D 193325 13; D 203798 13; D 213606 13;
   D 222747 13; D 231231 13; D 239073 13; D 246293 13; D 252914 13; D 258971 13; D 264503 13; D 269556 13; D 274172 13; D 278389 13; D 282243 13;
   D 285762 13; D 288971 13; D 291888 13; D 294534 13; D 296922 13; D 299067 13; D 300982 13; D 302678 13; D 304169 13; D 305464 13; D 306575 13;
   D 307514 13; D 308297 13; D 308938 13; D 309454 13; D 309859 13; D 310164 13; D 310379 13; D 310512 13; D 31057 14; D 310558 13; D 310483 13;
   D 310347 13; D 310154 13; D 309905 13; D 3096 15; D 30924 14; D 308822 13; D 308346 13; D 30781 14; D 307213 13; D 306556 13; D 305838 13;
   D 305062 13; D 304226 13; D 303332 13; D 302378 13; D 301364 13; D 300288 13; D 299146 13; D 297936 13; D 296656 13; D 295302 13; D 293872 13;
   D 292361 13; D 290769 13; D 289092 13; D 287331 13; D 285486 13; D 283558 13; D 281549 13; D 279462 13; D 2773 15; D 275066 13; D 272763 13;
   D 270396 13; D 267972 13; D 265497 13; D 262981 13; D 260436 13; D 257876 13; D 25532 14; D 252788 13; D 250308 13; D 247911 13; D 245636 13;
   D 243528 13];
  [D 265942 9; D 345326 10; D 175656 11; D 520589 11; D 114008 12; D 206327 12; D 327669 12; D 473976 12; D 63947 13; D 818164 12; D 100448 13;
   D 119377 13; D 138233 13; D 156741 13; D 1747 15; D 191986 13; D 208507 13; D 224192 13; D 239012 13; D 252936 13; D 265959 13; D 278083 13;
   D 289315 13; D 299678 13; D 309197 13; D 317905 13; D 325848 13; D 333081 13; D 339669 13; D 345669 13; D 351137 13; D 356119 13; D 360655 13;
   D 364778 13; D 368516 13; D 371894 13; D 374931 13; D 377647 13; D 38006 14; D 382188 13; D 384044 13; D 385646 13; D 38701 14; D 388156 13;
   D 389106 13; D 389881 13; D 390502 13; D 390987 13; D 391351 13; D 391606 13; D 391762 13; D 391827 13; D 391809 13; D 391715 13; D 391548 13;
   D 391311 13; D 391005 13; D 390629 13; D 390182 13; D 389663 13; D 38907 14; D 388402 13; D 38766 14; D 386846 13; D 38596 14; D 385003 13;
   D 383976 13; D 382878 13; D 381707 13; D 380459 13; D 379131 13; D 377719 13; D 376219 13; D 374626 13; D 372935 13; D 371143 13; D 369246 13;
   D 367241 13; D 365128 13; D 362906 13; D 360577 13; D 35814 14; D 355598 13; D 352951 13; D 350199 13; D 347344 13; D 344388 13; D 341333 13;
   D 338186 13; D 334951 13; D 331639 13; D 328261 13; D 324833 13; D 321375 13; D 317912 13; D 314476 13; D 311104 13; D 307844 13; D 304747 13;
   D 301879 13];
  [D 372544 9; D 499872 10; D 252483 11; D 741528 11; D 16094 13; D 288648 12; D 454608 12; D 652405 12; D 873812 12; D 111057 13; D 135528 13;
   D 160196 13; D 184594 13; D 208395 13; D 23136 14; D 253358 13; D 274263 13; D 294016 13; D 312578 13; D 329923 13; D 346058 13; D 360988 13;
   D 374739 13; D 387347 13; D 398853 13; D 409321 13; D 418826 13; D 427456 13; D 435294 13; D 442416 13; D 448887 13; D 454762 13; D 460086 13;
   D 464897 13; D 46923 14; D 473111 13; D 476568 13; D 479627 13; D 482307 13; D 484633 13; D 486628 13; D 488315 13; D 489724 13; D 490886 13;
   D 491832 13; D 492587 13; D 493177 13; D 493617 13; D 493924 13; D 49411 14; D 494187 13; D 494164 13; D 494048 13; D 493843 13; D 493552 13;
   D 493173 13; D 492707 13; D 49215 14; D 491502 13; D 490762 13; D 489932 13; D 489013 13; D 488008 13; D 486918 13; D 485745 13; D 484486 13;
   D 483139 13; D 481699 13; D 480163 13; D 478523 13; D 476775 13; D 474912 13; D 472927 13; D 470816 13; D 468573 13; D 466196 13; D 463683 13;
   D 461035 13; D 458251 13; D 455329 13; D 452269 13; D 449069 13; D 445726 13; D 442239 13; D 438604 13; D 434823 13; D 430896 13; D 426825 13;
   D 422617 13; D 418278 13; D 413823 13; D 409267 13; D 404635 13; D 399955 13; D 395263 13; D 390602 13; D 386025 13; D 381591 13; D 377373 13;
   D 373457 13];
  [D 52132 10; D 720039 10; D 361112 11; D 105066 12; D 226019 12; D 401752 12; D 627552 12; D 893628 12; D 118843 13; D 15007 14; D 182077 13;
   D 214098 13; D 245561 13; D 276064 13; D 305353 13; D 333253 13; D 35963 14; D 384432 13; D 407604 13; D 429149 13; D 449067 13; D 467389 13;
   D 484162 13; D 499439 13; D 513304 13; D 525857 13; D 53722 14; D 547508 13; D 556829 13; D 565274 13; D 57292 14; D 579828 13; D 586053 13;
   D 591639 13; D 596626 13; D 60105 14; D 604945 13; D 608345 13; D 611278 13; D 613778 13; D 61588 14; D 617627 13; D 619063 13; D 620227 13;
   D 621156 13; D 621878 13; D 622417 13; D 622791 13; D 623018 13; D 623112 13; D 623085 13; D 622944 13; D 622692 13; D 622331 13; D 62186 14;
   D 621277 13; D 62058 14; D 619769 13; D 618846 13; D 617816 13; D 616681 13; D 615444 13; D 614107 13; D 612668 13; D 611123 13; D 609468 13;
   D 607695 13; D 605798 13; D 603769 13; D 601598 13; D 599279 13; D 596804 13; D 594167 13; D 591366 13; D 5884 15; D 585266 13; D 581965 13;
   D 578492 13; D 574843 13; D 571013 13; D 566996 13; D 562785 13; D 558374 13; D 553758 13; D 548933 13; D 543897 13; D 53865 14; D 533196 13;
   D 527543 13; D 521705 13; D 515702 13; D 509558 13; D 503304 13; D 496978 13; D 490625 13; D 484301 13; D 478074 13; D 472022 13; D 466243 13;
   D 460854 13];
  [D 728154 9; D 10316 12; D 513761 11; D 148152 12; D 315844 12; D 556511 12; D 862222 12; D 12185 14; D 16093 14; D 201948 13; D 243652 13;
   D 28507 14; D 325513 13; D 364496 13; D 401746 13; D 437027 13; D 470228 13; D 501268 13; D 530118 13; D 556788 13; D 581297 13; D 603707 13;
   D 624089 13; D 642544 13; D 659209 13; D 674245 13; D 687819 13; D 700079 13; D 711155 13; D 721154 13; D 730163 13; D 738257 13; D 745498 13;
   D 75194 14; D 757635 13; D 762631 13; D 766967 13; D 77069 14; D 773846 13; D 776486 13; D 77867 14; D 78046 14; D 781908 13; D 783061 13;
   D 783954 13; D 784619 13; D 785081 13; D 785363 13; D 785481 13; D 78545 14; D 785277 13; D 784965 13; D 784515 13; D 783924 13; D 78319 14;
   D 782314 13; D 781298 13; D 780149 13; D 778871 13; D 77747 14; D 775949 13; D 774307 13; D 772538 13; D 770637 13; D 768596 13; D 766405 13;
   D 764054 13; D 761533 13; D 75883 14; D 755937 13; D 752849 13; D 749562 13; D 746075 13; D 742386 13; D 738492 13; D 734388 13; D 730066 13;
   D 725516 13; D 720728 13; D 715688 13; D 710387 13; D 704813 13; D 698956 13; D 692808 13; D 686364 13; D 679621 13; D 672584 13; D 665261 13;
   D 657666 13; D 649817 13; D 641737 13; D 633455 13; D 625008 13; D 616442 13; D 607814 13; D 599196 13; D 590677 13; D 582364 13; D 574389 13;
   D 566911 13];
  [D 101462 10; D 147244 11; D 727764 11; D 20793 13; D 439344 12; D 767447 12; D 117946 13; D 165448 13; D 217041 13; D 270719 13; D 324867 13;
   D 378273 13; D 430103 13; D 479804 13; D 527039 13; D 571546 13; D 613218 13; D 651961 13; D 687781 13; D 720689 13; D 750755 13; D 778071 13;
   D 802761 13; D 824999 13; D 845002 13; D 863004 13; D 879211 13; D 89381 14; D 906952 13; D 918762 13; D 929341 13; D 93878 14; D 94715 14;
   D 954525 13; D 96097 14; D 96654 14; D 971301 13; D 975315 13; D 978658 13; D 981414 13; D 983663 13; D 98548 14; D 986923 13; D 988039 13;
   D 988869 13; D 989445 13; D 989798 13; D 98995 14; D 989915 13; D 989701 13; D 989311 13; D 988743 13; D 987996 13; D 987069 13; D 985965 13;
   D 984693 13; D 983261 13; D 981677 13; D 979948 13; D 978074 13; D 976049 13; D 973866 13; D 971517 13; D 968988 13; D 966267 13; D 963341 13;
   D 960195 13; D 956819 13; D 953208 13; D 949357 13; D 945267 13; D 940936 13; D 936358 13; D 931526 13; D 926428 13; D 921048 13; D 915372 13;
   D 90938 14; D 903054 13; D 896377 13; D 889332 13; D 881903 13; D 874078 13; D 86585 14; D 857216 13; D 848178 13; D 838743 13; D 828919 13;
   D 818718 13; D 808158 13; D 797263 13; D 786066 13; D 774612 13; D 762957 13; D 751177 13; D 739368 13; D 727649 13; D 716168 13; D 705107 13;
   D 694689 13];
  [D 140995 10; D 209412 11; D 102647 12; D 290602 12; D 608476 12; D 10539 14; D 160682 13; D 223763 13; D 291621 13; D 361619 13; D 431702 13;
   D 500373 13; D 566614 13; D 62983 14; D 689569 13; D 745592 13; D 797749 13; D 845991 13; D 890328 13; D 93082 14; D 967588 13; D 100078 14;
   D 103061 14; D 105737 14; D 108136 14; D 11029 15; D 112224 14; D 11396 15; D 115516 14; D 116907 14; D 118144 14; D 119238 14; D 120199 14;
   D 121036 14; D 121756 14; D 12237 15; D 122885 14; D 123311 14; D 123662 14; D 123947 14; D 124177 14; D 124359 14; D 1245 16; D 124604 14;
   D 124677 14; D 124722 14; D 124742 14; D 124738 14; D 124711 14; D 124662 14; D 12459 15; D 124495 14; D 124377 14; D 124238 14; D 124078 14;
   D 1239 16; D 123703 14; D 123489 14; D 123257 14; D 123007 14; D 122736 14; D 122444 14; D 122129 14; D 121789 14; D 121423 14; D 121029 14;
   D 120607 14; D 120156 14; D 119676 14; D 119168 14; D 11863 15; D 118062 14; D 117462 14; D 116828 14; D 116157 14; D 115447 14; D 114696 14;
   D 113901 14; D 113058 14; D 112167 14; D 111225 14; D 11023 15; D 109183 14; D 108081 14; D 106924 14; D 105713 14; D 104447 14; D 103127 14;
   D 101753 14; D 100326 14; D 988502 13; D 973287 13; D 957673 13; D 941738 13; D 925583 13; D 909341 13; D 893177 13; D 877298 13; D 861953 13;
   D 847445 13];
  [D 195712 10; D 296589 11; D 144155 12; D 404459 12; D 839307 12; D 144157 13; D 218066 13; D 301524 13; D 390462 13; D 481455 13; D 571891 13;
   D 659955 13; D 74443 14; D 824631 13; D 900017 13; D 970363 13; D 103549 14; D 10954 15; D 115013 14; D 119982 14; D 124464 14; D 128487 14;
   D 132085 14; D 135301 14; D 138179 14; D 140754 14; D 14306 15; D 145121 14; D 146958 14; D 148589 14; D 150027 14; D 151287 14; D 152381 14;
   D 153321 14; D 154117 14; D 154783 14; D 155332 14; D 155782 14; D 156147 14; D 156441 14; D 156673 14; D 156851 14; D 156984 14; D 157077 14;
   D 157134 14; D 157159 14; D 157155 14; D 157121 14; D 157059 14; D 156967 14; D 156846 14; D 156696 14; D 15652 15; D 15632 15; D 156098 14;
   D 155853 14; D 155587 14; D 155299 14; D 154986 14; D 154649 14; D 154284 14; D 153889 14; D 153463 14; D 153003 14; D 152508 14; D 151979 14;
   D 151416 14; D 150819 14; D 150187 14; D 149518 14; D 148812 14; D 148064 14; D 147273 14; D 146434 14; D 145544 14; D 144599 14; D 143597 14;
   D 142533 14; D 141405 14; D 14021 15; D 138948 14; D 137616 14; D 136212 14; D 134736 14; D 133184 14; D 131556 14; D 129851 14; D 128067 14;
   D 126206 14; D 124269 14; D 122259 14; D 120182 14; D 118046 14; D 115861 14; D 113643 14; D 111409 14; D 109182 14; D 106988 14; D 104863 14;
   D 102846 14];
  [D 271997 10; D 41827 12; D 201713 12; D 560817 12; D 115328 13; D 19645 14; D 294886 13; D 404918 13; D 52111 14; D 639048 13; D 755442 13;
   D 868088 13; D 975598 13; D 107711 14; D 117205 14; D 126016 14; D 134131 14; D 141551 14; D 14829 15; D 15437 15; D 15982 15; D 164685 14;
   D 16902 15; D 172885 14; D 176334 14; D 179412 14; D 182156 14; D 184596 14; D 186758 14; D 18866 15; D 190323 14; D 191763 14; D 192996 14;
   D 194038 14; D 194906 14; D 195621 14; D 196203 14; D 196674 14; D 197052 14; D 19735 15; D 197579 14; D 197749 14; D 197868 14; D 197942 14;
   D 197976 14; D 197971 14; D 197928 14; D 197848 14; D 19773 15; D 197575 14; D 197385 14; D 197163 14; D 196912 14; D 196633 14; D 196328 14;
   D 195996 14; D 195635 14; D 195244 14; D 19482 15; D 194361 14; D 193864 14; D 193326 14; D 192746 14; D 192125 14; D 191462 14; D 190758 14;
   D 190013 14; D 189225 14; D 188392 14; D 18751 15; D 186575 14; D 185584 14; D 18453 15; D 18341 15; D 182219 14; D 180952 14; D 179606 14;
   D 178177 14; D 176663 14; D 175062 14; D 173369 14; D 171583 14; D 169698 14; D 167711 14; D 165619 14; D 163419 14; D 161108 14; D 158685 14;
   D 156151 14; D 153509 14; D 150764 14; D 147923 14; D 144999 14; D 142006 14; D 138963 14; D 135895 14; D 132831 14; D 129807 14; D 126869 14;
   D 12407 15];
  [D 378037 10; D 588133 11; D 2812 14; D 774754 12; D 157905 13; D 266776 13; D 397426 13; D 542024 13; D 693376 13; D 845814 13; D 995268 13;
   D 113903 14; D 127558 14; D 140378 14; D 152311 14; D 163323 14; D 17341 15; D 182579 14; D 190856 14; D 198275 14; D 204887 14; D 210763 14;
   D 215984 14; D 220626 14; D 224757 14; D 22843 15; D 231689 14; D 23457 15; D 237101 14; D 239309 14; D 241217 14; D 242848 14; D 244223 14;
   D 245365 14; D 246301 14; D 247062 14; D 247675 14; D 248166 14; D 248551 14; D 248848 14; D 249068 14; D 249222 14; D 249319 14; D 249364 14;
   D 249359 14; D 249305 14; D 249202 14; D 249051 14; D 248853 14; D 248612 14; D 248331 14; D 248014 14; D 247664 14; D 247281 14; D 246864 14;
   D 246411 14; D 245919 14; D 245384 14; D 244804 14; D 244174 14; D 243493 14; D 242761 14; D 241979 14; D 241147 14; D 240266 14; D 239334 14;
   D 238348 14; D 237305 14; D 236199 14; D 235026 14; D 233778 14; D 232449 14; D 231034 14; D 229527 14; D 227922 14; D 226216 14; D 224405 14;
   D 222486 14; D 220453 14; D 218301 14; D 216024 14; D 213616 14; D 21107 15; D 208381 14; D 205542 14; D 20255 15; D 199402 14; D 196097 14;
   D 192638 14; D 189029 14; D 185278 14; D 181397 14; D 177398 14; D 173303 14; D 169136 14; D 16493 15; D 160723 14; D 156565 14; D 152518 14;
   D 148656 14];
  [D 524965 10; D 824432 11; D 390614 12; D 106665 13; D 215472 13; D 361083 13; D 533937 13; D 723386 13; D 919993 13; D 111653 14; D 130799 14;
   D 149114 14; D 166418 14; D 18258 15; D 197546 14; D 211282 14; D 223792 14; D 235095 14; D 245235 14; D 254267 14; D 262276 14; D 269368 14;
   D 275652 14; D 281225 14; D 286168 14; D 290545 14; D 294405 14; D 297792 14; D 300741 14; D 303288 14; D 305459 14; D 307287 14; D 308802 14;
   D 31004 15; D 311043 14; D 311849 14; D 312492 14; D 312996 14; D 313383 14; D 31367 15; D 313873 14; D 314 17; D 31406 15; D 314056 14; D 313989 14;
   D 313858 14; D 313664 14; D 313411 14; D 313104 14; D 312748 14; D 312349 14; D 311908 14; D 311426 14; D 3109 16; D 310327 14; D 309704 14;
   D 309026 14; D 308289 14; D 307488 14; D 306625 14; D 305698 14; D 304712 14; D 303665 14; D 302559 14; D 301389 14; D 300151 14; D 29884 15;
   D 297447 14; D 295966 14; D 294388 14; D 292705 14; D 29091 15; D 288997 14; D 286961 14; D 284796 14; D 282498 14; D 28006 15; D 277474 14;
   D 274733 14; D 271825 14; D 268742 14; D 265475 14; D 262013 14; D 25835 15; D 254478 14; D 250394 14; D 246095 14; D 241582 14; D 23686 15;
   D 231935 14; D 226815 14; D 221516 14; D 216056 14; D 210462 14; D 204769 14; D 199018 14; D 193267 14; D 187581 14; D 182045 14; D 17676 15];
  [D 72789 11; D 115173 12; D 540896 12; D 14637 14; D 293094 13; D 487212 13; D 715212 13; D 962723 13; D 121746 14; D 147028 14; D 171502 14;
   D 194794 14; D 216679 14; D 237021 14; D 255751 14; D 272851 14; D 288331 14; D 302235 14; D 314626 14; D 325601 14; D 335291 14; D 343846 14;
   D 351408 14; D 358095 14; D 364002 14; D 369203 14; D 373761 14; D 377725 14; D 381142 14; D 384056 14; D 386505 14; D 388532 14; D 390184 14;
   D 391518 14; D 392586 14; D 393436 14; D 394101 14; D 394611 14; D 39499 15; D 395258 14; D 395428 14; D 395511 14; D 395509 14; D 395426 14;
   D 395259 14; D 395012 14; D 394689 14; D 394299 14; D 393848 14; D 393343 14; D 392786 14; D 392176 14; D 39151 15; D 390783 14; D 389992 14;
   D 389128 14; D 388188 14; D 387168 14; D 38607 15; D 384897 14; D 38365 15; D 38233 15; D 380936 14; D 379462 14; D 3779 16; D 376243 14; D 37448 15;
   D 372602 14; D 370597 14; D 368458 14; D 366174 14; D 36374 15; D 36115 15; D 358397 14; D 355473 14; D 352369 14; D 349071 14; D 345568 14;
   D 341846 14; D 33789 15; D 333688 14; D 329227 14; D 324496 14; D 319487 14; D 314193 14; D 308612 14; D 302742 14; D 296584 14; D 290142 14;
   D 283425 14; D 276445 14; D 269222 14; D 261784 14; D 254167 14; D 24642 15; D 238604 14; D 230794 14; D 223085 14; D 21559 15; D 208444 14];
  [D 100726 11; D 160354 12; D 746577 12; D 200225 13; D 397475 13; D 655477 13; D 955364 13; D 127789 14; D 160717 14; D 193168 14; D 224395 14;
   D 253964 14; D 281593 14; D 307147 14; D 330546 14; D 351791 14; D 370907 14; D 38797 15; D 403082 14; D 416398 14; D 428115 14; D 438433 14;
   D 447528 14; D 455543 14; D 462588 14; D 468753 14; D 474111 14; D 478727 14; D 482662 14; D 485967 14; D 488701 14; D 490926 14; D 492716 14;
   D 494145 14; D 495278 14; D 496164 14; D 496843 14; D 497348 14; D 497705 14; D 497935 14; D 49805 15; D 498056 14; D 497954 14; D 497745 14;
   D 497431 14; D 49702 15; D 496523 14; D 495952 14; D 495311 14; D 494606 14; D 493832 14; D 492986 14; D 492062 14; D 491052 14; D 489949 14;
   D 488747 14; D 487446 14; D 486048 14; D 484558 14; D 482979 14; D 48131 15; D 479547 14; D 477681 14; D 475702 14; D 473598 14; D 471356 14;
   D 468964 14; D 466408 14; D 463677 14; D 460763 14; D 45766 15; D 454358 14; D 450848 14; D 447118 14; D 443152 14; D 438933 14; D 434443 14;
   D 429662 14; D 424573 14; D 419158 14; D 4134 16; D 407286 14; D 400806 14; D 393951 14; D 386714 14; D 379091 14; D 37108 15; D 362682 14;
   D 353903 14; D 344755 14; D 335261 14; D 325448 14; D 315358 14; D 305045 14; D 294578 14; D 284042 14; D 273544 14; D 263208 14; D 253186 14;
   D 243657 14];
  [D 13907 12; D 222702 12; D 10274 14; D 273089 13; D 53749 14; D 879418 13; D 12728 15; D 169205 14; D 211672 14; D 253248 14; D 29302 15; D 33049 15;
   D 365318 14; D 397361 14; D 426545 14; D 452883 14; D 476443 14; D 497337 14; D 515735 14; D 531877 14; D 546039 14; D 558479 14; D 569411 14;
   D 579003 14; D 587385 14; D 594667 14; D 600939 14; D 606283 14; D 610777 14; D 614494 14; D 617516 14; D 619941 14; D 621871 14; D 623396 14;
   D 624587 14; D 625499 14; D 626178 14; D 626661 14; D 626975 14; D 627139 14; D 627159 14; D 627038 14; D 626777 14; D 62638 15; D 625859 14;
   D 625229 14; D 624503 14; D 623691 14; D 622795 14; D 621812 14; D 620735 14; D 619556 14; D 618265 14; D 616853 14; D 615314 14; D 613651 14;
   D 611869 14; D 609975 14; D 60797 15; D 605853 14; D 603615 14; D 601244 14; D 598725 14; D 596043 14; D 593181 14; D 590122 14; D 586852 14;
   D 583357 14; D 579631 14; D 575664 14; D 571444 14; D 566956 14; D 562181 14; D 557097 14; D 55168 15; D 545905 14; D 539748 14; D 533184 14;
   D 52619 15; D 518749 14; D 510843 14; D 502458 14; D 493583 14; D 484205 14; D 474317 14; D 463911 14; D 452987 14; D 441549 14; D 429612 14;
   D 417196 14; D 404337 14; D 39108 15; D 377489 14; D 363642 14; D 349635 14; D 335586 14; D 321636 14; D 307953 14; D 294737 14; D 282223 14];
  [D 191699 11; D 308472 12; D 141003 13; D 371407 13; D 724848 13; D 117679 14; D 169152 14; D 223525 14; D 278183 14; D 331349 14; D 381932 14;
   D 429329 14; D 473167 14; D 513274 14; D 549609 14; D 582204 14; D 611181 14; D 636716 14; D 659084 14; D 678641 14; D 695755 14; D 710746 14;
   D 723872 14; D 735327 14; D 745275 14; D 753842 14; D 761147 14; D 767294 14; D 772384 14; D 776523 14; D 779838 14; D 782469 14; D 784541 14;
   D 786157 14; D 787394 14; D 788316 14; D 788975 14; D 789409 14; D 789645 14; D 789692 14; D 789555 14; D 789234 14; D 788736 14; D 788078 14;
   D 787279 14; D 786359 14; D 785329 14; D 78419 15; D 782939 14; D 781566 14; D 78006 15; D 778407 14; D 776597 14; D 774625 14; D 772498 14;
   D 770224 14; D 767811 14; D 765261 14; D 762567 14; D 759717 14; D 756694 14; D 753477 14; D 750047 14; D 74638 15; D 742457 14; D 73826 15;
   D 733779 14; D 729004 14; D 72392 15; D 718512 14; D 712754 14; D 706621 14; D 700082 14; D 693104 14; D 685655 14; D 677703 14; D 669217 14;
   D 66017 15; D 650542 14; D 64031 15; D 629456 14; D 617962 14; D 605811 14; D 592989 14; D 579487 14; D 565302 14; D 550439 14; D 534914 14;
   D 518752 14; D 501996 14; D 484701 14; D 46694 15; D 448802 14; D 430399 14; D 411862 14; D 39335 15; D 375052 14; D 357189 14; D 340021 14;
   D 323854 14];
  [D 264269 11; D 426062 12; D 192981 13; D 503789 13; D 97499 14; D 157083 14; D 224276 14; D 294643 14; D 364857 14; D 432725 14; D 496962 14;
   D 556823 14; D 611916 14; D 662042 14; D 707198 14; D 747461 14; D 783031 14; D 81419 15; D 841359 14; D 865045 14; D 885719 14; D 903772 14;
   D 919507 14; D 933161 14; D 944925 14; D 954962 14; D 963422 14; D 970438 14; D 976152 14; D 980725 14; D 984343 14; D 987186 14; D 989399 14;
   D 991092 14; D 992356 14; D 993264 14; D 993872 14; D 994215 14; D 994311 14; D 994164 14; D 993777 14; D 993159 14; D 992331 14; D 991322 14;
   D 990156 14; D 988849 14; D 987402 14; D 985808 14; D 984057 14; D 982131 14; D 980014 14; D 977693 14; D 975167 14; D 972445 14; D 969541 14;
   D 966463 14; D 963212 14; D 959776 14; D 956137 14; D 952271 14; D 948151 14; D 943751 14; D 93904 15; D 933996 14; D 928603 14; D 922846 14;
   D 916713 14; D 910184 14; D 903232 14; D 895825 14; D 887923 14; D 879487 14; D 870473 14; D 860838 14; D 850543 14; D 839552 14; D 827834 14;
   D 815361 14; D 802108 14; D 788047 14; D 773154 14; D 757406 14; D 740784 14; D 723277 14; D 704883 14; D 685608 14; D 665474 14; D 644517 14;
   D 622788 14; D 600355 14; D 577306 14; D 553743 14; D 529796 14; D 505616 14; D 481382 14; D 457307 14; D 433639 14; D 410665 14; D 38872 15;
   D 36819 15];
  [D 364115 11; D 586853 12; D 263452 13; D 681602 13; D 130823 14; D 209192 14; D 296707 14; D 387592 14; D 477631 14; D 564132 14; D 645588 14;
   D 721087 14; D 790213 14; D 852771 14; D 908787 14; D 958439 14; D 100202 15; D 103999 15; D 107297 15; D 110165 15; D 112662 15; D 114833 15;
   D 116716 15; D 118339 15; D 119726 15; D 120896 15; D 121869 15; D 122663 15; D 123299 15; D 123802 15; D 124195 15; D 124501 15; D 124735 15;
   D 12491 16; D 125037 15; D 125122 15; D 125173 15; D 125191 15; D 125177 15; D 125131 15; D 125055 15; D 124952 15; D 124825 15; D 124677 15;
   D 124511 15; D 124328 15; D 124125 15; D 123902 15; D 123655 15; D 123384 15; D 123087 15; D 122763 15; D 122415 15; D 122044 15; D 121651 15;
   D 121236 15; D 120796 15; D 120331 15; D 119835 15; D 119307 15; D 118741 15; D 118135 15; D 117485 15; D 116791 15; D 11605 16; D 115261 15;
   D 114421 15; D 113525 15; D 11257 16; D 111549 15; D 110458 15; D 109291 15; D 108042 15; D 106707 15; D 105281 15; D 103761 15; D 102144 15;
   D 100426 15; D 986026 14; D 966716 14; D 946299 14; D 924753 14; D 902067 14; D 87824 15; D 853288 14; D 827243 14; D 800154 14; D 772089 14;
   D 743133 14; D 713389 14; D 682984 14; D 652069 14; D 620819 14; D 589442 14; D 558179 14; D 527307 14; D 497145 14; D 46806 15; D 440472 14;
   D 414859 14];
  [D 501127 11; D 80658 13; D 358805 13; D 919965 13; D 175126 14; D 277967 14; D 391719 14; D 508883 14; D 624157 14; D 734246 14; D 837383 14;
   D 932486 14; D 101908 15; D 109704 15; D 116642 15; D 122753 15; D 128085 15; D 132707 15; D 13671 16; D 140182 15; D 143194 15; D 145803 15;
   D 148052 15; D 149975 15; D 151602 15; D 152958 15; D 15407 16; D 154962 15; D 155666 15; D 156216 15; D 156642 15; D 156969 15; D 157213 15;
   D 157391 15; D 157513 15; D 157587 15; D 157619 15; D 157608 15; D 157557 15; D 157465 15; D 157337 15; D 157177 15; D 156991 15; D 156781 15;
   D 156548 15; D 15629 16; D 156006 15; D 155692 15; D 155345 15; D 154964 15; D 15455 16; D 154104 15; D 153629 15; D 153127 15; D 152596 15;
   D 152035 15; D 151438 15; D 150802 15; D 150123 15; D 149394 15; D 148613 15; D 147776 15; D 146882 15; D 145928 15; D 144911 15; D 143828 15;
   D 142671 15; D 141436 15; D 140115 15; D 138701 15; D 137186 15; D 135565 15; D 133831 15; D 13198 16; D 130008 15; D 127909 15; D 125679 15;
   D 123313 15; D 120808 15; D 11816 16; D 115367 15; D 112429 15; D 109346 15; D 10612 16; D 102758 15; D 992663 14; D 956532 14; D 919299 14;
   D 881096 14; D 842076 14; D 802421 14; D 762341 14; D 722078 14; D 681906 14; D 642139 14; D 60313 15; D 565282 14; D 529044 14; D 49493 15;
   D 469383 14];
  [D 688647 11; D 110607 13; D 487499 13; D 123884 14; D 233912 14; D 368581 14; D 516137 14; D 666914 14; D 814265 14; D 954202 14; D 10846 16;
   D 120424 15; D 131258 15; D 140956 15; D 149536 15; D 157047 15; D 16356 16; D 169183 15; D 174041 15; D 178241 15; D 181874 15; D 185003 15;
   D 187682 15; D 189953 15; D 191853 15; D 193415 15; D 194675 15; D 19567 16; D 196445 15; D 197045 15; D 197504 15; D 197849 15; D 198101 15;
   D 198276 15; D 198387 15; D 19844 16; D 198439 15; D 198383 15; D 198274 15; D 198117 15; D 197918 15; D 197684 15; D 197419 15; D 197124 15;
   D 196796 15; D 196435 15; D 196034 15; D 195591 15; D 195104 15; D 194574 15; D 194004 15; D 193397 15; D 192755 15; D 192076 15; D 191357 15;
   D 190592 15; D 189775 15; D 188901 15; D 187963 15; D 186956 15; D 185877 15; D 184725 15; D 183495 15; D 182183 15; D 180784 15; D 179289 15;
   D 17769 16; D 175978 15; D 174142 15; D 172175 15; D 170068 15; D 167815 15; D 16541 16; D 162848 15; D 160121 15; D 157225 15; D 154154 15;
   D 150903 15; D 147468 15; D 143849 15; D 140044 15; D 136058 15; D 131895 15; D 127562 15; D 12307 16; D 118431 15; D 113659 15; D 10877 16;
   D 103785 15; D 98725 15; D 936162 14; D 884867 14; D 833685 14; D 782971 14; D 733117 14; D 684559 14; D 637782 14; D 602607 14; D 560301 14;
   D 521653 14];
  [D 94463 12; D 151315 13; D 660898 13; D 166458 14; D 311772 14; D 487756 14; D 678816 14; D 872525 14; D 106061 15; D 123826 15; D 140291 15;
   D 155322 15; D 16886 16; D 180906 15; D 191501 15; D 200715 15; D 208663 15; D 215503 15; D 221395 15; D 226476 15; D 23085 16; D 234596 15;
   D 237778 15; D 240449 15; D 242656 15; D 244444 15; D 245861 15; D 246965 15; D 247817 15; D 248469 15; D 248959 15; D 249319 15; D 249572 15;
   D 249737 15; D 249825 15; D 249841 15; D 249785 15; D 249659 15; D 249469 15; D 249223 15; D 24893 16; D 248596 15; D 248223 15; D 247809 15;
   D 247349 15; D 24684 16; D 246276 15; D 245654 15; D 244977 15; D 244248 15; D 243473 15; D 242652 15; D 241783 15; D 240862 15; D 239881 15;
   D 238832 15; D 237708 15; D 236499 15; D 235202 15; D 233811 15; D 232325 15; D 230739 15; D 229046 15; D 227238 15; D 225304 15; D 223232 15;
   D 22101 16; D 218626 15; D 216069 15; D 21333 16; D 210401 15; D 207275 15; D 203945 15; D 200401 15; D 196639 15; D 192649 15; D 188429 15;
   D 183974 15; D 179284 15; D 174362 15; D 169212 15; D 163845 15; D 15827 16; D 152502 15; D 146558 15; D 140456 15; D 134219 15; D 127872 15;
   D 121443 15; D 114963 15; D 108466 15; D 10199 16; D 955733 14; D 892611 14; D 831002 14; D 785625 14; D 727627 14; D 672827 14; D 621979 14;
   D 575942 14];
  [D 129319 12; D 206528 13; D 8941 15; D 223202 14; D 414712 14; D 644244 14; D 891196 14; D 113968 15; D 137942 15; D 160469 15; D 181235 15;
   D 200094 15; D 216988 15; D 231931 15; D 244992 15; D 256281 15; D 265974 15; D 27429 16; D 281436 15; D 287576 15; D 292836 15; D 297311 15;
   D 301078 15; D 304207 15; D 306755 15; D 308786 15; D 310372 15; D 311592 15; D 312525 15; D 313228 15; D 313746 15; D 314115 15; D 314361 15;
   D 314503 15; D 314549 15; D 314501 15; D 314361 15; D 314134 15; D 313833 15; D 313468 15; D 313049 15; D 312579 15; D 312056 15; D 311475 15;
   D 310829 15; D 310112 15; D 30932 16; D 308456 15; D 307526 15; D 306535 15; D 305486 15; D 304376 15; D 303196 15; D 301938 15; D 300592 15;
   D 299146 15; D 29759 16; D 295919 15; D 294127 15; D 292212 15; D 290166 15; D 287981 15; D 285644 15; D 28314 16; D 280455 15; D 277571 15;
   D 274474 15; D 271151 15; D 26759 16; D 263783 15; D 259719 15; D 255389 15; D 250784 15; D 245894 15; D 240712 15; D 235234 15; D 229456 15;
   D 223382 15; D 217016 15; D 21037 16; D 203456 15; D 196291 15; D 188895 15; D 181291 15; D 173506 15; D 165568 15; D 15751 16; D 149369 15;
   D 141182 15; D 13299 16; D 124838 15; D 11677 16; D 108836 15; D 103183 15; D 95553 15; D 882114 14; D 812264 14; D 746747 14; D 686434 14;
   D 632316 14];
  [D 176706 12; D 281368 13; D 120706 14; D 298691 14; D 550582 14; D 849403 14; D 116809 15; D 148637 15; D 179157 15; D 207687 15; D 23385 16;
   D 257481 15; D 278535 15; D 297046 15; D 313123 15; D 32694 16; D 338755 15; D 348864 15; D 357526 15; D 36494 16; D 371254 15; D 376586 15;
   D 38103 16; D 384676 15; D 387601 15; D 389893 15; D 391659 15; D 393005 15; D 394021 15; D 394773 15; D 395313 15; D 395681 15; D 395907 15;
   D 396003 15; D 395977 15; D 395829 15; D 395566 15; D 3952 17; D 394749 15; D 394226 15; D 393636 15; D 392978 15; D 392245 15; D 391428 15;
   D 390519 15; D 389513 15; D 388413 15; D 387227 15; D 385963 15; D 384624 15; D 383204 15; D 381695 15; D 380084 15; D 378357 15; D 3765 17;
   D 374499 15; D 372348 15; D 370041 15; D 367574 15; D 364937 15; D 362117 15; D 359097 15; D 355857 15; D 352376 15; D 348635 15; D 344613 15;
   D 340295 15; D 335668 15; D 33072 16; D 325438 15; D 319811 15; D 313826 15; D 307472 15; D 300743 15; D 293633 15; D 286143 15; D 27828 16;
   D 270054 15; D 261481 15; D 252583 15; D 243384 15; D 233911 15; D 224197 15; D 214278 15; D 204194 15; D 193987 15; D 183703 15; D 17339 16;
   D 163098 15; D 152879 15; D 142783 15; D 13586 16; D 126047 15; D 116507 15; D 107305 15; D 985093 14; D 901986 14; D 82459 15; D 753888 14;
   D 691012 14];
  [D 241309 12; D 382599 13; D 162638 14; D 39895 15; D 729635 14; D 111798 15; D 152858 15; D 193574 15; D 232382 15; D 268472 15; D 301397 15;
   D 330975 15; D 357178 15; D 380079 15; D 399842 15; D 416735 15; D 431132 15; D 443419 15; D 453913 15; D 462853 15; D 470419 15; D 476753 15;
   D 481977 15; D 486201 15; D 489537 15; D 492111 15; D 494071 15; D 49555 16; D 49665 16; D 497445 15; D 497997 15; D 49835 16; D 49853 16;
   D 498548 15; D 498405 15; D 498108 15; D 497672 15; D 497119 15; D 496469 15; D 495732 15; D 494906 15; D 493984 15; D 492955 15; D 491807 15;
   D 490533 15; D 489136 15; D 487626 15; D 486016 15; D 484307 15; D 482495 15; D 480567 15; D 478505 15; D 476293 15; D 47391 16; D 471342 15;
   D 468577 15; D 46561 16; D 462435 15; D 459038 15; D 455401 15; D 451501 15; D 44731 16; D 442803 15; D 437953 15; D 432734 15; D 427128 15;
   D 42112 16; D 414693 15; D 407832 15; D 400522 15; D 392746 15; D 384495 15; D 375759 15; D 366537 15; D 356833 15; D 34666 16; D 336037 15;
   D 324988 15; D 313545 15; D 301743 15; D 289621 15; D 277225 15; D 264603 15; D 25181 16; D 238902 15; D 225936 15; D 212974 15; D 200076 15;
   D 187303 15; D 178877 15; D 166401 15; D 154203 15; D 142347 15; D 130897 15; D 119925 15; D 109506 15; D 997254 14; D 906784 14; D 824749 14;
   D 752424 14];
  [D 32927 13; D 519222 13; D 218729 14; D 531888 14; D 965226 14; D 146909 15; D 199735 15; D 251753 15; D 301049 15; D 346647 15; D 38804 16;
   D 42502 16; D 45759 16; D 485882 15; D 510147 15; D 530787 15; D 548327 15; D 563256 15; D 575961 15; D 586726 15; D 595771 15; D 603271 15;
   D 609383 15; D 614252 15; D 618031 15; D 620911 15; D 623081 15; D 624699 15; D 625878 15; D 626707 15; D 627256 15; D 627568 15; D 627664 15;
   D 62755 16; D 62723 16; D 626721 15; D 626052 15; D 62525 16; D 624333 15; D 6233 17; D 622145 15; D 620853 15; D 619409 15; D 617801 15;
   D 616031 15; D 614113 15; D 612064 15; D 609887 15; D 607577 15; D 605116 15; D 602484 15; D 599654 15; D 596603 15; D 59331 16; D 589762 15;
   D 585952 15; D 581871 15; D 5775 17; D 572815 15; D 567783 15; D 56237 16; D 55654 16; D 550258 15; D 543494 15; D 536225 15; D 52843 16;
   D 520091 15; D 511186 15; D 501696 15; D 491602 15; D 480892 15; D 46956 16; D 457606 15; D 445043 15; D 431891 15; D 418182 15; D 403953 15;
   D 389248 15; D 374116 15; D 358616 15; D 342809 15; D 326763 15; D 310549 15; D 294242 15; D 277918 15; D 261651 15; D 245516 15; D 229585 15;
   D 21946 16; D 203983 15; D 188876 15; D 174206 15; D 160039 15; D 146445 15; D 133498 15; D 121278 15; D 109876 15; D 993962 14; D 899598 14;
   D 817094 14];
  [D 448788 12; D 703256 13; D 293619 14; D 707874 14; D 127476 15; D 192747 15; D 260615 15; D 326992 15; D 389546 15; D 447102 15; D 499079 15;
   D 545265 15; D 585699 15; D 620606 15; D 650365 15; D 675575 15; D 69694 16; D 715072 15; D 730438 15; D 743381 15; D 754165 15; D 763016 15;
   D 770133 15; D 775709 15; D 779972 15; D 783184 15; D 78558 16; D 787337 15; D 788587 15; D 789435 15; D 789954 15; D 790182 15; D 790135 15;
   D 789815 15; D 789239 15; D 78844 16; D 787459 15; D 786323 15; D 785039 15; D 783597 15; D 781982 15; D 780172 15; D 778149 15; D 775914 15;
   D 773484 15; D 770881 15; D 768113 15; D 765172 15; D 762038 15; D 758681 15; D 75507 16; D 751171 15; D 746956 15; D 742412 15; D 737527 15;
   D 732289 15; D 726674 15; D 720647 15; D 714165 15; D 707182 15; D 699651 15; D 691528 15; D 682774 15; D 673361 15; D 663263 15; D 652454 15;
   D 640908 15; D 628601 15; D 61551 16; D 601622 15; D 586934 15; D 571453 15; D 555201 15; D 538214 15; D 520536 15; D 502222 15; D 483335 15;
   D 463948 15; D 444139 15; D 423995 15; D 403608 15; D 383074 15; D 362489 15; D 341952 15; D 321557 15; D 301394 15; D 288997 15; D 269405 15;
   D 250241 15; D 231577 15; D 213481 15; D 19602 16; D 179262 15; D 163276 15; D 148136 15; D 133926 15; D 120742 15; D 108694 15; D 979169 14;
   D 885687 14];
  [D 610848 12; D 950983 13; D 39346 15; D 940502 14; D 168088 15; D 252515 15; D 339595 15; D 424198 15; D 5035 17; D 576075 15; D 641274 15;
   D 698892 15; D 749033 15; D 792047 15; D 828512 15; D 859295 15; D 885313 15; D 907324 15; D 925886 15; D 941417 15; D 954241 15; D 964647 15;
   D 972888 15; D 97924 16; D 984031 15; D 987604 15; D 990237 15; D 992129 15; D 993436 15; D 994276 15; D 99472 16; D 9948 17; D 994521 15;
   D 993896 15; D 992964 15; D 991777 15; D 990379 15; D 988789 15; D 986997 15; D 984985 15; D 982725 15; D 980192 15; D 977379 15; D 974309 15;
   D 971009 15; D 967495 15; D 963758 15; D 959773 15; D 955503 15; D 950903 15; D 945932 15; D 940551 15; D 934741 15; D 92849 16; D 921779 15;
   D 914578 15; D 906838 15; D 898502 15; D 889511 15; D 8798 17; D 869314 15; D 858004 15; D 845834 15; D 832771 15; D 818782 15; D 803832 15;
   D 78789 16; D 770932 15; D 752944 15; D 733926 15; D 713897 15; D 692894 15; D 67097 16; D 648191 15; D 624636 15; D 600394 15; D 575566 15;
   D 550263 15; D 524603 15; D 498711 15; D 472714 15; D 446741 15; D 420915 15; D 395354 15; D 38003 16; D 35521 16; D 330906 15; D 307202 15;
   D 284176 15; D 261897 15; D 240432 15; D 219843 15; D 200193 15; D 181549 15; D 163983 15; D 147579 15; D 132435 15; D 118672 15; D 106433 15;
   D 958969 14];
  [D 830148 12; D 128389 14; D 526373 14; D 124755 15; D 221299 15; D 330351 15; D 441941 15; D 549658 15; D 650094 15; D 741531 15; D 82323 16;
   D 895031 15; D 957138 15; D 101008 16; D 105473 16; D 109231 16; D 112399 16; D 115069 16; D 117308 16; D 119168 16; D 120688 16; D 121906 16;
   D 122855 16; D 123576 16; D 124113 16; D 124509 16; D 124796 16; D 124998 16; D 125132 16; D 125211 16; D 125241 16; D 125224 16; D 12516 17;
   D 125055 16; D 124913 16; D 124743 16; D 124547 16; D 124325 16; D 124076 16; D 123795 16; D 123479 16; D 123126 16; D 122739 16; D 122322 16;
   D 121877 16; D 121403 16; D 120897 16; D 120355 16; D 119771 16; D 119138 16; D 118453 16; D 117712 16; D 116914 16; D 116056 16; D 115134 16;
   D 114142 16; D 113072 16; D 111917 16; D 110667 16; D 109316 16; D 107858 16; D 106287 16; D 1046 18; D 102792 16; D 10086 17; D 987976 15;
   D 966037 15; D 942767 15; D 918173 15; D 89229 16; D 865174 15; D 836903 15; D 807574 15; D 777296 15; D 746197 15; D 714417 15; D 682108 15;
   D 649431 15; D 616555 15; D 583648 15; D 550877 15; D 518401 15; D 486368 15; D 467723 15; D 436838 15; D 406694 15; D 377385 15; D 348994 15;
   D 321591 15; D 29524 16; D 269997 15; D 245916 15; D 223051 15; D 20146 16; D 181211 15; D 162387 15; D 145088 15; D 129442 15; D 115606 15;
   D 103779 15];
  [D 112631 13; D 173043 14; D 703027 14; D 165227 15; D 290934 15; D 431601 15; D 574434 15; D 711444 15; D 838525 15; D 953617 15; D 10559 17;
   D 114527 16; D 122211 16; D 128721 16; D 134186 16; D 138773 16; D 142628 16; D 145865 16; D 148562 16; D 150783 16; D 15258 17; D 153999 16;
   D 155086 16; D 1559 18; D 156501 16; D 156939 16; D 15725 17; D 157461 16; D 157594 16; D 157661 16; D 157665 16; D 157608 16; D 157494 16;
   D 157329 16; D 157123 16; D 156883 16; D 15661 17; D 156302 16; D 155954 16; D 155562 16; D 155123 16; D 154637 16; D 154111 16; D 153548 16;
   D 152948 16; D 152308 16; D 151621 16; D 15088 17; D 150078 16; D 149207 16; D 148264 16; D 147247 16; D 146152 16; D 144975 16; D 143706 16;
   D 142336 16; D 140855 16; D 13925 17; D 137514 16; D 135637 16; D 133614 16; D 13144 17; D 129108 16; D 126613 16; D 12395 17; D 121116 16;
   D 11811 17; D 114934 16; D 111593 16; D 108096 16; D 104454 16; D 10068 17; D 967911 15; D 928036 15; D 887372 15; D 846127 15; D 804521 15;
   D 762778 15; D 721122 15; D 679768 15; D 638919 15; D 615394 15; D 576027 15; D 537579 15; D 500177 15; D 463926 15; D 428914 15; D 395213 15;
   D 36288 16; D 331962 15; D 302499 15; D 274529 15; D 248092 15; D 223235 15; D 20002 16; D 178524 15; D 15885 16; D 141132 15; D 125544 15;
   D 112305 15];
  [D 15255 14; D 232836 14; D 937493 14; D 218502 15; D 381944 15; D 563161 15; D 745784 15; D 919892 15; D 108053 16; D 122528 16; D 135321 16;
   D 146434 16; D 15593 17; D 163927 16; D 170614 16; D 176212 16; D 180902 16; D 18482 17; D 188064 16; D 19071 17; D 192825 16; D 19447 17;
   D 19571 17; D 196627 16; D 197298 16; D 197778 16; D 198112 16; D 19833 17; D 198455 16; D 198497 16; D 198459 16; D 198343 16; D 198157 16;
   D 197913 16; D 197621 16; D 197287 16; D 196908 16; D 196479 16; D 195995 16; D 195449 16; D 194842 16; D 194181 16; D 19347 17; D 192713 16;
   D 191904 16; D 191036 16; D 1901 18; D 189084 16; D 187981 16; D 186784 16; D 185491 16; D 184097 16; D 182597 16; D 180978 16; D 179228 16;
   D 177333 16; D 175278 16; D 173051 16; D 170641 16; D 168042 16; D 165245 16; D 162242 16; D 159028 16; D 155595 16; D 15194 17; D 148063 16;
   D 143966 16; D 139659 16; D 135154 16; D 130466 16; D 125615 16; D 120623 16; D 115512 16; D 110311 16; D 105047 16; D 997496 15; D 944491 15;
   D 891746 15; D 839542 15; D 788137 15; D 75917 16; D 70996 16; D 662059 15; D 615613 15; D 570741 15; D 527536 15; D 486066 15; D 446381 15;
   D 408514 15; D 372487 15; D 338316 15; D 306018 15; D 275614 15; D 247136 15; D 220635 15; D 196182 15; D 173882 15; D 153878 15; D 136358 15;
   D 121569 15];
  [D 206402 13; D 31284 15; D 124831 15; D 288541 15; D 500754 15; D 73393 16; D 967183 15; D 118825 16; D 139113 16; D 157299 16; D 173287 16;
   D 187091 16; D 198814 16; D 20863 17; D 216811 16; D 223641 16; D 229343 16; D 234081 16; D 237975 16; D 241119 16; D 243599 16; D 245495 16;
   D 246905 16; D 247936 16; D 248681 16; D 249205 16; D 249558 16; D 249777 16; D 249882 16; D 249881 16; D 249778 16; D 249577 16; D 249293 16;
   D 248943 16; D 248536 16; D 248072 16; D 247546 16; D 24695 17; D 246276 16; D 245522 16; D 244693 16; D 2438 18; D 242845 16; D 241825 16;
   D 240731 16; D 23955 17; D 238269 16; D 236874 16; D 235359 16; D 233719 16; D 23195 17; D 230042 16; D 227982 16; D 225752 16; D 223334 16;
   D 220709 16; D 217859 16; D 214773 16; D 21144 17; D 207849 16; D 203992 16; D 199859 16; D 195441 16; D 190736 16; D 185742 16; D 180466 16;
   D 174921 16; D 169124 16; D 163096 16; D 156865 16; D 150459 16; D 143913 16; D 137262 16; D 130544 16; D 123799 16; D 117067 16; D 110386 16;
   D 103792 16; D 10006 17; D 937404 15; D 875831 15; D 816086 15; D 758343 15; D 702734 15; D 649355 15; D 59827 16; D 549516 15; D 503107 15;
   D 45904 16; D 417304 15; D 377884 15; D 340769 15; D 305954 15; D 273454 15; D 243304 15; D 215572 15; D 190362 15; D 167825 15; D 148169 15;
   D 131668 15];
  [D 279034 13; D 419743 14; D 165975 15; D 380505 15; D 655684 15; D 955363 15; D 1253 18; D 153343 16; D 178945 16; D 201777 16; D 221737 16;
   D 238869 16; D 253324 16; D 265368 16; D 275375 16; D 283705 16; D 290633 16; D 296355 16; D 301017 16; D 304742 16; D 307636 16; D 309814 16;
   D 311412 16; D 312569 16; D 313393 16; D 313959 16; D 314326 16; D 314533 16; D 3146 18; D 314531 16; D 314329 16; D 314011 16; D 313597 16;
   D 313105 16; D 31254 17; D 311898 16; D 311168 16; D 31034 17; D 309408 16; D 308375 16; D 307254 16; D 306054 16; D 30477 17; D 303394 16;
   D 301908 16; D 300296 16; D 298539 16; D 296627 16; D 294553 16; D 292311 16; D 289892 16; D 287276 16; D 284442 16; D 281365 16; D 27802 17;
   D 274385 16; D 270441 16; D 266177 16; D 261579 16; D 256633 16; D 251329 16; D 245656 16; D 239608 16; D 233188 16; D 226404 16; D 219274 16;
   D 211822 16; D 204079 16; D 196081 16; D 187868 16; D 179486 16; D 170982 16; D 16241 17; D 153821 16; D 145268 16; D 136801 16; D 128467 16;
   D 123812 16; D 115872 16; D 108158 16; D 100697 16; D 935077 15; D 866057 15; D 800007 15; D 736982 15; D 677 18; D 620049 15; D 566094 15;
   D 515087 15; D 466973 15; D 421696 15; D 37921 16; D 339484 15; D 302507 15; D 2683 17; D 236921 15; D 208477 15; D 183126 15; D 161099 15;
   D 142703 15];
  [D 376841 13; D 562371 14; D 22037 16; D 501115 15; D 857489 15; D 124222 16; D 162163 16; D 197712 16; D 229994 16; D 258632 16; D 283529 16;
   D 304769 16; D 32258 17; D 337349 16; D 349587 16; D 359745 16; D 368155 16; D 375055 16; D 380625 16; D 385021 16; D 388385 16; D 390876 16;
   D 392683 16; D 393978 16; D 394882 16; D 395487 16; D 395859 16; D 396038 16; D 396037 16; D 395861 16; D 395521 16; D 395043 16; D 394455 16;
   D 393772 16; D 392991 16; D 392102 16; D 39109 17; D 389944 16; D 388663 16; D 387263 16; D 385757 16; D 384146 16; D 382418 16; D 380553 16;
   D 37853 17; D 376324 16; D 373917 16; D 371301 16; D 368469 16; D 365408 16; D 362096 16; D 358504 16; D 3546 18; D 350349 16; D 345723 16;
   D 340697 16; D 335255 16; D 32938 17; D 323054 16; D 316261 16; D 30899 17; D 301233 16; D 292992 16; D 284282 16; D 275127 16; D 26556 17;
   D 255624 16; D 245365 16; D 234841 16; D 224111 16; D 213242 16; D 202303 16; D 191364 16; D 180493 16; D 169757 16; D 159215 16; D 15339 17;
   D 143401 16; D 133724 16; D 124392 16; D 115426 16; D 106845 16; D 986573 15; D 908673 15; D 834742 15; D 764732 15; D 698566 15; D 636147 15;
   D 577368 15; D 52212 16; D 4703 17; D 42182 16; D 376614 15; D 334643 15; D 295914 15; D 260472 15; D 228423 15; D 19994 16; D 175275 15;
   D 154772 15];
  [D 508336 13; D 752372 14; D 292208 15; D 659117 15; D 112009 16; D 16135 17; D 209672 16; D 254699 16; D 295376 16; D 331266 16; D 362292 16;
   D 388601 16; D 410527 16; D 428636 16; D 4436 18; D 45598 17; D 466178 16; D 474483 16; D 481123 16; D 486292 16; D 490183 16; D 493024 16;
   D 495065 16; D 496507 16; D 497493 16; D 49813 17; D 49849 17; D 498611 16; D 4985 18; D 498167 16; D 497635 16; D 496945 16; D 496124 16;
   D 495179 16; D 494101 16; D 492871 16; D 49147 17; D 489892 16; D 488151 16; D 486268 16; D 484249 16; D 482084 16; D 47975 17; D 477217 16;
   D 474454 16; D 471435 16; D 468145 16; D 464577 16; D 460715 16; D 456533 16; D 451992 16; D 44705 17; D 441664 16; D 435794 16; D 429407 16;
   D 422479 16; D 41499 17; D 406917 16; D 398238 16; D 388937 16; D 379006 16; D 368449 16; D 357284 16; D 345545 16; D 333277 16; D 320538 16;
   D 307391 16; D 293913 16; D 280184 16; D 266293 16; D 252333 16; D 238396 16; D 224574 16; D 21095 17; D 203252 16; D 19029 17; D 177707 16;
   D 16555 17; D 153858 16; D 142658 16; D 131967 16; D 121797 16; D 112148 16; D 103016 16; D 943918 15; D 862614 15; D 78609 16; D 714172 15;
   D 646682 15; D 583445 15; D 524303 15; D 46912 16; D 417785 15; D 370238 15; D 326457 15; D 286479 15; D 250409 15; D 218432 15; D 190826 15;
   D 167977 15];
  [D 684842 13; D 100526 15; D 386965 15; D 865875 15; D 146146 16; D 209359 16; D 270851 16; D 327841 16; D 379056 16; D 424004 16; D 462634 16;
   D 495188 16; D 522163 16; D 544361 16; D 562655 16; D 577736 16; D 590089 16; D 600066 16; D 607957 16; D 614012 16; D 618496 16; D 621729 16;
   D 624027 16; D 625625 16; D 62669 17; D 627346 16; D 627668 16; D 627686 16; D 627407 16; D 626849 16; D 626059 16; D 625085 16; D 62395 17;
   D 622647 16; D 621159 16; D 619458 16; D 617526 16; D 615373 16; D 613026 16; D 610502 16; D 607796 16; D 60488 17; D 601717 16; D 598267 16;
   D 594491 16; D 590367 16; D 585884 16; D 581025 16; D 575756 16; D 570032 16; D 563796 16; D 556991 16; D 549563 16; D 541467 16; D 532673 16;
   D 523151 16; D 512873 16; D 501809 16; D 489938 16; D 47725 17; D 463749 16; D 44946 17; D 434429 16; D 418718 16; D 402401 16; D 385566 16;
   D 368314 16; D 350754 16; D 333005 16; D 315188 16; D 297426 16; D 27984 17; D 262541 16; D 252803 16; D 236413 16; D 220541 16; D 205244 16;
   D 19057 17; D 176551 16; D 163207 16; D 150546 16; D 138567 16; D 127261 16; D 116612 16; D 106597 16; D 971947 15; D 883772 15; D 801182 15;
   D 723914 15; D 651717 15; D 58437 16; D 521673 15; D 463482 15; D 409693 15; D 360262 15; D 315213 15; D 274651 15; D 238773 15; D 207886 15;
   D 182423 15];
  [D 921393 13; D 134154 15; D 511806 15; D 113615 16; D 190481 16; D 27139 17; D 349577 16; D 421655 16; D 486093 16; D 54234 17; D 590397 16;
   D 630644 16; D 663812 16; D 691018 16; D 713379 16; D 731736 16; D 746678 16; D 758641 16; D 76799 17; D 775054 16; D 780204 16; D 783877 16;
   D 786457 16; D 788216 16; D 789353 16; D 790005 16; D 790245 16; D 790095 16; D 789566 16; D 7887 18; D 787565 16; D 786211 16; D 784646 16;
   D 782853 16; D 780799 16; D 778451 16; D 775806 16; D 772895 16; D 769749 16; D 766372 16; D 762736 16; D 758797 16; D 7545 18; D 749794 16;
   D 74464 17; D 739024 16; D 732925 16; D 726307 16; D 719111 16; D 711264 16; D 702691 16; D 693319 16; D 683087 16; D 671953 16; D 659878 16;
   D 646824 16; D 632753 16; D 617636 16; D 601458 16; D 584225 16; D 565971 16; D 546754 16; D 526656 16; D 505779 16; D 484239 16; D 462169 16;
   D 439717 16; D 417039 16; D 394297 16; D 371654 16; D 349267 16; D 327282 16; D 314927 16; D 294179 16; D 274129 16; D 25485 17; D 236401 16;
   D 218819 16; D 202126 16; D 186329 16; D 171422 16; D 157389 16; D 144205 16; D 131839 16; D 120256 16; D 109419 16; D 992898 15; D 898304 15;
   D 810041 15; D 727777 15; D 651216 15; D 580097 15; D 514219 15; D 453438 15; D 397682 15; D 346961 15; D 301377 15; D 261141 15; D 226591 15;
   D 198213 15];
  [D 123792 14; D 178813 15; D 676122 15; D 14891 17; D 248008 16; D 351471 16; D 450813 16; D 541907 16; D 622925 16; D 693258 16; D 752994 16;
   D 802709 16; D 843475 16; D 876814 16; D 904137 16; D 926463 16; D 944513 16; D 958828 16; D 969867 16; D 978074 16; D 983974 16; D 988138 16;
   D 991023 16; D 992944 16; D 994136 16; D 994747 16; D 994839 16; D 994428 16; D 993542 16; D 99226 17; D 990665 16; D 988798 16; D 986647 16;
   D 984178 16; D 981345 16; D 978121 16; D 974531 16; D 970622 16; D 966417 16; D 961892 16; D 956996 16; D 951659 16; D 94581 17; D 939392 16;
   D 932378 16; D 924746 16; D 916454 16; D 907431 16; D 897585 16; D 886817 16; D 875027 16; D 862134 16; D 848077 16; D 832805 16; D 816268 16;
   D 798416 16; D 779209 16; D 758626 16; D 736673 16; D 713392 16; D 68886 17; D 663185 16; D 636501 16; D 608963 16; D 580748 16; D 55205 17;
   D 523077 16; D 494045 16; D 465169 16; D 436654 16; D 408691 16; D 392972 16; D 366673 16; D 341308 16; D 316971 16; D 293732 16; D 271637 16;
   D 250709 16; D 230953 16; D 212357 16; D 194893 16; D 178528 16; D 163216 16; D 148908 16; D 135553 16; D 123098 16; D 111489 16; D 100677 16;
   D 906135 15; D 812548 15; D 725632 15; D 645053 15; D 570549 15; D 50193 16; D 439091 15; D 382023 15; D 330824 15; D 285721 15; D 247084 15;
   D 215456 15];
  [D 166113 14; D 238044 15; D 892164 15; D 194956 16; D 322584 16; D 454776 16; D 580907 16; D 695956 16; D 797746 16; D 885628 16; D 959822 16;
   D 102118 17; D 107127 17; D 111212 17; D 114549 17; D 117263 17; D 119439 17; D 121148 17; D 122447 17; D 123397 17; D 124072 17; D 124543 17;
   D 124863 17; D 125071 17; D 125193 17; D 125244 17; D 125228 17; D 125148 17; D 125011 17; D 124827 17; D 124606 17; D 124349 17; D 124054 17;
   D 123714 17; D 123324 17; D 122885 17; D 122401 17; D 121879 17; D 121317 17; D 120709 17; D 120048 17; D 119323 17; D 118527 17; D 117654 17;
   D 116701 17; D 115665 17; D 114537 17; D 113305 17; D 111956 17; D 110478 17; D 108858 17; D 107088 17; D 105162 17; D 103073 17; D 100813 17;
   D 983788 16; D 957658 16; D 929748 16; D 90011 17; D 868843 16; D 836088 16; D 80202 17; D 766843 16; D 730793 16; D 694125 16; D 657115 16;
   D 620049 16; D 583209 16; D 546866 16; D 511269 16; D 491216 16; D 457839 16; D 425703 16; D 394929 16; D 365602 16; D 337778 16; D 311483 16;
   D 286717 16; D 263458 16; D 241669 16; D 221298 16; D 202285 16; D 18456 17; D 168054 16; D 152695 16; D 138411 16; D 125132 16; D 112794 16;
   D 101336 16; D 907027 15; D 808463 15; D 717254 15; D 633066 15; D 555659 15; D 484886 15; D 420717 15; D 363244 15; D 312706 15; D 26951 16;
   D 234261 15];
  [D 222734 14; D 316521 15; D 117592 16; D 25497 17; D 419185 16; D 587943 16; D 747981 16; D 893183 16; D 102099 17; D 113071 17; D 122279 17;
   D 129847 17; D 136 20; D 141005 17; D 145079 17; D 148373 17; D 150993 17; D 153027 17; D 15455 18; D 155647 17; D 156417 17; D 156948 17;
   D 157303 17; D 157525 17; D 157644 17; D 157675 17; D 15762 18; D 157485 17; D 15728 18; D 157023 17; D 156718 17; D 156367 17; D 155961 17;
   D 155493 17; D 15496 18; D 154366 17; D 153719 17; D 153022 17; D 15227 18; D 151452 17; D 150556 17; D 149571 17; D 148488 17; D 147303 17;
   D 146012 17; D 144605 17; D 143068 17; D 141384 17; D 139535 17; D 137506 17; D 135285 17; D 132862 17; D 130229 17; D 127377 17; D 124299 17;
   D 120989 17; D 117449 17; D 113683 17; D 109704 17; D 105531 17; D 101186 17; D 966972 16; D 92094 17; D 874107 16; D 826837 16; D 779506 16;
   D 732488 16; D 68614 17; D 658996 16; D 61514 17; D 572726 16; D 531951 16; D 492971 16; D 455892 16; D 420782 16; D 387669 16; D 356548 16;
   D 327385 16; D 300126 16; D 274699 16; D 251021 16; D 228998 16; D 208537 16; D 189541 16; D 171911 16; D 155557 16; D 140391 16; D 12633 17;
   D 113299 16; D 10123 17; D 900624 15; D 797465 15; D 702408 15; D 615147 15; D 535491 15; D 463381 15; D 398899 15; D 342298 15; D 294022 15;
   D 254743 15];
  [D 298405 14; D 420428 15; D 154824 16; D 333121 16; D 544212 16; D 75948 17; D 962407 16; D 114555 17; D 130591 17; D 144281 17; D 155698 17;
   D 165028 17; D 172585 17; D 178716 17; D 183686 17; D 18768 18; D 190829 17; D 193243 17; D 195023 17; D 196285 17; D 197163 17; D 19776 18;
   D 198148 17; D 198381 17; D 19849 18; D 198486 17; D 198373 17; D 19816 18; D 197867 17; D 19751 18; D 197093 17; D 196611 17; D 196054 17;
   D 195413 17; D 194689 17; D 193891 17; D 193028 17; D 192098 17; D 191088 17; D 189984 17; D 18877 18; D 187431 17; D 185962 17; D 184357 17;
   D 182607 17; D 180694 17; D 178597 17; D 176293 17; D 173759 17; D 17098 18; D 167941 17; D 164633 17; D 161042 17; D 15716 18; D 152978 17;
   D 148495 17; D 14372 18; D 138666 17; D 133357 17; D 127824 17; D 1221 19; D 116226 17; D 110247 17; D 104211 17; D 981666 16; D 921636 16;
   D 862491 16; D 827645 16; D 771778 16; D 71781 17; D 665998 16; D 61654 17; D 569573 16; D 525178 16; D 483387 16; D 444187 16; D 407529 16;
   D 373336 16; D 341509 16; D 311935 16; D 284492 16; D 25905 17; D 235481 16; D 213657 16; D 193455 16; D 174758 16; D 157457 16; D 141449 16;
   D 126642 16; D 112953 16; D 10031 17; D 886513 15; D 779256 15; D 680953 15; D 591357 15; D 510373 15; D 438069 15; D 37471 16; D 320779 15;
   D 277021 15];
  [D 39941 15; D 557853 15; D 203632 16; D 434797 16; D 705901 16; D 9803 18; D 123744 17; D 146831 17; D 166938 17; D 184005 17; D 198152 17;
   D 209648 17; D 218928 17; D 226436 17; D 232496 17; D 237332 17; D 241109 17; D 243966 17; D 246038 17; D 247489 17; D 248486 17; D 249154 17;
   D 249577 17; D 249814 17; D 249899 17; D 249839 17; D 249641 17; D 249322 17; D 248911 17; D 248421 17; D 24785 18; D 24719 18; D 246426 17;
   D 245552 17; D 244575 17; D 243511 17; D 242361 17; D 241117 17; D 239758 17; D 238265 17; D 236617 17; D 234802 17; D 232814 17; D 230642 17;
   D 228268 17; D 225664 17; D 2228 19; D 219647 17; D 216179 17; D 21238 18; D 208234 17; D 203726 17; D 198842 17; D 193571 17; D 18791 18;
   D 181866 17; D 175458 17; D 168716 17; D 161677 17; D 154387 17; D 146898 17; D 139268 17; D 131561 17; D 123842 17; D 116175 17; D 108623 17;
   D 104142 17; D 970175 16; D 901418 16; D 835483 16; D 772626 16; D 713022 16; D 656773 16; D 603913 16; D 554421 16; D 508225 16; D 465221 16;
   D 425274 16; D 388232 16; D 35393 17; D 322198 16; D 292866 16; D 265763 16; D 240729 16; D 217607 16; D 196255 16; D 176536 16; D 158326 16;
   D 141515 16; D 126001 16; D 111697 16; D 985288 15; D 864345 15; D 753675 15; D 652965 15; D 562073 15; D 48105 16; D 410167 15; D 349949 15;
   D 301216 15];
  [D 534063 14; D 73941 16; D 267554 16; D 566971 16; D 914855 16; D 126436 17; D 159001 17; D 188086 17; D 213282 17; D 234546 17; D 252061 17;
   D 26622 18; D 277615 17; D 286806 17; D 29419 18; D 300038 17; D 304558 17; D 307928 17; D 310333 17; D 311998 17; D 313129 17; D 313871 17;
   D 314325 17; D 314557 17; D 314597 17; D 314452 17; D 314133 17; D 313674 17; D 313104 17; D 312434 17; D 311655 17; D 310751 17; D 309706 17;
   D 308521 17; D 307213 17; D 305796 17; D 304263 17; D 302595 17; D 300764 17; D 298741 17; D 296507 17; D 294051 17; D 291365 17; D 288425 17;
   D 2852 19; D 281651 17; D 277739 17; D 273428 17; D 268692 17; D 263512 17; D 257868 17; D 251739 17; D 245112 17; D 237979 17; D 230348 17;
   D 222239 17; D 21369 18; D 204748 17; D 195473 17; D 185933 17; D 176203 17; D 166366 17; D 156507 17; D 146712 17; D 137064 17; D 131292 17;
   D 122198 17; D 113427 17; D 105024 17; D 970222 16; D 894442 16; D 82303 17; D 756025 16; D 693392 16; D 635034 16; D 580806 16; D 53053 17;
   D 484001 16; D 441 19; D 401303 16; D 364682 16; D 330916 16; D 299794 16; D 27111 17; D 244675 16; D 220311 16; D 197855 16; D 177156 16;
   D 158082 16; D 140511 16; D 124338 16; D 109475 16; D 958464 15; D 833955 15; D 720828 15; D 618887 15; D 528154 15; D 448906 15; D 381706 15;
   D 32746 16];
  [D 713352 14; D 979018 15; D 351194 16; D 73865 17; D 118468 17; D 162955 17; D 204172 17; D 240792 17; D 272346 17; D 298819 17; D 320491 17;
   D 337923 17; D 351914 17; D 363162 17; D 37215 18; D 379211 17; D 384608 17; D 388571 17; D 391356 17; D 393263 17; D 394542 17; D 395361 17;
   D 39584 18; D 396049 17; D 396014 17; D 395742 17; D 395259 17; D 394611 17; D 393829 17; D 392915 17; D 391851 17; D 390614 17; D 389191 17;
   D 387597 17; D 385855 17; D 38397 18; D 381922 17; D 37968 18; D 377206 17; D 374467 17; D 371446 17; D 36813 18; D 3645 19; D 360516 17;
   D 356131 17; D 351292 17; D 345949 17; D 340065 17; D 333613 17; D 326566 17; D 318898 17; D 310587 17; D 301623 17; D 292008 17; D 281768 17;
   D 270947 17; D 259607 17; D 247821 17; D 235679 17; D 223278 17; D 210726 17; D 198136 17; D 185621 17; D 173288 17; D 165841 17; D 154221 17;
   D 14302 18; D 132295 17; D 122092 17; D 11244 18; D 103356 17; D 948441 16; D 868996 16; D 795094 16; D 72654 17; D 663093 16; D 604483 16;
   D 55042 17; D 500608 16; D 454747 16; D 412548 16; D 373731 16; D 338032 16; D 305198 16; D 274999 16; D 247219 16; D 221662 16; D 198149 16;
   D 17652 17; D 156632 16; D 138359 16; D 121593 16; D 106246 16; D 92248 16; D 795498 15; D 681247 15; D 579716 15; D 491177 15; D 416236 15;
   D 355887 15];
  [D 951781 14; D 129503 16; D 46054 17; D 961458 16; D 153288 17; D 209877 17; D 262013 17; D 308096 17; D 347587 17; D 380524 17; D 40732 18;
   D 428779 17; D 445955 17; D 459714 17; D 470643 17; D 479156 17; D 485583 17; D 490228 17; D 493447 17; D 495628 17; D 497067 17; D 497964 17;
   D 498456 17; D 498616 17; D 498461 17; D 498007 17; D 497303 17; D 496405 17; D 495338 17; D 494091 17; D 492638 17; D 490949 17; D 489025 17;
   D 486894 17; D 484579 17; D 482068 17; D 479327 17; D 476308 17; D 472963 17; D 469259 17; D 465181 17; D 460709 17; D 455801 17; D 450397 17;
   D 444428 17; D 437829 17; D 430542 17; D 42253 18; D 413758 17; D 404191 17; D 393799 17; D 382561 17; D 370478 17; D 357574 17; D 343905 17;
   D 329545 17; D 31459 18; D 299152 17; D 283359 17; D 267351 17; D 251276 17; D 235281 17; D 219511 17; D 204098 17; D 195029 17; D 180707 17;
   D 167001 17; D 153971 17; D 141655 17; D 130076 17; D 119241 17; D 109141 17; D 9976 18; D 910715 16; D 830436 16; D 756405 16; D 68824 17;
   D 625551 16; D 567945 16; D 515039 16; D 466473 16; D 421896 16; D 380981 16; D 343426 16; D 30895 17; D 277296 16; D 248228 16; D 221535 16;
   D 197024 16; D 174527 16; D 153893 16; D 134995 16; D 117725 16; D 101999 16; D 877564 15; D 749617 15; D 63609 16; D 537247 15; D 453735 15;
   D 386639 15];
  [D 126848 15; D 171146 16; D 603372 16; D 125041 17; D 198193 17; D 270126 17; D 336041 17; D 393997 17; D 443394 17; D 484346 17; D 517459 17;
   D 543871 17; D 564952 17; D 581774 17; D 595052 17; D 605298 17; D 61293 18; D 618358 17; D 622072 17; D 624561 17; D 626173 17; D 627144 17;
   D 62763 18; D 627698 17; D 627362 17; D 626657 17; D 625656 17; D 624423 17; D 62297 18; D 621272 17; D 619288 17; D 616993 17; D 614407 17;
   D 611572 17; D 608496 17; D 605148 17; D 60147 18; D 597398 17; D 592877 17; D 587879 17; D 582385 17; D 576351 17; D 569708 17; D 562368 17;
   D 554243 17; D 545251 17; D 535334 17; D 524448 17; D 512547 17; D 499587 17; D 485537 17; D 470391 17; D 45417 18; D 436938 17; D 418788 17;
   D 399839 17; D 380235 17; D 360141 17; D 339736 17; D 319215 17; D 298774 17; D 278601 17; D 258873 17; D 247136 17; D 228803 17; D 211264 17;
   D 194596 17; D 178855 17; D 164068 17; D 150246 17; D 137378 17; D 125441 17; D 114402 17; D 104218 17; D 948423 16; D 862238 16; D 783113 16;
   D 710535 16; D 644007 16; D 583049 16; D 527208 16; D 476057 16; D 4292 18; D 386273 16; D 346939 16; D 310891 16; D 27785 17; D 247563 16;
   D 219805 16; D 194372 16; D 171088 16; D 149801 16; D 130382 16; D 112728 16; D 96766 16; D 824492 15; D 697656 15; D 587401 15; D 494409 15;
   D 419868 15];
  [D 168915 15; D 225969 16; D 78979 17; D 162486 17; D 256063 17; D 347448 17; D 430736 17; D 503588 17; D 565339 17; D 616222 17; D 657122 17;
   D 689624 17; D 715495 17; D 736049 17; D 75216 18; D 764468 17; D 773508 17; D 779834 17; D 784114 17; D 786947 17; D 788741 17; D 789777 17;
   D 790223 17; D 790137 17; D 789537 17; D 788489 17; D 787094 17; D 785413 17; D 783437 17; D 781123 17; D 77842 18; D 775318 17; D 771866 17;
   D 768103 17; D 764014 17; D 759538 17; D 754593 17; D 749098 17; D 742997 17; D 736267 17; D 728868 17; D 720721 17; D 71172 18; D 701746 17;
   D 690687 17; D 678456 17; D 664989 17; D 650228 17; D 634114 17; D 616599 17; D 597663 17; D 577324 17; D 55565 18; D 532753 17; D 508784 17;
   D 483923 17; D 458382 17; D 432393 17; D 406208 17; D 380085 17; D 354274 17; D 32901 18; D 313798 17; D 290307 17; D 267833 17; D 246482 17;
   D 226328 17; D 20741 18; D 189741 17; D 17331 18; D 158088 17; D 144028 17; D 131076 17; D 11917 18; D 108243 17; D 982281 16; D 890578 16;
   D 806662 16; D 729915 16; D 659741 16; D 595586 16; D 536933 16; D 483305 16; D 434266 16; D 389415 16; D 348387 16; D 310851 16; D 276508 16;
   D 24509 17; D 216358 16; D 190103 16; D 166142 16; D 144322 16; D 124521 16; D 106646 16; D 9064 17; D 764818 15; D 641939 15; D 53848 16;
   D 455731 15];
  [D 224785 15; D 298076 16; D 10329 18; D 210976 17; D 330595 17; D 446629 17; D 551815 17; D 643342 17; D 72049 18; D 783673 17; D 834168 17;
   D 874161 17; D 905903 17; D 931001 17; D 950525 17; D 965281 17; D 975956 17; D 983313 17; D 988238 17; D 991452 17; D 993435 17; D 994517 17;
   D 99487 18; D 994541 17; D 993566 17; D 992057 17; D 990138 17; D 987852 17; D 985167 17; D 982016 17; D 978345 17; D 97418 18; D 969591 17;
   D 964601 17; D 959156 17; D 95316 18; D 946503 17; D 939089 17; D 930875 17; D 921824 17; D 911855 17; D 900844 17; D 888638 17; D 875083 17;
   D 86005 18; D 843447 17; D 825196 17; D 80522 18; D 783449 17; D 759842 17; D 734407 17; D 707212 17; D 67839 18; D 648126 17; D 616648 17;
   D 584221 17; D 551149 17; D 517755 17; D 484377 17; D 451349 17; D 418981 17; D 399242 17; D 369114 17; D 340282 17; D 312894 17; D 287047 17;
   D 262799 17; D 240169 17; D 219145 17; D 199687 17; D 181738 17; D 165225 17; D 150067 17; D 136176 17; D 123464 17; D 111844 17; D 101229 17;
   D 915369 16; D 826911 16; D 74619 17; D 672532 16; D 605318 16; D 543976 16; D 487985 16; D 436872 16; D 390202 16; D 347584 16; D 308666 16;
   D 27313 17; D 240693 16; D 211108 16; D 184158 16; D 159662 16; D 13747 17; D 117471 16; D 995911 15; D 838009 15; D 701184 15; D 586179 15;
   D 494396 15];
  [D 298915 15; D 392839 16; D 13497 18; D 273725 17; D 426534 17; D 573782 17; D 706557 17; D 821486 17; D 917815 17; D 996221 17; D 105854 18;
   D 110775 18; D 114668 18; D 11773 19; D 120093 18; D 121858 18; D 123115 18; D 12397 19; D 124535 18; D 124898 18; D 125116 18; D 125225 18;
   D 125243 18; D 125173 18; D 125024 18; D 124812 18; D 12455 19; D 124239 18; D 123875 18; D 123446 18; D 12295 19; D 122394 18; D 121786 18;
   D 121124 18; D 120397 18; D 119592 18; D 118695 18; D 117697 18; D 116593 18; D 115376 18; D 114032 18; D 112542 18; D 110886 18; D 109045 18;
   D 107006 18; D 104756 18; D 102288 18; D 995896 17; D 966554 17; D 934836 17; D 900804 17; D 864609 17; D 826474 17; D 786684 17; D 745575 17;
   D 703531 17; D 660974 17; D 618344 17; D 576081 17; D 5346 19; D 508964 17; D 470289 17; D 433261 17; D 398079 17; D 36488 18; D 333746 17;
   D 304707 17; D 277748 17; D 252822 17; D 229854 17; D 208749 17; D 189401 17; D 171697 17; D 155519 17; D 140753 17; D 127286 17; D 115011 17;
   D 103827 17; D 936386 16; D 843592 16; D 759074 16; D 68209 17; D 611962 16; D 54807 17; D 489851 16; D 436794 16; D 388437 16; D 344362 16;
   D 304195 16; D 267603 16; D 23429 17; D 204003 16; D 176523 16; D 151673 16; D 129317 16; D 109363 16; D 917691 15; D 765477 15; D 637755 15;
   D 536041 15];
  [D 397176 15; D 517298 16; D 176222 17; D 354875 17; D 549951 17; D 736717 17; D 904235 17; D 104848 18; D 116868 18; D 126592 18; D 134281 18;
   D 140335 18; D 145109 18; D 148842 18; D 151698 18; D 153804 18; D 155281 18; D 156271 18; D 15692 19; D 157328 18; D 157563 18; D 157667 18;
   D 157656 18; D 157533 18; D 157313 18; D 157019 18; D 156663 18; D 156243 18; D 155747 18; D 155165 18; D 154499 18; D 153761 18; D 152955 18;
   D 152075 18; D 151104 18; D 150022 18; D 148815 18; D 147473 18; D 145991 18; D 144354 18; D 14254 19; D 140523 18; D 138276 18; D 135779 18;
   D 133017 18; D 129976 18; D 126643 18; D 123007 18; D 119063 18; D 114817 18; D 110283 18; D 105488 18; D 100468 18; D 95265 18; D 89927 18;
   D 845084 17; D 790667 17; D 736597 17; D 68343 18; D 65011 18; D 600428 17; D 552826 17; D 507575 17; D 46487 18; D 424827 17; D 387492 17;
   D 352854 17; D 320854 17; D 291396 17; D 264358 17; D 239601 17; D 216977 17; D 196334 17; D 177519 17; D 160386 17; D 144795 17; D 130612 17;
   D 117715 17; D 105989 17; D 953275 16; D 856349 16; D 768223 16; D 688092 16; D 615223 16; D 548949 16; D 488667 16; D 433832 16; D 38395 17;
   D 338581 16; D 29733 17; D 259851 16; D 225841 16; D 195041 16; D 167239 16; D 14227 17; D 120022 16; D 100436 16; D 835184 15; D 693471 15;
   D 580853 15];
  [D 527299 15; D 680623 16; D 229899 17; D 459748 17; D 70863 18; D 945406 17; D 115665 18; D 133759 18; D 148751 18; D 160804 18; D 170289 18;
   D 177735 18; D 183586 18; D 188133 18; D 191579 18; D 194087 18; D 195817 18; D 196964 18; D 197706 18; D 198161 18; D 198412 18; D 198502 18;
   D 198444 18; D 198245 18; D 197931 18; D 197528 18; D 197046 18; D 196476 18; D 195803 18; D 195017 18; D 194128 18; D 19315 19; D 192083 18;
   D 19091 19; D 18961 19; D 188155 18; D 186532 18; D 184732 18; D 182742 18; D 180539 18; D 178088 18; D 175357 18; D 172312 18; D 168931 18;
   D 165198 18; D 161093 18; D 156602 18; D 151714 18; D 146431 18; D 140768 18; D 134755 18; D 128435 18; D 121861 18; D 115093 18; D 108202 18;
   D 101261 18; D 943461 17; D 875316 17; D 83199 18; D 768131 17; D 706878 17; D 648611 17; D 5936 19; D 542014 17; D 493928 17; D 449336 17;
   D 408167 17; D 370301 17; D 335581 17; D 303826 17; D 274843 17; D 248432 17; D 224395 17; D 202538 17; D 182678 17; D 164642 17; D 148267 17;
   D 133404 17; D 119914 17; D 107672 17; D 965617 16; D 864789 16; D 773279 16; D 690218 16; D 614819 16; D 546371 16; D 48423 17; D 427816 16;
   D 376609 16; D 330143 16; D 288009 16; D 24985 17; D 215358 16; D 184281 16; D 15642 17; D 131637 16; D 109854 16; D 910694 15; D 753607 15;
   D 629031 15];
  [D 699447 15; D 894774 16; D 299693 17; D 595199 17; D 912539 17; D 121256 18; D 147884 18; D 17057 19; D 189257 18; D 204189 18; D 215886 18;
   D 225045 18; D 232212 18; D 237745 18; D 241897 18; D 244875 18; D 246898 18; D 248224 18; D 24907 19; D 249576 18; D 249836 18; D 249897 18;
   D 249768 18; D 249464 18; D 249024 18; D 248476 18; D 247824 18; D 247051 18; D 246139 18; D 245083 18; D 243902 18; D 242608 18; D 241193 18;
   D 239629 18; D 237884 18; D 23593 19; D 233752 18; D 231339 18; D 228667 18; D 225698 18; D 222386 18; D 218687 18; D 214565 18; D 209998 18;
   D 20496 19; D 199431 18; D 193392 18; D 18684 19; D 179788 18; D 172268 18; D 164331 18; D 156041 18; D 147476 18; D 138723 18; D 129878 18;
   D 121041 18; D 112309 18; D 103773 18; D 984617 17; D 905742 17; D 830635 17; D 759681 17; D 693124 17; D 631083 17; D 573566 17; D 520492 17;
   D 471712 17; D 427024 17; D 386195 17; D 348973 17; D 315097 17; D 284307 17; D 256351 17; D 230984 17; D 207982 17; D 187132 17; D 168236 17;
   D 151116 17; D 135606 17; D 121556 17; D 108828 17; D 972977 16; D 868528 16; D 773904 16; D 688178 16; D 610509 16; D 540138 16; D 476382 16;
   D 418628 16; D 366329 16; D 319001 16; D 276222 16; D 23763 17; D 202924 16; D 171865 16; D 144283 16; D 120081 16; D 992423 15; D 818458 15;
   D 680784 15];
  [D 926973 15; D 117534 17; D 390384 17; D 770039 17; D 117443 18; D 155442 18; D 188991 18; D 21742 19; D 240701 18; D 259189 18; D 273615 18;
   D 284877 18; D 293652 18; D 300379 18; D 305371 18; D 308899 18; D 31126 19; D 312792 18; D 313752 18; D 314309 18; D 31457 19; D 314579 18;
   D 314346 18; D 3139 20; D 313292 18; D 31255 19; D 311668 18; D 310622 18; D 309388 18; D 307977 18; D 306413 18; D 304703 18; D 302823 18;
   D 300732 18; D 298391 18; D 295768 18; D 29285 19; D 289617 18; D 286026 18; D 282021 18; D 277543 18; D 272539 18; D 266972 18; D 26081 19;
   D 254025 18; D 246591 18; D 238493 18; D 229738 18; D 220361 18; D 210419 18; D 199992 18; D 189173 18; D 178074 18; D 166817 18; D 155531 18;
   D 144346 18; D 133384 18; D 126455 18; D 116292 18; D 106602 18; D 974391 17; D 888395 17; D 808217 17; D 733893 17; D 665336 17; D 60236 18;
   D 544714 17; D 492095 17; D 444176 17; D 400617 17; D 361076 17; D 325221 17; D 292734 17; D 263318 17; D 236694 17; D 212604 17; D 190813 17;
   D 171103 17; D 153279 17; D 137161 17; D 122587 17; D 10941 18; D 974949 16; D 86722 17; D 769813 16; D 681739 16; D 602105 16; D 530105 16;
   D 465019 16; D 406201 16; D 353084 16; D 305168 16; D 262026 16; D 223301 16; D 188708 16; D 158041 16; D 131176 16; D 108081 16; D 888342 15;
   D 736336 15];
  [D 122743 16; D 15427 18; D 508148 17; D 995586 17; D 151062 18; D 199169 18; D 241417 18; D 277027 18; D 306016 18; D 328898 18; D 346685 18;
   D 360532 18; D 37127 19; D 379437 18; D 38543 19; D 389599 18; D 39235 19; D 394117 18; D 395202 18; D 395809 18; D 396054 18; D 395979 18;
   D 395597 18; D 394959 18; D 394129 18; D 393127 18; D 391935 18; D 390518 18; D 388859 18; D 386982 18; D 384916 18; D 382653 18; D 38015 19;
   D 377352 18; D 37421 19; D 370696 18; D 366791 18; D 362457 18; D 357626 18; D 352223 18; D 346171 18; D 339411 18; D 331903 18; D 323606 18;
   D 314484 18; D 304509 18; D 29368 19; D 282025 18; D 269609 18; D 256525 18; D 24289 19; D 228842 18; D 214536 18; D 20014 19; D 185823 18;
   D 17175 19; D 162709 18; D 149608 18; D 137097 18; D 125252 18; D 114127 18; D 103749 18; D 941278 17; D 852548 17; D 771079 17; D 696552 17;
   D 628583 17; D 566745 17; D 510596 17; D 459688 17; D 413582 17; D 371867 17; D 334148 17; D 300058 17; D 26926 18; D 241443 17; D 216323 17;
   D 193644 17; D 173171 17; D 154691 17; D 138012 17; D 12296 18; D 109377 17; D 971192 16; D 860588 16; D 760786 16; D 670735 16; D 589487 16;
   D 516195 16; D 450101 16; D 390535 16; D 336911 16; D 288726 16; D 245556 16; D 207063 16; D 172997 16; D 143204 16; D 117634 16; D 963593 15;
   D 795921 15];
  [D 162424 16; D 202337 17; D 660971 17; D 128638 18; D 1942 20; D 255073 18; D 308255 18; D 352838 18; D 388915 18; D 417224 18; D 439154 18;
   D 456177 18; D 469308 18; D 479212 18; D 486391 18; D 491305 18; D 494509 18; D 496541 18; D 497762 18; D 498412 18; D 498616 18; D 49841 19;
   D 497822 18; D 496929 18; D 495803 18; D 494451 18; D 492839 18; D 490925 18; D 488703 18; D 486218 18; D 483491 18; D 480491 18; D 477153 18;
   D 473407 18; D 469195 18; D 464494 18; D 459271 18; D 453455 18; D 446952 18; D 439659 18; D 431487 18; D 422373 18; D 412264 18; D 40111 19;
   D 388869 18; D 375521 18; D 361086 18; D 345629 18; D 32926 19; D 312119 18; D 294377 18; D 276229 18; D 25789 19; D 239583 18; D 221526 18;
   D 203919 18; D 192839 18; D 176677 18; D 161351 18; D 14694 19; D 133488 18; D 121013 18; D 109508 18; D 989475 17; D 892919 17; D 804923 17;
   D 724936 17; D 652383 17; D 586676 17; D 527241 17; D 473536 17; D 425041 17; D 381274 17; D 341789 17; D 30618 18; D 274074 17; D 245133 17;
   D 219049 17; D 195545 17; D 174368 17; D 155291 17; D 138108 17; D 122632 17; D 108695 17; D 961451 16; D 848441 16; D 746686 16; D 655073 16;
   D 572606 16; D 498396 16; D 431655 16; D 371696 16; D 317925 16; D 269843 16; D 22705 17; D 189244 16; D 156234 16; D 12795 17; D 104457 16;
   D 859788 15];
  [D 214805 16; D 265185 17; D 859162 17; D 16611 19; D 249524 18; D 326518 18; D 393435 18; D 449227 18; D 494101 18; D 529115 18; D 556151 18;
   D 577069 18; D 593115 18; D 605112 18; D 613692 18; D 619474 18; D 6232 20; D 625531 18; D 626897 18; D 627577 18; D 627702 18; D 627302 18;
   D 62643 19; D 625199 18; D 623677 18; D 621854 18; D 619676 18; D 617097 18; D 614138 18; D 610857 18; D 607256 18; D 603272 18; D 598816 18;
   D 593797 18; D 588162 18; D 581881 18; D 57489 19; D 567081 18; D 558322 18; D 548482 18; D 537463 18; D 525194 18; D 511606 18; D 496637 18;
   D 480246 18; D 462434 18; D 443261 18; D 422846 18; D 401359 18; D 379006 18; D 356033 18; D 332711 18; D 30933 19; D 286179 18; D 263528 18;
   D 249022 18; D 228134 18; D 20829 19; D 189604 18; D 172145 18; D 155944 18; D 141 21; D 127284 18; D 114748 18; D 103331 18; D 929606 17;
   D 83563 18; D 750614 17; D 673809 17; D 604487 17; D 541975 17; D 485633 17; D 434877 17; D 389168 17; D 348017 17; D 310979 17; D 27765 18;
   D 247665 17; D 220696 17; D 196442 17; D 174635 17; D 155031 17; D 137411 17; D 121575 17; D 107344 17; D 945567 16; D 830676 16; D 727457 16;
   D 634742 16; D 551487 16; D 476771 16; D 409786 16; D 349834 16; D 29633 17; D 248798 16; D 20688 17; D 170341 16; D 139084 16; D 113164 16;
   D 928201 15];
  [D 283897 16; D 347301 17; D 111603 18; D 21437 19; D 320442 18; D 417788 18; D 501953 18; D 571739 18; D 627529 18; D 670822 18; D 704151 18;
   D 729848 18; D 749441 18; D 763951 18; D 774186 18; D 780976 18; D 785305 18; D 787971 18; D 789487 18; D 790174 18; D 790162 18; D 789481 18;
   D 788228 18; D 786546 18; D 784495 18; D 782037 18; D 779098 18; D 775637 18; D 771715 18; D 767389 18; D 762627 18; D 757329 18; D 751373 18;
   D 744655 18; D 737127 18; D 728739 18; D 719377 18; D 708883 18; D 697081 18; D 683818 18; D 668985 18; D 652495 18; D 63426 19; D 614209 18;
   D 592316 18; D 568622 18; D 543252 18; D 5164 20; D 488317 18; D 459305 18; D 429706 18; D 399892 18; D 370243 18; D 341124 18; D 322138 18;
   D 295139 18; D 269433 18; D 245183 18; D 222496 18; D 201427 18; D 181983 18; D 164135 18; D 147827 18; D 132981 18; D 119506 18; D 107305 18;
   D 96279 18; D 863284 17; D 773582 17; D 692793 17; D 620076 17; D 554655 17; D 495823 17; D 442934 17; D 3954 19; D 352692 17; D 314329 17;
   D 279879 17; D 24895 18; D 221188 17; D 196276 17; D 173925 17; D 153875 17; D 135894 17; D 11977 18; D 105311 17; D 923489 16; D 807287 16;
   D 703134 16; D 60981 17; D 526236 16; D 451464 16; D 38468 17; D 325194 16; D 272447 16; D 226012 16; D 185604 16; D 151092 16; D 122522 16;
   D 100144 16];
  [D 374959 16; D 454519 17; D 144877 18; D 276491 18; D 411313 18; D 53434 19; D 640156 18; D 727409 18; D 796734 18; D 850254 18; D 891334 18;
   D 92289 19; D 946795 18; D 96432 19; D 976501 18; D 984464 18; D 989485 18; D 992523 18; D 99419 19; D 994846 18; D 994613 18; D 993536 18;
   D 991773 18; D 989494 18; D 986733 18; D 98342 19; D 979458 18; D 974838 18; D 969658 18; D 963954 18; D 957649 18; D 950593 18; D 942629 18;
   D 93365 19; D 923606 18; D 912399 18; D 899852 18; D 885742 18; D 869846 18; D 851993 18; D 832058 18; D 809929 18; D 785497 18; D 758696 18;
   D 729535 18; D 698126 18; D 664688 18; D 629516 18; D 592977 18; D 555499 18; D 517555 18; D 47964 19; D 442242 18; D 417413 18; D 38252 19;
   D 349208 18; D 317717 18; D 288207 18; D 26077 19; D 235433 18; D 212169 18; D 190912 18; D 171567 18; D 154019 18; D 138143 18; D 123808 18;
   D 110885 18; D 992483 17; D 88781 18; D 793714 17; D 709172 17; D 633248 17; D 565088 17; D 503917 17; D 449037 17; D 399815 17; D 35568 18;
   D 31612 18; D 28067 18; D 248912 17; D 220469 17; D 195003 17; D 172206 17; D 151804 17; D 133547 17; D 117212 17; D 102598 17; D 895266 16;
   D 77836 17; D 673835 16; D 58043 17; D 497039 16; D 422708 16; D 35663 17; D 298147 16; D 246753 16; D 202105 16; D 164035 16; D 132573 16;
   D 107979 16];
  [D 494883 16; D 594438 17; D 187952 18; D 356415 18; D 5277 20; D 683121 18; D 816107 18; D 925149 18; D 101126 19; D 10774 20; D 112803 19;
   D 116677 19; D 119591 19; D 121704 19; D 123151 19; D 124083 19; D 124665 19; D 125009 19; D 12519 20; D 125247 19; D 125189 19; D 125027 19;
   D 124783 19; D 124476 19; D 124104 19; D 123658 19; D 123125 19; D 122512 19; D 121829 19; D 121076 19; D 12024 20; D 119299 19; D 118235 19;
   D 117037 19; D 115697 19; D 114199 19; D 112516 19; D 110619 19; D 10848 20; D 10608 20; D 103405 19; D 10044 20; D 971723 18; D 935984 18;
   D 897263 18; D 855781 18; D 811883 18; D 766008 18; D 718682 18; D 670501 18; D 622103 18; D 574135 18; D 527205 18; D 496624 18; D 453455 18;
   D 412541 18; D 374126 18; D 338357 18; D 305293 18; D 274918 18; D 24716 19; D 221902 18; D 199 21; D 178294 18; D 159613 18; D 14279 19;
   D 127658 18; D 114062 18; D 101855 18; D 909013 17; D 810774 17; D 7227 19; D 643768 17; D 573052 17; D 50972 18; D 453018 17; D 40227 18;
   D 356867 17; D 316259 17; D 279951 17; D 2475 19; D 218504 17; D 192601 17; D 169468 17; D 148812 17; D 130371 17; D 113909 17; D 992164 16;
   D 861048 16; D 744074 16; D 639768 16; D 546841 16; D 46418 17; D 390842 16; D 326056 16; D 269225 16; D 219937 16; D 177979 16; D 143362 16;
   D 116357 16];
  [D 652695 16; D 776919 17; D 243683 18; D 459197 18; D 676704 18; D 872979 18; D 104005 19; D 117626 19; D 128316 19; D 13649 20; D 142729 19;
   D 147482 19; D 15103 20; D 153574 19; D 155289 19; D 15638 20; D 157052 19; D 157442 19; D 157634 19; D 157672 19; D 157564 19; D 157328 19;
   D 156994 19; D 15658 20; D 156081 19; D 15548 20; D 154767 19; D 153955 19; D 153056 19; D 152063 19; D 150952 19; D 149696 19; D 148275 19;
   D 146678 19; D 144892 19; D 142888 19; D 14063 20; D 138078 19; D 135203 19; D 131983 19; D 128398 19; D 124431 19; D 12007 20; D 115318 19;
   D 110193 19; D 104735 19; D 989955 18; D 930376 18; D 869358 18; D 807716 18; D 746295 18; D 685913 18; D 645801 18; D 589872 18; D 536706 18;
   D 486668 18; D 439992 18; D 39679 19; D 35707 19; D 320757 18; D 287715 18; D 257765 18; D 230699 18; D 206301 18; D 184347 18; D 164622 18;
   D 146917 18; D 131041 18; D 116814 18; D 104069 18; D 926588 17; D 824465 17; D 7331 19; D 651388 17; D 578336 17; D 513052 17; D 454732 17;
   D 402652 17; D 356164 17; D 314683 17; D 277682 17; D 244689 17; D 215278 17; D 189068 17; D 165716 17; D 144913 17; D 126383 17; D 109882 17;
   D 95188 17; D 821079 16; D 704696 16; D 601229 16; D 509382 16; D 428055 16; D 356348 16; D 293558 16; D 239194 16; D 192991 16; D 154937 16;
   D 12531 17];
  [D 860203 16; D 101476 18; D 315752 18; D 591306 18; D 867392 18; D 111517 19; D 132497 19; D 149505 19; D 162771 19; D 172871 19; D 180559 19;
   D 186387 19; D 190704 19; D 193761 19; D 195789 19; D 197065 19; D 19784 20; D 198277 19; D 198477 19; D 198482 19; D 198302 19; D 197965 19;
   D 197512 19; D 196956 19; D 196285 19; D 195477 19; D 194526 19; D 193456 19; D 192273 19; D 190959 19; D 189482 19; D 187806 19; D 185911 19;
   D 183785 19; D 181402 19; D 17872 20; D 175688 19; D 172259 19; D 1684 21; D 164085 19; D 159289 19; D 153991 19; D 148184 19; D 141883 19;
   D 135125 19; D 127971 19; D 120496 19; D 112792 19; D 104962 19; D 971134 18; D 893567 18; D 817931 18; D 768609 18; D 699529 18; D 634329 18;
   D 573375 18; D 516865 18; D 464852 18; D 417272 18; D 373967 18; D 334718 18; D 299265 18; D 267326 18; D 23861 19; D 212836 18; D 189726 18;
   D 169026 18; D 150498 18; D 133923 18; D 119102 18; D 105855 18; D 940185 17; D 834475 17; D 740101 17; D 655882 17; D 580756 17; D 51377 18;
   D 454069 17; D 400883 17; D 35352 18; D 311361 17; D 273847 17; D 240478 17; D 210804 17; D 184422 17; D 160972 17; D 140132 17; D 121613 17;
   D 10516 18; D 905451 16; D 775698 16; D 660589 16; D 558618 16; D 468507 16; D 389206 16; D 319891 16; D 25998 17; D 209146 16; D 167348 16;
   D 134874 16];
  [D 113287 17; D 132456 18; D 408897 18; D 761035 18; D 111133 19; D 142402 19; D 168739 19; D 189966 19; D 206421 19; D 218901 19; D 228371 19;
   D 235515 19; D 24076 20; D 244428 19; D 246823 19; D 248312 19; D 249203 19; D 24969 20; D 249889 19; D 249841 19; D 249559 19; D 249089 19;
   D 248478 19; D 247733 19; D 24683 20; D 245746 19; D 244485 19; D 243076 19; D 241518 19; D 239778 19; D 237811 19; D 235576 19; D 233054 19;
   D 230223 19; D 227043 19; D 22345 20; D 219379 19; D 214777 19; D 209605 19; D 203831 19; D 197424 19; D 190362 19; D 18265 20; D 174322 19;
   D 165442 19; D 156101 19; D 146408 19; D 13649 20; D 126487 19; D 116542 19; D 106793 19; D 100305 19; D 913329 18; D 828367 18; D 748728 18;
   D 674745 18; D 606553 18; D 544114 18; D 48726 19; D 435727 18; D 38919 19; D 347287 18; D 309642 18; D 275879 18; D 245642 18; D 218587 18;
   D 194399 18; D 172787 18; D 153486 18; D 136256 18; D 120883 18; D 107171 18; D 949459 17; D 840514 17; D 74347 18; D 657066 17; D 580173 17;
   D 511776 17; D 450966 17; D 396925 17; D 348921 17; D 306297 17; D 268463 17; D 234892 17; D 205111 17; D 178698 17; D 155276 17; D 134509 17;
   D 1161 19; D 99784 17; D 853295 16; D 725337 16; D 612218 16; D 512455 16; D 424827 16; D 348373 16; D 282403 16; D 226521 16; D 18065 17;
   D 145084 16];
  [D 149118 17; D 172786 18; D 52922 19; D 979002 18; D 142329 19; D 181774 19; D 214823 19; D 241304 19; D 26171 20; D 277127 19; D 288792 19;
   D 297542 19; D 303909 19; D 308301 19; D 311124 19; D 312861 19; D 313883 19; D 31442 20; D 314605 19; D 314474 19; D 314052 19; D 313405 19;
   D 312584 19; D 311584 19; D 310372 19; D 308921 19; D 307255 19; D 305403 19; D 303349 19; D 301042 19; D 298422 19; D 295444 19; D 292089 19;
   D 288321 19; D 284072 19; D 279257 19; D 273796 19; D 267626 19; D 260706 19; D 25299 20; D 244443 19; D 235051 19; D 224838 19; D 213868 19;
   D 202243 19; D 190094 19; D 177575 19; D 164864 19; D 152145 19; D 139603 19; D 131084 19; D 119439 19; D 108371 19; D 979629 18; D 882708 18;
   D 79321 19; D 711163 18; D 6364 20; D 568616 18; D 507406 18; D 452313 18; D 402848 18; D 358524 18; D 318864 18; D 283415 18; D 251759 18;
   D 223508 18; D 198309 18; D 175844 18; D 155824 18; D 13799 19; D 122112 18; D 107981 18; D 954109 17; D 842347 17; D 743029 17; D 654816 17;
   D 576507 17; D 507025 17; D 445405 17; D 390785 17; D 342388 17; D 299524 17; D 261572 17; D 227979 17; D 198251 17; D 171948 17; D 148678 17;
   D 128096 17; D 109895 17; D 938052 16; D 795922 16; D 670535 16; D 560175 16; D 463424 16; D 379162 16; D 306581 16; D 245199 16; D 1949 18;
   D 155979 16];
  [D 196177 17; D 225264 18; D 68457 19; D 12588 20; D 182206 19; D 231951 19; D 273406 19; D 306428 19; D 331724 19; D 35077 20; D 365133 19;
   D 375844 19; D 383564 19; D 388812 19; D 392137 19; D 394161 19; D 395327 19; D 395913 19; D 396061 19; D 395808 19; D 395196 19; D 394314 19;
   D 393213 19; D 391872 19; D 390245 19; D 388313 19; D 386119 19; D 383685 19; D 380973 19; D 37791 20; D 374419 19; D 370459 19; D 365999 19;
   D 360979 19; D 355299 19; D 348846 19; D 341525 19; D 333268 19; D 324018 19; D 313722 19; D 302343 19; D 289883 19; D 276398 19; D 261999 19;
   D 246836 19; D 231096 19; D 214998 19; D 198778 19; D 18268 20; D 166936 19; D 156424 19; D 142012 19; D 128412 19; D 11571 20; D 103955 19;
   D 931611 18; D 833154 18; D 743839 18; D 663177 18; D 590591 18; D 525455 18; D 467126 18; D 414983 18; D 368426 18; D 326895 18; D 289874 18;
   D 256892 18; D 227524 18; D 201386 18; D 178133 18; D 157455 18; D 139077 18; D 122751 18; D 108255 18; D 953909 17; D 839813 17; D 738676 17;
   D 649075 17; D 569737 17; D 499525 17; D 437419 17; D 382508 17; D 33398 18; D 291107 17; D 253241 17; D 219807 17; D 190291 17; D 164237 17;
   D 141243 17; D 120954 17; D 103058 17; D 872827 16; D 73395 17; D 611962 16; D 505222 16; D 412429 16; D 332637 16; D 265269 16; D 210157 16;
   D 1676 18];
  [D 257945 17; D 293509 18; D 885049 18; D 16178 20; D 233167 19; D 295876 19; D 347857 19; D 389019 19; D 42037 20; D 443896 19; D 461576 19;
   D 474678 19; D 484026 19; D 490286 19; D 494198 19; D 496551 19; D 497877 19; D 498504 19; D 498586 19; D 498155 19; D 497286 19; D 496094 19;
   D 494619 19; D 492822 19; D 490642 19; D 488079 19; D 485195 19; D 481995 19; D 478409 19; D 474339 19; D 469693 19; D 464431 19; D 458504 19;
   D 451812 19; D 444214 19; D 43557 20; D 425768 19; D 41473 20; D 402383 19; D 388665 19; D 373546 19; D 35706 20; D 339314 19; D 320478 19;
   D 300774 19; D 280465 19; D 259851 19; D 239247 19; D 218965 19; D 205128 19; D 186383 19; D 168619 19; D 151971 19; D 136523 19; D 122309 19;
   D 109326 19; D 975391 18; D 868903 18; D 773079 18; D 68712 19; D 610197 18; D 54148 19; D 480185 18; D 425565 18; D 376931 18; D 333655 18;
   D 295167 18; D 260953 18; D 230554 18; D 203557 18; D 179593 18; D 158331 18; D 139478 18; D 12277 19; D 107972 18; D 948724 17; D 832841 17;
   D 730386 17; D 639856 17; D 559907 17; D 489339 17; D 427082 17; D 37218 18; D 323784 17; D 281134 17; D 24356 18; D 210462 17; D 181312 17;
   D 155643 17; D 133044 17; D 113153 17; D 956575 16; D 802873 16; D 668134 16; D 550464 16; D 448356 16; D 360705 16; D 286824 16; D 226486 16;
   D 179988 16];
  [D 338966 17; D 382212 18; D 114364 19; D 207824 19; D 298267 19; D 377294 19; D 442449 19; D 493737 19; D 532581 19; D 56164 20; D 583397 19;
   D 599412 19; D 610715 19; D 618169 19; D 622768 19; D 625498 19; D 626998 19; D 627653 19; D 62762 20; D 626939 19; D 625727 19; D 624124 19;
   D 622151 19; D 619742 19; D 616828 19; D 613443 19; D 609657 19; D 605445 19; D 600699 19; D 595286 19; D 589109 19; D 582124 19; D 574245 19;
   D 565318 19; D 555154 19; D 543581 19; D 530474 19; D 515739 19; D 499281 19; D 481034 19; D 460992 19; D 439242 19; D 415964 19; D 391413 19;
   D 365904 19; D 339806 19; D 313521 19; D 287463 19; D 262019 19; D 244954 19; D 22177 20; D 199956 19; D 179649 19; D 160919 19; D 143781 19;
   D 128203 19; D 114121 19; D 101447 19; D 900799 18; D 799123 18; D 708365 18; D 627474 18; D 555466 18; D 491419 18; D 434494 18; D 383927 18;
   D 33903 19; D 299188 18; D 263848 18; D 232518 18; D 204756 18; D 180171 18; D 158412 18; D 139165 18; D 122152 18; D 107121 18; D 938521 17;
   D 821446 17; D 718213 17; D 62724 18; D 547114 17; D 476577 17; D 41451 18; D 359918 17; D 311915 17; D 269718 17; D 232632 17; D 200042 17;
   D 171408 17; D 146253 17; D 124162 17; D 104773 17; D 877743 16; D 729032 16; D 599409 16; D 487136 16; D 390924 16; D 309962 16; D 243954 16;
   D 19319 17];
  [D 445175 17; D 497441 18; D 147704 19; D 266857 19; D 381403 19; D 480959 19; D 5626 21; D 62648 20; D 674598 19; D 710487 19; D 737253 19;
   D 756813 19; D 770461 19; D 779321 19; D 784722 19; D 787884 19; D 789569 19; D 790227 19; D 790012 19; D 788983 19; D 787317 19; D 785169 19;
   D 782529 19; D 779301 19; D 77542 20; D 770963 19; D 765995 19; D 760446 19; D 754157 19; D 74696 20; D 738758 19; D 72949 20; D 719009 19;
   D 707094 19; D 693498 19; D 678019 19; D 660518 19; D 64087 20; D 618963 19; D 594739 19; D 568238 19; D 539631 19; D 509199 19; D 477311 19;
   D 444414 19; D 411012 19; D 377641 19; D 344826 19; D 322316 19; D 292097 19; D 263533 19; D 236841 19; D 21215 20; D 189507 19; D 168894 19;
   D 150244 19; D 133451 19; D 118389 19; D 104921 19; D 929069 18; D 822074 18; D 726911 18; D 642363 18; D 567298 18; D 500695 18; D 441632 18;
   D 38928 19; D 342902 18; D 301835 18; D 265492 18; D 233347 18; D 204934 18; D 179833 18; D 157675 18; D 138126 18; D 120891 18; D 105706 18;
   D 92337 18; D 805733 17; D 702286 17; D 61137 18; D 53151 18; D 461392 17; D 399855 17; D 345866 17; D 298512 17; D 256986 17; D 220576 17;
   D 188657 17; D 160679 17; D 136161 17; D 114689 17; D 959032 16; D 79502 17; D 652336 16; D 528975 16; D 423446 16; D 334791 16; D 262633 16;
   D 207252 16];
  [D 584313 17; D 647055 18; D 190669 19; D 342513 19; D 487535 19; D 612916 19; D 715176 19; D 794708 19; D 854307 19; D 898628 19; D 931542 19;
   D 955411 19; D 971866 19; D 982382 19; D 988719 19; D 99237 20; D 99425 20; D 994869 19; D 994377 19; D 992872 19; D 990605 19; D 987732 19;
   D 984202 19; D 979882 19; D 974733 19; D 968879 19; D 962359 19; D 955037 19; D 946695 19; D 937132 19; D 926256 19; D 913957 19; D 900007 19;
   D 884097 19; D 865918 19; D 845241 19; D 8219 21; D 795735 19; D 766621 19; D 734529 19; D 699583 19; D 662075 19; D 622424 19; D 581157 19;
   D 538896 19; D 496322 19; D 45413 20; D 412978 19; D 385215 19; D 347852 19; D 312785 19; D 280232 19; D 250299 19; D 222997 19; D 198262 19;
   D 175975 19; D 15598 20; D 138105 19; D 122165 19; D 10798 20; D 953751 18; D 841868 18; D 742642 18; D 654701 18; D 576805 18; D 507844 18;
   D 446823 18; D 392857 18; D 345156 18; D 303018 18; D 265817 18; D 232995 18; D 204057 18; D 178561 18; D 156113 18; D 136362 18; D 118997 18;
   D 10374 19; D 903437 17; D 785888 17; D 682801 17; D 592447 17; D 51329 18; D 443973 17; D 383294 17; D 33019 18; D 283726 17; D 243078 17;
   D 207522 17; D 176424 17; D 149233 17; D 12547 18; D 104725 17; D 86649 17; D 70954 17; D 574095 16; D 458429 16; D 36142 17; D 282597 16;
   D 222224 16];
  [D 766474 17; D 841229 18; D 246011 19; D 439435 19; D 622984 19; D 780838 19; D 908882 19; D 100787 20; D 108167 20; D 11364 21; D 117686 20;
   D 120596 20; D 122577 20; D 123823 20; D 124566 20; D 124986 20; D 125194 20; D 125245 20; D 125155 20; D 124941 20; D 124635 20; D 124251 20;
   D 123779 20; D 123202 20; D 122521 20; D 121753 20; D 120897 20; D 11993 21; D 118823 20; D 117553 20; D 116112 20; D 11448 21; D 112622 20;
   D 110497 20; D 108068 20; D 10531 21; D 102201 20; D 987208 19; D 948581 19; D 906165 19; D 860217 19; D 811194 19; D 759705 19; D 706497 19;
   D 652418 19; D 598373 19; D 54525 20; D 508563 19; D 459768 19; D 41374 20; D 370835 19; D 331254 19; D 295065 19; D 262223 19; D 232599 19;
   D 20601 20; D 182238 19; D 161047 19; D 142198 19; D 125463 19; D 110622 19; D 974735 18; D 858333 18; D 755345 18; D 664276 18; D 583788 18;
   D 512691 18; D 449922 18; D 39454 19; D 345706 18; D 302674 18; D 264781 18; D 231437 18; D 202117 18; D 176355 18; D 153736 18; D 133891 18;
   D 116491 18; D 101246 18; D 878974 17; D 762168 17; D 660012 17; D 570713 17; D 492687 17; D 424536 17; D 365026 17; D 313072 17; D 267723 17;
   D 228143 17; D 193603 17; D 163468 17; D 137188 17; D 114294 17; D 94386 17; D 77134 17; D 622731 16; D 496045 16; D 389969 16; D 303926 16;
   D 238158 16];
  [D 100483 18; D 109311 19; D 317269 19; D 563557 19; D 795797 19; D 994469 19; D 115475 20; D 127789 20; D 136928 20; D 143685 20; D 148656 20;
   D 152201 20; D 154582 20; D 156057 20; D 156927 20; D 157409 20; D 157635 20; D 157666 20; D 157518 20; D 157217 20; D 156806 20; D 156294 20;
   D 155663 20; D 154894 20; D 153997 20; D 152991 20; D 151865 20; D 150586 20; D 149117 20; D 147435 20; D 145525 20; D 143358 20; D 140882 20;
   D 138045 20; D 134803 20; D 131128 20; D 126991 20; D 122369 20; D 117254 20; D 111663 20; D 105639 20; D 992521 19; D 925892 19; D 857538 19;
   D 788608 19; D 720278 19; D 653657 19; D 608388 19; D 548057 19; D 491548 19; D 439217 19; D 391226 19; D 347581 19; D 308156 19; D 272742 19;
   D 241068 19; D 212837 19; D 187738 19; D 165468 19; D 145736 19; D 128271 19; D 112826 19; D 991763 18; D 871199 18; D 764767 18; D 670862 18;
   D 588055 18; D 51508 19; D 450809 18; D 394242 18; D 344491 18; D 300767 18; D 262369 18; D 228673 18; D 199127 18; D 173239 18; D 150573 18;
   D 130742 18; D 113405 18; D 982574 17; D 850312 17; D 734891 17; D 63422 18; D 546451 17; D 469959 17; D 403315 17; D 345263 17; D 294704 17;
   D 250674 17; D 212336 17; D 17896 18; D 149917 17; D 124669 17; D 102758 17; D 838073 16; D 675134 16; D 536472 16; D 420563 16; D 326705 16;
   D 255108 16];
  [D 131669 18; D 141969 19; D 408979 19; D 722459 19; D 101621 20; D 126618 20; D 146674 20; D 16199 21; D 173305 20; D 181646 20; D 18775 21;
   D 192064 20; D 194921 20; D 196666 20; D 197683 20; D 198234 20; D 198475 20; D 198472 20; D 198241 20; D 197826 20; D 197275 20; D 196592 20;
   D 195749 20; D 194728 20; D 19355 21; D 192232 20; D 19075 21; D 189057 20; D 187108 20; D 18488 21; D 182351 20; D 17947 21; D 176171 20;
   D 172384 20; D 168063 20; D 163171 20; D 157673 20; D 151545 20; D 144787 20; D 137435 20; D 129562 20; D 121268 20; D 112676 20; D 103927 20;
   D 951756 19; D 865705 19; D 8058 21; D 726871 19; D 652535 19; D 58338 20; D 519736 19; D 461698 19; D 409175 19; D 361938 19; D 319666 19;
   D 281983 19; D 248491 19; D 218789 19; D 192493 19; D 16924 20; D 148697 19; D 130561 19; D 11456 20; D 100451 19; D 880172 18; D 770655 18;
   D 674252 18; D 589447 18; D 514895 18; D 449404 18; D 391916 18; D 341492 18; D 297298 18; D 258596 18; D 224731 18; D 19512 19; D 169249 18;
   D 146664 18; D 12696 19; D 109782 18; D 948158 17; D 817839 17; D 704422 17; D 60576 18; D 519965 17; D 445382 17; D 380559 17; D 324228 17;
   D 275281 17; D 232755 17; D 195814 17; D 163739 17; D 135912 17; D 111813 17; D 910103 16; D 73157 17; D 579902 16; D 453335 16; D 35102 17;
   D 273131 16];
  [D 172457 18; D 184292 19; D 526961 19; D 925815 19; D 129725 20; D 161169 20; D 186257 20; D 205298 20; D 219306 20; D 229601 20; D 237093 20;
   D 242338 20; D 24576 21; D 247822 20; D 249009 20; D 249636 20; D 249886 20; D 249827 20; D 249483 20; D 248916 20; D 248182 20; D 24727 21;
   D 246145 20; D 244793 20; D 243249 20; D 241522 20; D 239569 20; D 237326 20; D 234743 20; D 231796 20; D 228445 20; D 224615 20; D 220216 20;
   D 215167 20; D 209413 20; D 202909 20; D 195612 20; D 187501 20; D 178592 20; D 168953 20; D 158694 20; D 147958 20; D 136917 20; D 125762 20;
   D 114693 20; D 103898 20; D 965001 19; D 867382 19; D 776088 19; D 69171 20; D 614513 19; D 544485 19; D 481404 19; D 4249 21; D 374511 19;
   D 329729 19; D 290031 19; D 254907 19; D 223873 19; D 196484 19; D 172329 19; D 151041 19; D 132292 19; D 115787 19; D 101266 19; D 884981 18;
   D 772795 18; D 674287 18; D 587852 18; D 512069 18; D 445676 18; D 387558 18; D 336724 18; D 292299 18; D 253506 18; D 219659 18; D 19015 19;
   D 164443 18; D 142064 18; D 122597 18; D 105673 18; D 909683 17; D 781992 17; D 671158 17; D 574992 17; D 491578 17; D 419241 17; D 35652 18;
   D 302142 17; D 255002 17; D 214142 17; D 178739 17; D 148091 17; D 121602 17; D 987815 16; D 792323 16; D 62654 17; D 488425 16; D 376963 16;
   D 292285 16];
  [D 225775 18; D 239116 19; D 678682 19; D 118597 20; D 165551 20; D 205091 20; D 236463 20; D 26013 21; D 27747 21; D 290175 20; D 299365 20;
   D 305734 20; D 309827 20; D 312262 20; D 313645 20; D 314354 20; D 314602 20; D 314459 20; D 313959 20; D 313192 20; D 312213 20; D 310998 20;
   D 309498 20; D 307715 20; D 305694 20; D 303428 20; D 300851 20; D 297881 20; D 294462 20; D 290563 20; D 286121 20; D 281026 20; D 275163 20;
   D 268437 20; D 260786 20; D 252148 20; D 242477 20; D 23176 21; D 220046 20; D 207444 20; D 194117 20; D 180267 20; D 166129 20; D 151959 20;
   D 138012 20; D 128212 20; D 115423 20; D 103389 20; D 922115 19; D 819448 19; D 726038 19; D 64172 20; D 566092 19; D 498601 19; D 438608 19;
   D 385439 19; D 338421 19; D 296908 19; D 260303 19; D 228055 19; D 199664 19; D 174685 19; D 152722 19; D 13342 20; D 116469 19; D 10159 20;
   D 885408 18; D 771036 18; D 670874 18; D 583225 18; D 50659 19; D 439642 18; D 381205 18; D 330241 18; D 285832 18; D 247166 18; D 213528 18;
   D 184287 18; D 158888 18; D 13684 19; D 117714 18; D 101134 18; D 867667 17; D 743239 17; D 635517 17; D 542287 17; D 461617 17; D 391826 17;
   D 331452 17; D 279229 17; D 234063 17; D 195013 17; D 161278 17; D 132181 17; D 107162 17; D 857696 16; D 676599 16; D 525978 16; D 404632 16;
   D 31263 17];
  [D 295435 18; D 310103 19; D 873716 19; D 15187 21; D 211207 20; D 260915 20; D 300133 20; D 329539 20; D 351004 20; D 366678 20; D 377945 20;
   D 385669 20; D 390558 20; D 393431 20; D 395038 20; D 395834 20; D 396065 20; D 395796 20; D 395086 20; D 394056 20; D 392752 20; D 391131 20;
   D 389136 20; D 386792 20; D 384148 20; D 381173 20; D 37777 21; D 373836 20; D 369314 20; D 364159 20; D 358266 20; D 351487 20; D 343677 20;
   D 334728 20; D 324562 20; D 313105 20; D 300306 20; D 286178 20; D 270815 20; D 254388 20; D 237129 20; D 21932 21; D 201281 20; D 183348 20;
   D 165839 20; D 153724 20; D 137896 20; D 123108 20; D 109462 20; D 970017 19; D 85724 20; D 755904 19; D 665375 19; D 584864 19; D 513511 19;
   D 450433 19; D 394779 19; D 345745 19; D 302586 19; D 26463 20; D 231272 19; D 201972 19; D 176253 19; D 153689 19; D 133908 19; D 116577 19;
   D 101405 19; D 881319 18; D 765307 18; D 66399 19; D 575582 18; D 498506 18; D 431368 18; D 372938 18; D 32213 19; D 277988 18; D 239668 18;
   D 206428 18; D 177618 18; D 152664 18; D 131064 18; D 112379 18; D 962252 17; D 822652 17; D 702062 17; D 597927 17; D 50802 18; D 43041 18;
   D 363421 17; D 305603 17; D 255706 17; D 21266 18; D 17555 18; D 143608 17; D 116196 17; D 928009 16; D 730306 16; D 56615 17; D 434124 16;
   D 334229 16];
  [D 386398 18; D 401977 19; D 112433 20; D 194409 20; D 269374 20; D 331848 20; D 380857 20; D 417387 20; D 443955 20; D 463288 20; D 477091 20;
   D 486449 20; D 492281 20; D 495668 20; D 497531 20; D 498417 20; D 498602 20; D 498151 20; D 497161 20; D 495783 20; D 494048 20; D 491887 20;
   D 489242 20; D 486167 20; D 482709 20; D 478798 20; D 474301 20; D 469094 20; D 46312 21; D 456302 20; D 44848 21; D 43946 21; D 429063 20;
   D 417168 20; D 403677 20; D 388498 20; D 371591 20; D 353007 20; D 332913 20; D 311561 20; D 28928 21; D 266459 20; D 243526 20; D 220911 20;
   D 204853 20; D 184092 20; D 164567 20; D 146449 20; D 129833 20; D 114745 20; D 101156 20; D 889973 19; D 781755 19; D 685819 19; D 601026 19;
   D 526248 19; D 460412 19; D 402516 19; D 35165 20; D 306993 19; D 267811 19; D 233454 19; D 203346 19; D 176979 19; D 153905 19; D 133726 19;
   D 116093 19; D 100698 19; D 872676 18; D 755621 18; D 653688 18; D 565003 18; D 487915 18; D 420966 18; D 362873 18; D 31251 19; D 268883 18;
   D 231121 18; D 198462 18; D 170236 18; D 145858 18; D 124816 18; D 106663 18; D 910109 17; D 775197 17; D 658951 17; D 558811 17; D 472559 17;
   D 398274 17; D 3343 19; D 279212 17; D 231788 17; D 19099 18; D 155946 17; D 12593 18; D 10036 18; D 7879 18; D 609102 16; D 465543 16; D 357141 16];
  [D 505118 18; D 520834 19; D 144625 20; D 24878 21; D 343462 20; D 421961 20; D 483185 20; D 528552 20; D 561435 20; D 585275 20; D 602175 20;
   D 613497 20; D 620444 20; D 624434 20; D 626588 20; D 627563 20; D 627661 20; D 626954 20; D 625592 20; D 623753 20; D 621445 20; D 618567 20;
   D 61507 21; D 611046 20; D 60652 21; D 601374 20; D 595428 20; D 588543 20; D 580655 20; D 571632 20; D 561247 20; D 549245 20; D 535418 20;
   D 519626 20; D 50174 21; D 481658 20; D 459364 20; D 434981 20; D 408769 20; D 381097 20; D 352424 20; D 32328 21; D 294226 20; D 265809 20;
   D 245928 20; D 220213 20; D 196199 20; D 174061 20; D 153879 20; D 135648 20; D 119303 20; D 104737 20; D 918161 19; D 803954 19; D 703269 19;
   D 614674 19; D 536828 19; D 468498 19; D 408568 19; D 356042 19; D 310035 19; D 269761 19; D 23453 20; D 20373 20; D 176825 19; D 15334 20;
   D 132858 19; D 115009 19; D 994703 18; D 859539 18; D 742077 18; D 640094 18; D 551631 18; D 474967 18; D 408586 18; D 351159 18; D 301521 18;
   D 258649 18; D 221651 18; D 189744 18; D 162246 18; D 138564 18; D 118178 18; D 100638 18; D 855542 17; D 725856 17; D 614384 17; D 518584 17;
   D 436257 17; D 365514 17; D 304728 17; D 252512 17; D 207687 17; D 169261 17; D 136413 17; D 108483 17; D 849631 16; D 654999 16; D 498992 16;
   D 381431 16];
  [D 659982 18; D 674532 19; D 185959 20; D 318251 20; D 437806 20; D 536413 20; D 612872 20; D 669203 20; D 709899 20; D 739288 20; D 759965 20;
   D 773645 20; D 781913 20; D 786608 20; D 78909 21; D 790144 20; D 790097 20; D 789035 20; D 787179 20; D 784732 20; D 781662 20; D 777833 20;
   D 773225 20; D 767965 20; D 762037 20; D 755259 20; D 747396 20; D 738303 20; D 727888 20; D 715942 20; D 70215 21; D 686187 20; D 66782 21;
   D 646874 20; D 623187 20; D 596658 20; D 567323 20; D 535409 20; D 501312 20; D 465555 20; D 428775 20; D 391682 20; D 355003 20; D 328655 20;
   D 294899 20; D 263145 20; D 233694 20; D 206715 20; D 182255 20; D 160268 20; D 14064 21; D 123212 20; D 107802 20; D 942177 19; D 822701 19;
   D 717787 19; D 625781 19; D 545164 19; D 474579 19; D 412819 19; D 358814 19; D 31162 20; D 270408 19; D 234445 19; D 203086 19; D 175766 19;
   D 151985 19; D 131303 19; D 113333 19; D 977342 18; D 842062 18; D 724854 18; D 623399 18; D 53566 19; D 459853 18; D 394413 18; D 337969 18;
   D 289325 18; D 247436 18; D 21139 19; D 180393 18; D 153755 18; D 130875 18; D 111233 18; D 943773 17; D 799177 17; D 675165 17; D 568821 17;
   D 477635 17; D 39945 18; D 332417 17; D 274958 17; D 225735 17; D 183624 17; D 147698 17; D 117207 17; D 91576 17; D 704013 16; D 534579 16;
   D 407157 16];
  [D 861893 18; D 873202 19; D 239016 20; D 40699 21; D 557916 20; D 681746 20; D 777202 20; D 847133 20; D 897497 20; D 933713 20; D 958994 20;
   D 975501 20; D 985331 20; D 990848 20; D 993698 20; D 994811 20; D 994534 20; D 992985 20; D 990479 20; D 987225 20; D 983142 20; D 978057 20;
   D 972003 20; D 965132 20; D 957362 20; D 948425 20; D 938032 20; D 926033 20; D 912283 20; D 896459 20; D 878137 20; D 856923 20; D 832548 20;
   D 804793 20; D 773462 20; D 738474 20; D 699959 20; D 658297 20; D 614065 20; D 568 23; D 520972 20; D 473922 20; D 427775 20; D 395096 20;
   D 353237 20; D 314141 20; D 27812 21; D 245317 20; D 215733 20; D 189262 20; D 165725 20; D 144898 20; D 126535 20; D 110388 20; D 962183 19;
   D 838007 19; D 729304 19; D 634223 19; D 551115 19; D 478519 19; D 415147 19; D 359864 19; D 311673 19; D 269697 19; D 233165 19; D 201398 19;
   D 1738 21; D 149846 19; D 129076 19; D 111084 19; D 955121 18; D 820491 18; D 704202 18; D 603849 18; D 517329 18; D 4428 20; D 378657 18;
   D 323497 18; D 276099 18; D 235401 18; D 20048 19; D 170534 18; D 14487 19; D 122886 18; D 104063 18; D 879501 17; D 741615 17; D 623634 17;
   D 522693 17; D 436332 17; D 36245 18; D 299256 17; D 245234 17; D 199112 17; D 15984 18; D 126572 17; D 986556 16; D 75632 17; D 572408 16;
   D 434376 16];
  [D 112511 19; D 11299 21; D 307096 20; D 52031 21; D 71079 21; D 866253 20; D 985391 20; D 107219 21; D 113451 21; D 117913 21; D 121001 21;
   D 12299 22; D 124158 21; D 124806 21; D 125131 21; D 125245 21; D 125183 21; D 124962 21; D 124625 21; D 124193 21; D 12365 22; D 122976 21;
   D 122183 21; D 121286 21; D 120266 21; D 119087 21; D 117714 21; D 116132 21; D 114316 21; D 112219 21; D 109785 21; D 106968 21; D 103737 21;
   D 100063 21; D 959241 20; D 91318 21; D 86273 21; D 808482 20; D 751263 20; D 6921 22; D 632164 20; D 572682 20; D 514817 20; D 474436 20;
   D 422685 20; D 374683 20; D 330734 20; D 290936 20; D 255222 20; D 223402 20; D 195213 20; D 170347 20; D 148483 20; D 129303 20; D 112506 20;
   D 978141 19; D 849756 19; D 737651 19; D 639827 19; D 554521 19; D 480182 19; D 415446 19; D 359117 19; D 310143 19; D 267601 19; D 230681 19;
   D 198669 19; D 170941 19; D 146947 19; D 126205 19; D 108291 19; D 928358 18; D 795143 18; D 68043 19; D 58174 19; D 496911 18; D 42406 19;
   D 361547 18; D 307947 18; D 262024 18; D 222705 18; D 189062 18; D 160292 18; D 135701 18; D 114691 18; D 967462 17; D 814237 17; D 683418 17;
   D 571739 17; D 4764 19; D 395014 17; D 32555 18; D 266292 17; D 215803 17; D 172897 17; D 136618 17; D 10623 18; D 812098 16; D 612581 16;
   D 463137 16];
  [D 146813 19; D 146146 20; D 394422 20; D 664981 20; D 905323 20; D 110045 21; D 12491 22; D 135682 21; D 143393 21; D 148887 21; D 152657 21;
   D 155051 21; D 156437 21; D 157196 21; D 157566 21; D 157676 21; D 157562 21; D 157253 21; D 156803 21; D 15623 22; D 155508 21; D 154618 21;
   D 15358 22; D 152408 21; D 151069 21; D 149512 21; D 147701 21; D 145616 21; D 143216 21; D 140436 21; D 137204 21; D 133468 21; D 129188 21;
   D 124329 21; D 11887 22; D 112818 21; D 106226 21; D 991803 20; D 917994 20; D 842239 20; D 766099 20; D 691149 20; D 63736 21; D 569107 20;
   D 505306 20; D 446522 20; D 393024 20; D 344836 20; D 301792 20; D 263595 20; D 229871 20; D 20021 21; D 174195 20; D 151424 20; D 131522 20;
   D 114145 20; D 989872 19; D 857733 19; D 742622 19; D 642413 19; D 555238 19; D 47946 20; D 413644 19; D 35653 20; D 307013 19; D 264123 19;
   D 227011 19; D 19493 20; D 167226 19; D 143327 19; D 12273 20; D 104997 19; D 897457 18; D 766403 18; D 653896 18; D 5574 20; D 474707 18;
   D 403902 18; D 343324 18; D 291534 18; D 247288 18; D 209512 18; D 177278 18; D 149786 18; D 126349 18; D 106375 18; D 893573 17; D 748599 17;
   D 625106 17; D 519911 17; D 430306 17; D 35399 18; D 289023 17; D 233783 17; D 186931 17; D 147389 17; D 114327 17; D 871522 16; D 655191 16;
   D 49348 17];
  [D 191498 19; D 188953 20; D 506398 20; D 849622 20; D 115281 21; D 139765 21; D 158307 21; D 171674 21; D 181214 21; D 187977 21; D 192575 21;
   D 195452 21; D 197097 21; D 197984 21; D 198402 21; D 198499 21; D 198311 21; D 197883 21; D 197285 21; D 196524 21; D 195565 21; D 194392 21;
   D 193037 21; D 191504 21; D 189744 21; D 18769 22; D 185302 21; D 182553 21; D 179381 21; D 175695 21; D 171406 21; D 166454 21; D 160791 21;
   D 154374 21; D 147183 21; D 139249 21; D 130655 21; D 12153 22; D 112036 21; D 102366 21; D 927242 20; D 833105 20; D 766496 20; D 681989 20;
   D 603546 20; D 531731 20; D 466747 20; D 408505 20; D 356705 20; D 310908 20; D 270603 20; D 235249 20; D 204313 20; D 177292 20; D 153719 20;
   D 133174 20; D 115282 20; D 997113 19; D 861701 19; D 744021 19; D 64183 20; D 553161 19; D 476291 19; D 409712 19; D 352102 19; D 302301 19;
   D 259297 19; D 222198 19; D 190229 19; D 162707 19; D 139038 19; D 118704 19; D 101252 19; D 862885 18; D 7347 20; D 624993 18; D 531182 18;
   D 45103 19; D 382604 18; D 324231 18; D 27447 19; D 232076 18; D 195981 18; D 165263 18; D 139132 18; D 116912 18; D 980213 17; D 819637 17;
   D 683151 17; D 567143 17; D 468539 17; D 384738 17; D 313548 17; D 253139 17; D 202004 17; D 158929 17; D 122976 17; D 934757 16; D 700322 16;
   D 525432 16];
  [D 24968 20; D 244199 20; D 649937 20; D 108522 21; D 14676 22; D 177474 21; D 200595 21; D 217181 21; D 228983 21; D 237304 21; D 242905 21;
   D 24636 22; D 248309 21; D 249345 21; D 249813 21; D 249882 21; D 24959 22; D 249006 21; D 248211 21; D 247202 21; D 245929 21; D 244387 21;
   D 24262 22; D 240615 21; D 238298 21; D 235588 21; D 232443 21; D 22882 22; D 224624 21; D 219736 21; D 214049 21; D 207493 21; D 200007 21;
   D 19154 22; D 182086 21; D 171707 21; D 160532 21; D 148743 21; D 136567 21; D 124261 21; D 112091 21; D 103229 21; D 920842 20; D 816501 20;
   D 720299 20; D 632762 20; D 553978 20; D 483699 20; D 421445 20; D 366596 20; D 318466 20; D 276354 20; D 239587 20; D 207534 20; D 179623 20;
   D 155339 20; D 134227 20; D 115884 20; D 999599 19; D 86145 20; D 741698 19; D 637984 19; D 54824 20; D 470662 19; D 403667 19; D 345871 19;
   D 296063 19; D 253185 19; D 216311 19; D 184635 19; D 157451 19; D 134147 19; D 114189 19; D 971123 18; D 825156 18; D 700499 18; D 594134 18;
   D 503453 18; D 426204 18; D 360448 18; D 304514 18; D 256964 18; D 216567 18; D 182262 18; D 153145 18; D 128438 18; D 107479 18; D 897029 17;
   D 746262 17; D 618391 17; D 509939 17; D 417964 17; D 339993 17; D 273964 17; D 218181 17; D 17128 18; D 132204 17; D 100196 17; D 74804 17;
   D 559002 16];
  [D 325405 19; D 315473 20; D 83388 21; D 138576 21; D 186791 21; D 225309 21; D 254134 21; D 274711 21; D 289308 21; D 299542 21; D 306361 21;
   D 310502 21; D 312812 21; D 314017 21; D 314537 21; D 314555 21; D 314119 21; D 313328 21; D 312274 21; D 310935 21; D 30925 22; D 307229 21;
   D 304925 21; D 302298 21; D 299248 21; D 295676 21; D 291535 21; D 286757 21; D 281205 21; D 274725 21; D 267191 21; D 258519 21; D 248632 21;
   D 237477 21; D 22507 22; D 211523 21; D 197027 21; D 181839 21; D 166268 21; D 150656 21; D 135341 21; D 124341 21; D 110519 21; D 976697 20;
   D 858995 20; D 752516 20; D 65717 21; D 572492 20; D 497764 20; D 432135 20; D 374702 20; D 32457 21; D 280891 20; D 242885 20; D 209848 20;
   D 181152 20; D 156247 20; D 134645 20; D 115924 20; D 997117 19; D 856839 19; D 735573 19; D 630845 19; D 540491 19; D 462618 19; D 395575 19;
   D 337916 19; D 288383 19; D 245876 19; D 209437 19; D 178233 19; D 151539 19; D 128727 19; D 109251 19; D 926381 18; D 784815 18; D 664282 18;
   D 561744 18; D 474583 18; D 40055 19; D 33771 19; D 284407 18; D 239218 18; D 200929 18; D 168499 18; D 141042 18; D 117801 18; D 981312 17;
   D 814851 17; D 673975 17; D 554749 17; D 45385 18; D 368492 17; D 296354 17; D 235531 17; D 184488 17; D 142037 17; D 107326 17; D 798392 16;
   D 594172 16];
  [D 423919 19; D 407393 20; D 106953 21; D 176904 21; D 237684 21; D 285979 21; D 321905 21; D 347432 21; D 365484 21; D 378064 21; D 386356 21;
   D 391317 21; D 394051 21; D 39545 22; D 396018 21; D 395955 21; D 39532 22; D 394258 21; D 392861 21; D 391085 21; D 388857 21; D 386215 21;
   D 383209 21; D 379767 21; D 375749 21; D 371043 21; D 365595 21; D 359291 21; D 351943 21; D 343355 21; D 333384 21; D 321923 21; D 308878 21;
   D 294203 21; D 277954 21; D 260312 21; D 241555 21; D 222041 21; D 202188 21; D 182441 21; D 163228 21; D 149619 21; D 132523 21; D 116739 21;
   D 10237 22; D 894423 20; D 77922 21; D 677325 20; D 587719 20; D 509259 20; D 44077 21; D 381118 20; D 329249 20; D 284198 20; D 245104 20;
   D 211206 20; D 181834 20; D 156402 20; D 1344 22; D 11538 21; D 989543 19; D 847814 19; D 725651 19; D 620463 19; D 529989 19; D 452256 19;
   D 385544 19; D 328352 19; D 279376 19; D 237481 19; D 20168 20; D 171121 19; D 14506 20; D 122858 19; D 103962 19; D 878938 18; D 742423 18;
   D 626539 18; D 528247 18; D 444938 18; D 374378 18; D 314655 18; D 264133 18; D 221418 18; D 185318 18; D 15482 19; D 12906 19; D 107306 18;
   D 889364 17; D 734234 17; D 603223 17; D 492586 17; D 399184 17; D 320409 17; D 25412 18; D 198594 17; D 152499 17; D 114877 17; D 851385 16;
   D 630884 16];
  [D 552022 19; D 525896 20; D 137132 21; D 225775 21; D 302377 21; D 362915 21; D 407677 21; D 439343 21; D 461664 21; D 477121 21; D 487195 21;
   D 49313 22; D 496364 21; D 497984 21; D 498591 21; D 498403 21; D 4975 23; D 496079 21; D 494229 21; D 491875 21; D 488936 21; D 485488 21;
   D 481566 21; D 47705 22; D 471757 21; D 465564 21; D 458395 21; D 450075 21; D 440349 21; D 428975 21; D 415789 21; D 400656 21; D 383464 21;
   D 364188 21; D 342951 21; D 320031 21; D 295823 21; D 270819 21; D 245579 21; D 220678 21; D 202501 21; D 179863 21; D 158771 21; D 139427 21;
   D 121922 21; D 106254 21; D 92355 21; D 801083 20; D 693736 20; D 600001 20; D 518375 20; D 447429 20; D 385855 20; D 332469 20; D 286222 20;
   D 246187 20; D 211558 20; D 181626 20; D 155776 20; D 133471 20; D 114244 20; D 976861 19; D 834422 19; D 712021 19; D 606956 19; D 516873 19;
   D 439723 19; D 373722 19; D 317322 19; D 269178 19; D 228127 19; D 193159 19; D 163404 19; D 138108 19; D 116626 19; D 983972 18; D 829439 18;
   D 698541 18; D 587752 18; D 494054 18; D 414866 18; D 347984 18; D 291529 18; D 2439 20; D 203735 18; D 169875 18; D 141338 18; D 117291 18;
   D 970279 17; D 799529 17; D 655634 17; D 534373 17; D 432215 17; D 346229 17; D 274013 17; D 213638 17; D 163612 17; D 122854 17; D 906976 16;
   D 669042 16];
  [D 718531 19; D 678618 20; D 17577 22; D 288071 21; D 384593 21; D 460459 21; D 516219 21; D 555497 21; D 583092 21; D 602073 21; D 614298 21;
   D 621393 21; D 625214 21; D 627083 21; D 627714 21; D 627337 21; D 626075 21; D 624182 21; D 621734 21; D 618614 21; D 614749 21; D 610254 21;
   D 605134 21; D 599204 21; D 592233 21; D 584089 21; D 574654 21; D 563668 21; D 550795 21; D 535744 21; D 518321 21; D 498357 21; D 475728 21;
   D 450453 21; D 422756 21; D 393048 21; D 361884 21; D 329934 21; D 297939 21; D 26663 22; D 244081 21; D 216025 21; D 190068 21; D 166412 21;
   D 145126 21; D 126168 21; D 10942 22; D 947162 20; D 81867 21; D 706756 20; D 609517 20; D 525173 20; D 452103 20; D 388858 20; D 334162 20;
   D 286894 20; D 246077 20; D 210859 20; D 180499 20; D 154351 20; D 131854 20; D 112518 20; D 959173 19; D 816807 19; D 694856 19; D 590512 19;
   D 501334 19; D 425205 19; D 360289 19; D 304994 19; D 257945 19; D 217954 19; D 183998 19; D 155194 19; D 130783 19; D 110115 19; D 926305 18;
   D 778524 18; D 653715 18; D 548386 18; D 459559 18; D 384698 18; D 321644 18; D 268562 18; D 223894 18; D 18632 19; D 154722 18; D 128151 18;
   D 10581 19; D 870245 17; D 712268 17; D 57942 18; D 467731 17; D 373912 17; D 295274 17; D 229657 17; D 175389 17; D 131258 17; D 965071 16;
   D 708505 16];
  [D 934899 19; D 875371 20; D 225225 21; D 367464 21; D 489058 21; D 584111 21; D 653553 21; D 702271 21; D 736379 21; D 759674 21; D 774495 21;
   D 782969 21; D 787478 21; D 789626 21; D 790253 21; D 789603 21; D 78786 22; D 785348 21; D 782109 21; D 777977 21; D 772906 21; D 767051 21;
   D 760362 21; D 752572 21; D 743395 21; D 73269 22; D 72027 22; D 705759 21; D 688724 21; D 668823 21; D 645823 21; D 61951 22; D 589765 21;
   D 556686 21; D 520642 21; D 482227 21; D 442211 21; D 4015 23; D 361059 21; D 331027 21; D 293919 21; D 259237 21; D 227365 21; D 198496 21;
   D 172657 21; D 149751 21; D 129594 21; D 111957 21; D 965875 20; D 832331 20; D 716548 20; D 616307 20; D 529618 20; D 454714 20; D 390042 20;
   D 334249 20; D 286154 20; D 24473 21; D 209085 20; D 178444 20; D 152131 20; D 12956 21; D 110221 20; D 936694 19; D 795209 19; D 674403 19;
   D 571375 19; D 483608 19; D 408926 19; D 345449 19; D 291554 19; D 245843 19; D 207112 19; D 174328 19; D 146605 19; D 123182 19; D 10341 20;
   D 867346 18; D 726812 18; D 608467 18; D 508878 18; D 425126 18; D 354736 18; D 295605 18; D 245954 18; D 204278 18; D 169305 18; D 13996 19;
   D 115338 18; D 94679 18; D 773426 17; D 627943 17; D 505882 17; D 403558 17; D 317961 17; D 246678 17; D 187837 17; D 14008 18; D 102551 17;
   D 749078 16];
  [D 121601 20; D 112877 21; D 288509 21; D 468623 21; D 621768 21; D 740832 21; D 827294 21; D 887718 21; D 929867 21; D 95844 22; D 976387 21;
   D 986502 21; D 991816 21; D 994272 21; D 994852 21; D 993811 21; D 991432 21; D 988103 21; D 983818 21; D 978354 21; D 971718 21; D 964093 21;
   D 955347 21; D 945106 21; D 933035 21; D 918971 21; D 902614 21; D 883443 21; D 860909 21; D 834619 21; D 804281 21; D 769636 21; D 730594 21;
   D 687384 21; D 640581 21; D 591025 21; D 539777 21; D 488045 21; D 437073 21; D 399705 21; D 353615 21; D 310845 21; D 271796 21; D 236631 21;
   D 205316 21; D 177675 21; D 153442 21; D 132302 21; D 11393 22; D 980028 20; D 842213 20; D 723117 20; D 620299 20; D 531608 20; D 455163 20;
   D 389325 20; D 33267 21; D 283962 20; D 242127 20; D 206233 20; D 17547 21; D 149134 20; D 126614 20; D 107381 20; D 909741 19; D 769944 19;
   D 650971 19; D 549836 19; D 463964 19; D 391131 19; D 329425 19; D 277201 19; D 233047 19; D 195752 19; D 164282 19; D 137751 19; D 115403 19;
   D 965953 18; D 80779 19; D 674885 18; D 563283 18; D 469631 18; D 391087 18; D 325249 18; D 270084 18; D 223879 18; D 185188 18; D 152793 18;
   D 125669 18; D 102959 18; D 83942 18; D 68016 18; D 546814 17; D 435258 17; D 342126 17; D 26472 18; D 200952 17; D 149303 17; D 108806 17;
   D 790491 16];
  [D 158109 20; D 1455 23; D 369464 21; D 597488 21; D 790327 21; D 939433 21; D 104706 22; D 1122 24; D 117408 22; D 12091 23; D 123081 22;
   D 124288 22; D 124913 22; D 125192 22; D 125238 22; D 12508 23; D 124758 22; D 124317 22; D 123751 22; D 123029 22; D 122162 22; D 12117 23;
   D 120025 22; D 118678 22; D 117092 22; D 115244 22; D 113089 22; D 110556 22; D 107577 22; D 104107 22; D 100109 22; D 955522 21; D 904359 21;
   D 848029 21; D 787389 21; D 723616 21; D 658155 21; D 592601 21; D 528534 21; D 482179 21; D 425077 21; D 372452 21; D 324707 21; D 281947 21;
   D 244051 21; D 210735 21; D 181627 21; D 15631 22; D 13436 22; D 115372 21; D 989733 20; D 848274 20; D 726357 20; D 621369 20; D 53103 21;
   D 453361 20; D 386644 20; D 329391 20; D 280309 20; D 238277 20; D 202325 20; D 17161 21; D 145398 20; D 123059 20; D 104041 20; D 878717 19;
   D 741398 19; D 624917 19; D 526225 19; D 442698 19; D 372084 19; D 312448 19; D 262136 19; D 219731 19; D 184026 19; D 153988 19; D 128741 19;
   D 107539 19; D 897472 18; D 748287 18; D 623283 18; D 518607 18; D 431007 18; D 357733 18; D 29647 19; D 245266 18; D 20248 19; D 166732 18;
   D 136865 18; D 11191 19; D 910568 17; D 736291 17; D 590672 17; D 469097 17; D 367805 17; D 283787 17; D 214717 17; D 158899 17; D 115238 17;
   D 832405 16];
  [D 205507 20; D 187489 21; D 472997 21; D 761609 21; D 100438 22; D 119107 22; D 132502 22; D 141796 22; D 148228 22; D 152519 22; D 155141 22;
   D 15658 23; D 157314 22; D 157629 22; D 157654 22; D 15742 23; D 156987 22; D 156405 22; D 155655 22; D 154705 22; D 153575 22; D 152281 22;
   D 150782 22; D 149012 22; D 146928 22; D 144501 22; D 141661 22; D 138314 22; D 134379 22; D 129802 22; D 124537 22; D 118551 22; D 111858 22;
   D 104529 22; D 9669 23; D 885032 21; D 801635 21; D 718793 21; D 656907 21; D 581152 21; D 510573 21; D 445964 21; D 387696 21; D 335784 21;
   D 289983 21; D 249871 21; D 214937 21; D 184633 21; D 158421 21; D 135794 21; D 116288 21; D 994899 20; D 850373 20; D 726124 20; D 619395 20;
   D 527795 20; D 449254 20; D 381978 20; D 324414 20; D 275216 20; D 233218 20; D 197409 20; D 166914 20; D 140978 20; D 118945 20; D 100252 20;
   D 844098 19; D 710006 19; D 596635 19; D 500892 19; D 420121 19; D 352055 19; D 294754 19; D 246562 19; D 206071 19; D 17208 20; D 143571 19;
   D 119681 19; D 996764 18; D 829382 18; D 68943 19; D 572488 18; D 47483 19; D 393318 18; D 325312 18; D 268592 18; D 221297 18; D 181865 18;
   D 14899 19; D 121579 18; D 987196 17; D 796554 17; D 637589 17; D 505143 17; D 395018 17; D 303867 17; D 229103 17; D 168828 17; D 121804 17;
   D 874432 16];
  [D 267017 20; D 241513 21; D 605371 21; D 97059 22; D 127616 22; D 150984 22; D 167654 22; D 179178 22; D 18712 23; D 192373 22; D 195538 22;
   D 197252 22; D 198114 22; D 198466 22; D 198454 22; D 198116 22; D 197538 22; D 196769 22; D 195778 22; D 194529 22; D 193057 22; D 191372 22;
   D 189407 22; D 18708 23; D 184345 22; D 181155 22; D 17741 23; D 172989 22; D 167795 22; D 161764 22; D 154836 22; D 146984 22; D 138243 22;
   D 128729 22; D 118617 22; D 108133 22; D 975366 21; D 870957 21; D 793935 21; D 699849 21; D 612811 21; D 533648 21; D 462661 21; D 399732 21;
   D 344442 21; D 296192 21; D 254296 21; D 218046 21; D 186759 21; D 159802 21; D 136606 21; D 116664 21; D 995354 20; D 848348 20; D 722289 20;
   D 614291 20; D 52186 21; D 442835 20; D 375348 20; D 317784 20; D 268742 20; D 227014 20; D 191552 20; D 161453 20; D 135939 20; D 114337 20;
   D 9607 21; D 806408 19; D 676238 19; D 566542 19; D 4742 21; D 396549 19; D 331319 19; D 276576 19; D 230678 19; D 192232 19; D 160055 19;
   D 133148 19; D 110666 19; D 91895 19; D 762334 18; D 631746 18; D 522924 18; D 432285 18; D 356825 18; D 29402 19; D 241762 18; D 198284 18;
   D 162111 18; D 132012 18; D 106963 18; D 861158 17; D 687682 17; D 543441 17; D 423763 17; D 324929 17; D 244059 17; D 179032 17; D 128451 17;
   D 916152 16];
  [D 346814 20; D 311002 21; D 774578 21; D 123664 22; D 162118 22; D 191362 22; D 212101 22; D 226391 22; D 236195 22; D 242621 22; D 246438 22;
   D 248479 22; D 249486 22; D 249875 22; D 249805 22; D 249328 22; D 248559 22; D 247544 22; D 246234 22; D 244595 22; D 242681 22; D 240483 22;
   D 237906 22; D 234849 22; D 231261 22; D 227068 22; D 222129 22; D 216291 22; D 209441 22; D 201499 22; D 192394 22; D 182107 22; D 170713 22;
   D 158387 22; D 145374 22; D 131981 22; D 118552 22; D 105428 22; D 958695 21; D 842117 21; D 735013 21; D 638201 21; D 55186 22; D 475675 21;
   D 409002 21; D 351013 21; D 300801 21; D 257457 21; D 220126 21; D 188022 21; D 160444 21; D 136776 21; D 11648 22; D 990915 20; D 842067 20;
   D 714776 20; D 606033 20; D 51324 21; D 434151 20; D 366824 20; D 309582 20; D 260975 20; D 219755 20; D 184843 20; D 15531 21; D 130359 20;
   D 109305 20; D 915595 19; D 766206 19; D 640583 19; D 535061 19; D 446517 19; D 372295 19; D 31014 20; D 258138 19; D 214672 19; D 178372 19;
   D 148082 19; D 122826 19; D 101785 19; D 842659 18; D 696896 18; D 575684 18; D 47494 19; D 391242 18; D 321728 18; D 264008 18; D 216086 18;
   D 176297 18; D 143258 18; D 115819 18; D 930293 17; D 741039 17; D 58401 18; D 454014 17; D 346918 17; D 259514 17; D 189441 17; D 13512 18;
   D 957126 16];
  [D 450295 20; D 400355 21; D 990814 21; D 157527 22; D 205909 22; D 242497 22; D 268296 22; D 286016 22; D 298113 22; D 305969 22; D 310566 22;
   D 312995 22; D 314171 22; D 314592 22; D 314435 22; D 313771 22; D 312751 22; D 311412 22; D 309681 22; D 307537 22; D 305049 22; D 302179 22;
   D 298798 22; D 294785 22; D 290079 22; D 284566 22; D 278051 22; D 270346 22; D 261319 22; D 250869 22; D 238914 22; D 225458 22; D 210636 22;
   D 194699 22; D 177991 22; D 160926 22; D 143951 22; D 13117 23; D 115667 22; D 101255 22; D 881018 21; D 762833 21; D 657971 21; D 56585 22;
   D 485529 21; D 415887 21; D 35574 22; D 303938 21; D 25941 22; D 221185 21; D 188406 21; D 160322 21; D 13628 22; D 115717 21; D 981465 20;
   D 831478 20; D 703589 20; D 594668 20; D 502017 20; D 423303 20; D 356517 20; D 299924 20; D 25203 21; D 211552 20; D 177383 20; D 148577 20;
   D 124322 20; D 103923 20; D 867859 19; D 724064 19; D 603536 19; D 502617 19; D 418202 19; D 347663 19; D 288773 19; D 239654 19; D 19872 20;
   D 164636 19; D 136278 19; D 112701 19; D 931134 18; D 7685 20; D 633545 18; D 521613 18; D 428815 18; D 351904 18; D 288175 18; D 235372 18;
   D 191621 18; D 155365 18; D 125318 18; D 100412 18; D 797717 17; D 626839 17; D 485714 17; D 369746 17; D 275375 17; D 199974 17; D 141749 17;
   D 996895 16];
  [D 584439 20; D 515217 21; D 126708 22; D 20062 23; D 261481 22; D 307248 22; D 339337 22; D 361306 22; D 37623 23; D 385826 22; D 391359 22;
   D 394247 22; D 395616 22; D 396061 22; D 395776 22; D 394863 22; D 393513 22; D 391746 22; D 389463 22; D 386664 22; D 383429 22; D 379681 22;
   D 375243 22; D 369978 22; D 363807 22; D 356553 22; D 347961 22; D 337798 22; D 325912 22; D 312172 22; D 296494 22; D 278923 22; D 259677 22;
   D 239116 22; D 217713 22; D 196021 22; D 174619 22; D 158702 22; D 139441 22; D 121662 22; D 10554 23; D 911359 21; D 784178 21; D 672909 21;
   D 576229 21; D 492646 21; D 420635 21; D 358748 21; D 305651 21; D 260152 21; D 2212 23; D 187883 21; D 15941 22; D 1351 23; D 114365 21;
   D 966979 20; D 816623 20; D 688818 20; D 58032 21; D 488331 20; D 410441 20; D 344577 20; D 288955 20; D 242044 20; D 202529 20; D 169288 20;
   D 141357 20; D 117917 20; D 982682 19; D 818161 19; D 680555 19; D 565583 19; D 46962 20; D 389601 19; D 32294 20; D 267457 19; D 221318 19;
   D 182982 19; D 151153 19; D 124747 19; D 102855 19; D 847172 18; D 696975 18; D 572661 18; D 469813 18; D 384749 18; D 314409 18; D 256247 18;
   D 208154 18; D 168382 18; D 135486 18; D 108275 18; D 857731 17; D 671873 17; D 51876 18; D 393294 17; D 291535 17; D 210543 17; D 148272 17;
   D 103503 17];
  [D 758275 20; D 662827 21; D 161995 22; D 255447 22; D 331994 22; D 389228 22; D 429136 22; D 456371 22; D 474775 22; D 486488 22; D 49314 23;
   D 496571 22; D 498161 22; D 498616 22; D 498145 22; D 496902 22; D 495119 22; D 492788 22; D 489781 22; D 486133 22; D 481926 22; D 477027 22;
   D 471203 22; D 464301 22; D 456206 22; D 446661 22; D 435329 22; D 421936 22; D 406296 22; D 388247 22; D 367711 22; D 344805 22; D 319863 22;
   D 293393 22; D 26604 23; D 238536 22; D 21162 23; D 191851 22; D 167975 22; D 146087 22; D 126361 22; D 108832 22; D 93426 22; D 799996 21;
   D 683715 21; D 583459 21; D 497282 21; D 423372 21; D 360075 21; D 305928 21; D 259651 21; D 220136 21; D 186424 21; D 157692 21; D 13323 22;
   D 112426 21; D 947555 20; D 797647 20; D 67064 21; D 563179 20; D 472378 20; D 395756 20; D 331186 20; D 276844 20; D 231167 20; D 192824 20;
   D 160676 20; D 133754 20; D 111235 20; D 924194 19; D 767161 19; D 636237 19; D 527193 19; D 43646 20; D 361035 19; D 298391 19; D 246408 19;
   D 203307 19; D 167599 19; D 138036 19; D 113579 19; D 933579 18; D 766482 18; D 628469 18; D 514523 18; D 420475 18; D 342862 18; D 278818 18;
   D 225967 18; D 18235 19; D 146345 18; D 116625 18; D 921046 17; D 719005 17; D 553009 17; D 417422 17; D 30787 18; D 221052 17; D 154622 17;
   D 107117 17];
  [D 983515 20; D 852467 21; D 207056 22; D 325192 22; D 421448 22; D 493007 22; D 542633 22; D 576394 22; D 59908 23; D 613366 22; D 621359 22;
   D 625432 22; D 62727 23; D 62771 23; D 626978 22; D 625299 22; D 622947 22; D 619871 22; D 615918 22; D 611171 22; D 605698 22; D 59929 23;
   D 591649 22; D 582606 22; D 571986 22; D 559421 22; D 544481 22; D 526843 22; D 506278 22; D 482589 22; D 455729 22; D 42592 23; D 39366 23;
   D 359656 22; D 32478 23; D 289993 22; D 263546 22; D 231737 22; D 202203 22; D 175308 22; D 151214 22; D 129912 22; D 111271 22; D 950841 21;
   D 811082 21; D 690883 21; D 587798 21; D 499554 21; D 424116 21; D 359693 21; D 304727 21; D 257871 21; D 217967 21; D 184018 21; D 155167 21;
   D 130678 21; D 109917 21; D 923406 20; D 774791 20; D 649307 20; D 543497 20; D 454399 20; D 379473 20; D 316549 20; D 263773 20; D 219564 20;
   D 182578 20; D 15167 21; D 125873 20; D 104365 20; D 86452 20; D 715496 19; D 591641 19; D 488804 19; D 403499 19; D 3328 21; D 274256 19;
   D 225819 19; D 185774 19; D 152691 19; D 125379 19; D 102844 19; D 842616 18; D 68945 19; D 563253 18; D 459304 18; D 373694 18; D 303192 18;
   D 245131 18; D 197307 18; D 157911 18; D 125464 18; D 98756 18; D 768065 17; D 588279 17; D 441965 17; D 324246 17; D 231402 17; D 160742 17;
   D 110506 17];
  [D 127528 21; D 109604 22; D 264587 22; D 413897 22; D 534915 22; D 624363 22; D 686068 22; D 727915 22; D 75587 23; D 773277 22; D 782873 22;
   D 787703 22; D 789821 22; D 790207 22; D 789111 22; D 786859 22; D 783758 22; D 779702 22; D 774514 22; D 768344 22; D 761221 22; D 752834 22;
   D 742813 22; D 730969 22; D 717031 22; D 700489 22; D 680801 22; D 657591 22; D 630569 22; D 599511 22; D 564428 22; D 525706 22; D 484063 22;
   D 440476 22; D 396114 22; D 352221 22; D 319248 22; D 279702 22; D 243244 22; D 210257 22; D 180872 22; D 155018 22; D 132485 22; D 112986 22;
   D 961985 21; D 817948 21; D 694676 21; D 589348 21; D 499461 21; D 422829 21; D 357556 21; D 302009 21; D 254788 21; D 214686 21; D 18067 22;
   D 151852 21; D 12747 22; D 106869 21; D 894858 20; D 748386 20; D 625138 20; D 521574 20; D 434669 20; D 36184 21; D 300886 20; D 249937 20;
   D 207402 20; D 171934 20; D 142394 20; D 117818 20; D 973938 19; D 804384 19; D 663766 19; D 54726 20; D 45082 20; D 371063 19; D 305159 19;
   D 250746 19; D 205856 19; D 168848 19; D 138359 19; D 113255 19; D 925971 18; D 756048 18; D 616327 18; D 501469 18; D 407065 18; D 329478 18;
   D 265706 18; D 213284 18; D 170193 18; D 134783 18; D 105708 18; D 81883 18; D 624357 17; D 466741 17; D 340521 17; D 241502 17; D 166584 17;
   D 113653 17];
  [D 165311 21; D 140879 22; D 338022 22; D 526695 22; D 678817 22; D 790603 22; D 867321 22; D 919183 22; D 953616 22; D 97481 23; D 986323 22;
   D 992045 22; D 994471 22; D 994745 22; D 993149 22; D 990143 22; D 98606 23; D 98071 23; D 973917 22; D 965904 22; D 956627 22; D 945644 22;
   D 93251 23; D 917002 22; D 898703 22; D 876922 22; D 850992 22; D 820471 22; D 784992 22; D 744315 22; D 698564 22; D 648355 22; D 594709 22;
   D 53896 23; D 482662 22; D 427412 22; D 38641 23; D 337351 22; D 292433 22; D 252043 22; D 216257 22; D 184914 22; D 157703 22; D 134231 22;
   D 114076 22; D 968224 21; D 820856 21; D 695168 21; D 588089 21; D 496954 21; D 419458 21; D 353626 21; D 297759 21; D 250403 21; D 21031 22;
   D 17641 22; D 147786 21; D 123648 21; D 103323 21; D 862333 20; D 71883 21; D 598502 20; D 497744 20; D 413486 20; D 343118 20; D 284425 20;
   D 23553 21; D 194847 20; D 161035 20; D 132965 20; D 109688 20; D 904044 19; D 744461 19; D 612522 19; D 50354 20; D 413601 19; D 33944 20;
   D 278339 19; D 228037 19; D 186655 19; D 152632 19; D 124676 19; D 101719 19; D 828732 18; D 674085 18; D 547212 18; D 443141 18; D 357775 18;
   D 287749 18; D 230304 18; D 183188 18; D 144563 18; D 112936 18; D 871028 17; D 661001 17; D 491548 17; D 356556 17; D 251274 17; D 172114 17;
   D 116546 17]].

(** sigma_nubar_n, ParamTables.cxx:15956-18251 *)
Definition sigma_nubar_neutron : list (list decimal) := [
  [D 142776 6; D 145688 7; D 54919 8; D 144537 8; D 311033 8; D 586066 8; D 100268 9; D 159519 9; D 239765 9; D 344118 9; D 475834 9; D 637383 9;
   D 830405 9; D 105635 10; D 131656 10; D 161172 10; D 194162 10; D 230555 10; D 270251 10; D 313131 10; D 359059 10; D 407857 10; D 459304 10;
   D 513161 10; D 569167 10; D 627063 10; D 68658 11; D 747441 10; D 809355 10; D 872036 10; D 935197 10; D 998558 10; D 106185 11; D 11248 12;
   D 118718 11; D 124874 11; D 130924 11; D 136847 11; D 142622 11; D 148231 11; D 153657 11; D 158884 11; D 163895 11; D 168676 11; D 173217 11;
   D 177507 11; D 181537 11; D 185295 11; D 188776 11; D 191972 11; D 194879 11; D 197494 11; D 199812 11; D 201833 11; D 203553 11; D 204973 11;
   D 206094 11; D 206917 11; D 207445 11; D 20768 12; D 207627 11; D 20729 12; D 206675 11; D 205788 11; D 204635 11; D 203223 11; D 20156 12;
   D 199655 11; D 197515 11; D 195149 11; D 192569 11; D 189782 11; D 186801 11; D 183636 11; D 1803 13; D 176803 11; D 17316 12; D 169385 11;
   D 165492 11; D 161497 11; D 157416 11; D 153266 11; D 149065 11; D 144833 11; D 14059 12; D 136359 11; D 132163 11; D 128028 11; D 123978 11;
   D 120044 11; D 116255 11; D 112645 11; D 109246 11; D 106097 11; D 103237 11; D 100708 11; D 985557 10; D 96828 11; D 955763 10; D 94856 11];
  [D 232805 6; D 233388 7; D 887521 7; D 235372 8; D 508789 8; D 960124 8; D 164337 9; D 261358 9; D 392314 9; D 562294 9; D 775985 9; D 103621 10;
   D 134554 10; D 170625 10; D 211966 10; D 258553 10; D 310282 10; D 367011 10; D 428572 10; D 494745 10; D 565229 10; D 639676 10; D 717704 10;
   D 798913 10; D 882901 10; D 969244 10; D 10575 12; D 114722 11; D 123796 11; D 132928 11; D 142078 11; D 151204 11; D 160269 11; D 169234 11;
   D 178064 11; D 186726 11; D 195189 11; D 203426 11; D 211411 11; D 219116 11; D 22652 12; D 233604 11; D 240349 11; D 246743 11; D 252766 11;
   D 258407 11; D 263655 11; D 268503 11; D 272943 11; D 27697 12; D 280578 11; D 283765 11; D 286529 11; D 288871 11; D 290793 11; D 292294 11;
   D 293379 11; D 294054 11; D 294326 11; D 294199 11; D 29368 12; D 292778 11; D 291501 11; D 289858 11; D 287858 11; D 285512 11; D 282829 11;
   D 279822 11; D 276502 11; D 272879 11; D 268966 11; D 264777 11; D 260328 11; D 255631 11; D 250701 11; D 245555 11; D 240209 11; D 234681 11;
   D 228991 11; D 223159 11; D 217205 11; D 211154 11; D 205029 11; D 198858 11; D 192668 11; D 18649 12; D 180357 11; D 174302 11; D 168365 11;
   D 162585 11; D 157007 11; D 151676 11; D 146643 11; D 141962 11; D 137692 11; D 133894 11; D 130636 11; D 127991 11; D 126035 11; D 124853 11];
  [D 374565 6; D 369656 7; D 141537 8; D 377391 8; D 818272 8; D 154615 9; D 264672 9; D 420531 9; D 630319 9; D 901834 9; D 124091 10; D 165133 10;
   D 213737 10; D 270131 10; D 334334 10; D 406201 10; D 485544 10; D 572109 10; D 665549 10; D 76539 11; D 871103 10; D 982091 10; D 109776 11;
   D 121747 11; D 134056 11; D 146636 11; D 159417 11; D 172334 11; D 185322 11; D 198319 11; D 211268 11; D 224109 11; D 236787 11; D 249253 11;
   D 261461 11; D 273371 11; D 284937 11; D 296125 11; D 3069 13; D 317236 11; D 327108 11; D 336487 11; D 345353 11; D 353689 11; D 361482 11;
   D 368718 11; D 37539 12; D 381484 11; D 386999 11; D 39193 12; D 396279 11; D 400042 11; D 403223 11; D 405827 11; D 407861 11; D 409332 11;
   D 410246 11; D 410612 11; D 410441 11; D 409743 11; D 408529 11; D 40681 12; D 404598 11; D 401906 11; D 398744 11; D 395125 11; D 391064 11;
   D 386577 11; D 381677 11; D 376377 11; D 370693 11; D 364642 11; D 358239 11; D 351504 11; D 344455 11; D 337112 11; D 329495 11; D 321627 11;
   D 313534 11; D 305241 11; D 296777 11; D 28817 12; D 279455 11; D 270668 11; D 261845 11; D 253029 11; D 244265 11; D 235601 11; D 22709 12;
   D 218789 11; D 210759 11; D 203067 11; D 195785 11; D 188992 11; D 182772 11; D 177216 11; D 172425 11; D 168505 11; D 165573 11; D 163754 11];
  [D 59313 7; D 5779 9; D 222629 8; D 596488 8; D 129675 9; D 245219 9; D 419587 9; D 665702 9; D 996186 9; D 142172 10; D 194932 10; D 258546 10;
   D 333507 10; D 41992 11; D 517621 10; D 626351 10; D 745751 10; D 875294 10; D 101428 11; D 11619 12; D 131724 11; D 147941 11; D 164743 11;
   D 182029 11; D 199696 11; D 217642 11; D 235769 11; D 253982 11; D 272191 11; D 290309 11; D 308251 11; D 325939 11; D 343306 11; D 36029 12;
   D 376823 11; D 392851 11; D 408326 11; D 423209 11; D 437459 11; D 451036 11; D 463911 11; D 476063 11; D 487468 11; D 498115 11; D 50798 12;
   D 517059 11; D 525343 11; D 532834 11; D 539524 11; D 545418 11; D 550523 11; D 554849 11; D 558401 11; D 56119 12; D 563229 11; D 564529 11;
   D 565106 11; D 564971 11; D 564139 11; D 562626 11; D 560444 11; D 557608 11; D 554133 11; D 55004 12; D 54534 12; D 540049 11; D 53418 12;
   D 527753 11; D 520783 11; D 513287 11; D 505285 11; D 496792 11; D 48783 12; D 478422 11; D 468588 11; D 458354 11; D 447744 11; D 436789 11;
   D 425519 11; D 413967 11; D 40217 12; D 390168 11; D 378004 11; D 365725 11; D 353383 11; D 341032 11; D 328735 11; D 316557 11; D 304572 11;
   D 292858 11; D 281501 11; D 270597 11; D 260248 11; D 250566 11; D 241674 11; D 233705 11; D 226805 11; D 221132 11; D 21686 12; D 214176 11];
  [D 923723 6; D 890537 7; D 345617 8; D 931109 8; D 202825 9; D 383582 9; D 655624 9; D 103853 10; D 155093 10; D 220605 10; D 3014 12; D 398425 10;
   D 511993 10; D 642021 10; D 788126 10; D 949847 10; D 112642 11; D 131684 11; D 151986 11; D 173416 11; D 195837 11; D 219104 11; D 243064 11;
   D 267564 11; D 292451 11; D 317583 11; D 342822 11; D 368035 11; D 393091 11; D 417874 11; D 442278 11; D 466208 11; D 489564 11; D 512263 11;
   D 534234 11; D 55542 12; D 575752 11; D 595179 11; D 613657 11; D 631157 11; D 647645 11; D 663098 11; D 677493 11; D 690819 11; D 703073 11;
   D 714246 11; D 724339 11; D 733363 11; D 741329 11; D 748247 11; D 754129 11; D 758993 11; D 762858 11; D 76574 12; D 767659 11; D 768634 11;
   D 768683 11; D 767822 11; D 766071 11; D 763454 11; D 759989 11; D 755691 11; D 750575 11; D 744661 11; D 737965 11; D 730508 11; D 722302 11;
   D 713368 11; D 703724 11; D 69339 12; D 682385 11; D 670729 11; D 658448 11; D 645566 11; D 63211 12; D 618109 11; D 603597 11; D 588608 11;
   D 573181 11; D 557358 11; D 541186 11; D 524715 11; D 508002 11; D 491107 11; D 474098 11; D 45705 12; D 440044 11; D 423171 11; D 406531 11;
   D 390231 11; D 374394 11; D 35915 12; D 344646 11; D 331041 11; D 318512 11; D 307251 11; D 297471 11; D 289403 11; D 283303 11; D 27945 12];
  [D 141581 7; D 135718 8; D 531402 8; D 143611 9; D 313246 9; D 59233 10; D 101105 10; D 159888 10; D 238116 10; D 337456 10; D 459477 10; D 605138 10;
   D 774444 10; D 967022 10; D 118222 11; D 141905 11; D 167604 11; D 19514 12; D 224317 11; D 254935 11; D 286775 11; D 319609 11; D 353212 11;
   D 387362 11; D 421849 11; D 456472 11; D 491036 11; D 525355 11; D 559265 11; D 592622 11; D 625279 11; D 657105 11; D 687991 11; D 717848 11;
   D 746579 11; D 774103 11; D 800359 11; D 825299 11; D 848881 11; D 87106 12; D 891816 11; D 91113 12; D 929002 11; D 945414 11; D 960381 11;
   D 973919 11; D 986044 11; D 99677 12; D 100612 12; D 101413 12; D 102081 12; D 10262 13; D 103032 12; D 10332 13; D 103485 12; D 103532 12;
   D 103463 12; D 103279 12; D 102984 12; D 102579 12; D 102066 12; D 101448 12; D 100725 12; D 999011 11; D 989765 11; D 979537 11; D 968344 11;
   D 956203 11; D 943134 11; D 92916 12; D 914303 11; D 898588 11; D 882042 11; D 864692 11; D 846573 11; D 827718 11; D 808165 11; D 787957 11;
   D 767141 11; D 745768 11; D 723897 11; D 70159 12; D 678919 11; D 655964 11; D 632811 11; D 609561 11; D 586321 11; D 563212 11; D 54037 12;
   D 517945 11; D 496102 11; D 475025 11; D 454921 11; D 436014 11; D 418557 11; D 402826 11; D 389127 11; D 3778 13; D 369217 11; D 36379 12];
  [D 213838 7; D 205304 8; D 807883 8; D 219248 9; D 478582 9; D 904183 9; D 154093 10; D 243191 10; D 360928 10; D 509671 10; D 691493 10; D 906996 10;
   D 115583 11; D 143715 11; D 174979 11; D 209165 11; D 246025 11; D 28527 12; D 326608 11; D 369717 11; D 414264 11; D 459916 11; D 506348 11;
   D 553258 11; D 600352 11; D 647342 11; D 69397 12; D 740008 11; D 785245 11; D 829472 11; D 872515 11; D 914236 11; D 9545 13; D 993175 11;
   D 103017 12; D 106541 12; D 109883 12; D 113037 12; D 116 15; D 11877 13; D 121345 12; D 123725 12; D 125912 12; D 127908 12; D 129715 12;
   D 131337 12; D 132778 12; D 13404 13; D 135129 12; D 136047 12; D 1368 14; D 13739 13; D 137821 12; D 138098 12; D 138224 12; D 138202 12;
   D 138034 12; D 137724 12; D 137273 12; D 136685 12; D 13596 13; D 135102 12; D 134113 12; D 132993 12; D 131745 12; D 130371 12; D 128872 12;
   D 127252 12; D 12551 13; D 123651 12; D 121677 12; D 11959 13; D 117393 12; D 115089 12; D 112682 12; D 110176 12; D 107575 12; D 104884 12;
   D 102108 12; D 992545 11; D 963296 11; D 933413 11; D 902987 11; D 872118 11; D 840919 11; D 809518 11; D 77806 12; D 746705 11; D 715636 11;
   D 685056 11; D 655195 11; D 626309 11; D 598683 11; D 572636 11; D 548526 11; D 526747 11; D 507741 11; D 491997 11; D 480056 11; D 472522 11];
  [D 318714 7; D 307724 8; D 121819 9; D 331368 9; D 723712 9; D 136594 10; D 232368 10; D 365753 10; D 54079 11; D 760986 10; D 102842 11; D 134315 11;
   D 170429 11; D 211028 11; D 255861 11; D 304571 11; D 356751 11; D 411972 11; D 469773 11; D 529666 11; D 591165 11; D 653798 11; D 717126 11;
   D 780719 11; D 844164 11; D 907096 11; D 969197 11; D 103015 12; D 108967 12; D 114754 12; D 120356 12; D 125752 12; D 130928 12; D 135872 12;
   D 140574 12; D 145026 12; D 149222 12; D 153158 12; D 156835 12; D 160249 12; D 163404 12; D 166306 12; D 168956 12; D 171359 12; D 173522 12;
   D 175451 12; D 177151 12; D 178628 12; D 179889 12; D 180937 12; D 18178 13; D 182424 12; D 182872 12; D 183129 12; D 183198 12; D 183083 12;
   D 182788 12; D 182316 12; D 181668 12; D 180847 12; D 179856 12; D 178696 12; D 17737 13; D 175879 12; D 174225 12; D 172409 12; D 170435 12;
   D 168304 12; D 166019 12; D 16358 13; D 160991 12; D 158255 12; D 155373 12; D 152351 12; D 14919 13; D 145895 12; D 142472 12; D 138925 12;
   D 135261 12; D 131487 12; D 127612 12; D 123644 12; D 119596 12; D 115479 12; D 111309 12; D 107101 12; D 102875 12; D 986526 11; D 944575 11;
   D 903179 11; D 862651 11; D 823344 11; D 785657 11; D 750038 11; D 716987 11; D 687065 11; D 660903 11; D 6392 13; D 622741 11; D 612395 11];
  [D 470451 7; D 456835 8; D 182141 9; D 496578 9; D 108418 10; D 204358 10; D 347018 10; D 54438 11; D 801914 10; D 11243 12; D 151303 11; D 196744 11;
   D 248578 11; D 3065 13; D 370041 11; D 438627 11; D 511645 11; D 588434 11; D 668291 11; D 750508 11; D 834402 11; D 919333 11; D 100468 12;
   D 108984 12; D 117431 12; D 125763 12; D 133934 12; D 141906 12; D 149648 12; D 157132 12; D 164331 12; D 171227 12; D 177804 12; D 18405 13;
   D 189953 12; D 19551 13; D 200718 12; D 205575 12; D 210085 12; D 214254 12; D 218088 12; D 221593 12; D 22478 13; D 227656 12; D 23023 13;
   D 232513 12; D 234511 12; D 236233 12; D 237691 12; D 238889 12; D 239835 12; D 240535 12; D 240994 12; D 241218 12; D 241211 12; D 240977 12;
   D 24052 13; D 239842 12; D 238945 12; D 237833 12; D 236508 12; D 234972 12; D 233226 12; D 231274 12; D 229116 12; D 226754 12; D 22419 13;
   D 221426 12; D 218463 12; D 215302 12; D 211947 12; D 208399 12; D 20466 13; D 200733 12; D 196623 12; D 192332 12; D 187866 12; D 183231 12;
   D 178433 12; D 173481 12; D 168384 12; D 163153 12; D 157804 12; D 15235 13; D 146811 12; D 141209 12; D 135568 12; D 129916 12; D 124287 12;
   D 118718 12; D 113252 12; D 107938 12; D 102829 12; D 979894 11; D 93488 12; D 894041 11; D 858268 11; D 828558 11; D 806032 11; D 791944 11];
  [D 691137 7; D 674178 8; D 270114 9; D 73787 10; D 161083 10; D 303068 10; D 513523 10; D 802594 10; D 117799 11; D 164499 11; D 220408 11;
   D 28535 12; D 359 14; D 440761 11; D 529856 11; D 625423 11; D 726522 11; D 832151 11; D 941289 11; D 105294 12; D 116618 12; D 128011 12;
   D 139387 12; D 150672 12; D 161802 12; D 172711 12; D 183346 12; D 193666 12; D 203628 12; D 213198 12; D 222353 12; D 231072 12; D 239338 12;
   D 247141 12; D 254477 12; D 261342 12; D 26774 13; D 273681 12; D 279171 12; D 284221 12; D 288846 12; D 293058 12; D 29687 13; D 300297 12;
   D 30335 13; D 306043 12; D 308391 12; D 310403 12; D 312088 12; D 313457 12; D 314518 12; D 315278 12; D 315744 12; D 315921 12; D 315814 12;
   D 315426 12; D 314763 12; D 313827 12; D 312621 12; D 311148 12; D 309412 12; D 307412 12; D 305153 12; D 302634 12; D 299858 12; D 296825 12;
   D 293536 12; D 289991 12; D 286192 12; D 282139 12; D 277833 12; D 273274 12; D 268465 12; D 263408 12; D 258104 12; D 252558 12; D 246773 12;
   D 240755 12; D 234512 12; D 228052 12; D 221388 12; D 214532 12; D 207502 12; D 200318 12; D 193003 12; D 185585 12; D 178097 12; D 170575 12;
   D 163065 12; D 155616 12; D 148285 12; D 141139 12; D 134253 12; D 127713 12; D 121616 12; D 116073 12; D 111209 12; D 107165 12; D 104101 12;
   D 102195 12];
  [D 100942 8; D 989076 8; D 398074 9; D 108854 10; D 237398 10; D 44594 11; D 753461 10; D 117313 11; D 171549 11; D 238538 11; D 318193 11;
   D 410168 11; D 513816 11; D 628113 11; D 751851 11; D 883742 11; D 102235 12; D 116623 12; D 131394 12; D 146411 12; D 161548 12; D 176679 12;
   D 191699 12; D 206513 12; D 221029 12; D 235175 12; D 248891 12; D 262115 12; D 274805 12; D 286928 12; D 298459 12; D 309373 12; D 319662 12;
   D 329322 12; D 338351 12; D 346762 12; D 354567 12; D 361779 12; D 368419 12; D 374505 12; D 380058 12; D 385098 12; D 389644 12; D 393714 12;
   D 397333 12; D 400514 12; D 403271 12; D 405619 12; D 407571 12; D 409138 12; D 410329 12; D 411153 12; D 411617 12; D 411727 12; D 411489 12;
   D 410909 12; D 40999 13; D 408737 12; D 407154 12; D 405243 12; D 403007 12; D 400446 12; D 397563 12; D 394357 12; D 390829 12; D 386977 12;
   D 382802 12; D 378303 12; D 373477 12; D 368324 12; D 362842 12; D 357031 12; D 350889 12; D 344416 12; D 337614 12; D 330485 12; D 323032 12;
   D 31526 13; D 307177 12; D 298795 12; D 290124 12; D 281183 12; D 271992 12; D 262575 12; D 252963 12; D 243191 12; D 2333 14; D 223341 12;
   D 213369 12; D 203453 12; D 19367 13; D 184108 12; D 174871 12; D 166076 12; D 157859 12; D 150372 12; D 14379 13; D 138313 12; D 134165 12;
   D 131601 12];
  [D 146476 8; D 144122 9; D 582448 9; D 159437 10; D 347398 10; D 651317 10; D 109681 11; D 170131 11; D 247821 11; D 343073 11; D 455603 11;
   D 584767 11; D 729351 11; D 887725 11; D 10581 13; D 123851 12; D 142687 12; D 16211 13; D 181926 12; D 201948 12; D 221998 12; D 241921 12;
   D 261583 12; D 280851 12; D 299621 12; D 31781 13; D 335332 12; D 352129 12; D 368157 12; D 383379 12; D 397768 12; D 411316 12; D 424015 12;
   D 435875 12; D 446915 12; D 457152 12; D 466612 12; D 475325 12; D 483318 12; D 490624 12; D 497269 12; D 503282 12; D 508697 12; D 513536 12;
   D 51782 13; D 521572 12; D 524812 12; D 527557 12; D 529819 12; D 531614 12; D 532951 12; D 533841 12; D 534293 12; D 534314 12; D 533914 12;
   D 533097 12; D 53187 13; D 530237 12; D 528202 12; D 525766 12; D 522931 12; D 519697 12; D 516064 12; D 51203 13; D 507594 12; D 502751 12;
   D 497499 12; D 491834 12; D 48575 13; D 479242 12; D 472307 12; D 464939 12; D 457136 12; D 448893 12; D 44021 13; D 431088 12; D 421528 12;
   D 411537 12; D 401119 12; D 39029 13; D 379062 12; D 367454 12; D 355493 12; D 343206 12; D 330632 12; D 317815 12; D 304809 12; D 291677 12;
   D 278495 12; D 265352 12; D 252351 12; D 239611 12; D 227274 12; D 215499 12; D 204471 12; D 194404 12; D 185539 12; D 178155 12; D 172567 12;
   D 169134 12];
  [D 211139 8; D 208684 9; D 847445 9; D 232088 10; D 50494 11; D 94472 11; D 158516 11; D 244958 11; D 355335 11; D 489709 11; D 647483 11;
   D 827427 11; D 102749 12; D 124521 12; D 147791 12; D 172269 12; D 197656 12; D 223669 12; D 250042 12; D 276516 12; D 302866 12; D 328895 12;
   D 354417 12; D 379281 12; D 403367 12; D 426554 12; D 448763 12; D 469933 12; D 49001 13; D 508965 12; D 526789 12; D 543473 12; D 559039 12;
   D 573516 12; D 586931 12; D 599327 12; D 610744 12; D 621229 12; D 630823 12; D 639564 12; D 647503 12; D 654678 12; D 661121 12; D 666863 12;
   D 671937 12; D 676366 12; D 680173 12; D 683381 12; D 686004 12; D 688058 12; D 68956 13; D 690521 12; D 690953 12; D 690868 12; D 690275 12;
   D 68918 13; D 68759 13; D 68551 13; D 68294 13; D 679883 12; D 676339 12; D 672304 12; D 667777 12; D 662751 12; D 657222 12; D 651181 12;
   D 644619 12; D 637529 12; D 629899 12; D 621722 12; D 612987 12; D 603685 12; D 59381 13; D 583355 12; D 572315 12; D 56069 13; D 54848 13;
   D 535687 12; D 522318 12; D 508385 12; D 493904 12; D 478895 12; D 463387 12; D 447418 12; D 431032 12; D 414285 12; D 397246 12; D 379998 12;
   D 362638 12; D 345284 12; D 328074 12; D 311169 12; D 294758 12; D 279058 12; D 264323 12; D 250844 12; D 238957 12; D 229045 12; D 22155 13;
   D 216972 12];
  [D 302362 8; D 300954 9; D 122619 10; D 335783 10; D 72944 11; D 136158 11; D 227566 11; D 35034 12; D 505982 11; D 694195 11; D 913851 11;
   D 116269 12; D 143748 12; D 173462 12; D 205009 12; D 237973 12; D 271938 12; D 306524 12; D 34136 13; D 376111 12; D 410495 12; D 444243 12;
   D 477133 12; D 508995 12; D 539658 12; D 569007 12; D 596957 12; D 623433 12; D 6484 14; D 671845 12; D 693763 12; D 714192 12; D 733168 12;
   D 750743 12; D 766976 12; D 781928 12; D 795666 12; D 808245 12; D 819729 12; D 830188 12; D 839666 12; D 848212 12; D 855872 12; D 862689 12;
   D 868692 12; D 873919 12; D 878392 12; D 882137 12; D 885179 12; D 887537 12; D 88923 13; D 890277 12; D 890692 12; D 890489 12; D 889677 12;
   D 888264 12; D 886257 12; D 883657 12; D 880466 12; D 876683 12; D 872304 12; D 867323 12; D 861731 12; D 855516 12; D 848668 12; D 841173 12;
   D 833014 12; D 824177 12; D 814647 12; D 804407 12; D 793443 12; D 78174 13; D 769288 12; D 756077 12; D 742095 12; D 727336 12; D 711797 12;
   D 695476 12; D 678379 12; D 660515 12; D 641901 12; D 622559 12; D 602522 12; D 581833 12; D 56055 13; D 538741 12; D 516494 12; D 493917 12;
   D 471137 12; D 448309 12; D 425614 12; D 403269 12; D 381525 12; D 360676 12; D 341066 12; D 323091 12; D 307211 12; D 293956 12; D 283937 12;
   D 277852 12];
  [D 43028 9; D 431977 9; D 17642 11; D 4832 12; D 10479 12; D 195037 11; D 324703 11; D 497938 11; D 71591 12; D 977829 11; D 12816 13; D 162337 12;
   D 19983 13; D 240107 12; D 282583 12; D 326671 12; D 371812 12; D 417481 12; D 463184 12; D 508506 12; D 553062 12; D 596524 12; D 638644 12;
   D 679179 12; D 717959 12; D 754865 12; D 789792 12; D 82269 13; D 853543 12; D 882351 12; D 909171 12; D 934056 12; D 957083 12; D 978342 12;
   D 997919 12; D 101591 13; D 103239 13; D 104746 13; D 106121 13; D 10737 14; D 1085 15; D 109517 13; D 110428 13; D 111236 13; D 111946 13;
   D 112562 13; D 113087 13; D 113525 13; D 113879 13; D 114151 13; D 114344 13; D 114461 13; D 114502 13; D 114469 13; D 114365 13; D 114188 13;
   D 11394 14; D 113621 13; D 11323 14; D 112768 13; D 112232 13; D 111621 13; D 110935 13; D 11017 14; D 109326 13; D 108399 13; D 107388 13;
   D 10629 14; D 105103 13; D 103824 13; D 102453 13; D 100985 13; D 994207 12; D 977566 12; D 959912 12; D 941232 12; D 921516 12; D 900757 12;
   D 878955 12; D 856115 12; D 832253 12; D 807395 12; D 781577 12; D 754852 12; D 727289 12; D 698978 12; D 670028 12; D 640577 12; D 610791 12;
   D 58087 13; D 551054 12; D 521625 12; D 49292 13; D 465333 12; D 439326 12; D 415439 12; D 394298 12; D 37663 13; D 363276 12; D 355207 12];
  [D 609531 8; D 616818 9; D 252721 10; D 6917 12; D 149725 11; D 27778 12; D 460724 11; D 703572 11; D 100697 12; D 13693 13; D 178675 12; D 225323 12;
   D 276165 12; D 330416 12; D 387247 12; D 445849 12; D 505471 12; D 565393 12; D 624994 12; D 683731 12; D 741109 12; D 796761 12; D 850342 12;
   D 901597 12; D 950352 12; D 99646 13; D 103985 13; D 108049 13; D 111839 13; D 115363 13; D 118629 13; D 121649 13; D 124434 13; D 126998 13;
   D 129353 13; D 131511 13; D 133488 13; D 135292 13; D 136935 13; D 138425 13; D 139772 13; D 140983 13; D 142064 13; D 143021 13; D 14386 14;
   D 144586 13; D 145203 13; D 145717 13; D 146131 13; D 146448 13; D 146672 13; D 146805 13; D 146849 13; D 146806 13; D 146677 13; D 146462 13;
   D 146162 13; D 145776 13; D 145303 13; D 144742 13; D 14409 14; D 143345 13; D 142505 13; D 141568 13; D 140528 13; D 139385 13; D 138135 13;
   D 136775 13; D 135301 13; D 13371 14; D 131999 13; D 130164 13; D 128203 13; D 126113 13; D 123889 13; D 121531 13; D 119035 13; D 1164 15;
   D 113626 13; D 110712 13; D 10766 14; D 104473 13; D 101155 13; D 977131 12; D 941546 12; D 90491 13; D 86736 13; D 82907 13; D 790251 12;
   D 751162 12; D 712115 12; D 673483 12; D 63571 13; D 599323 12; D 564943 12; D 533297 12; D 505237 12; D 481755 12; D 464003 12; D 453317 12];
  [D 861394 8; D 877096 9; D 360272 10; D 985431 10; D 212905 11; D 393568 11; D 650281 11; D 988703 11; D 140867 12; D 190707 12; D 247741 12;
   D 311046 12; D 379592 12; D 45224 13; D 527835 12; D 605289 12; D 683575 12; D 761757 12; D 839048 12; D 914722 12; D 988215 12; D 105905 13;
   D 112682 13; D 119128 13; D 125221 13; D 13095 14; D 136311 13; D 141304 13; D 145942 13; D 150234 13; D 154197 13; D 15785 14; D 16121 14;
   D 164295 13; D 167123 13; D 169713 13; D 17208 14; D 174237 13; D 176199 13; D 177976 13; D 179579 13; D 181018 13; D 182299 13; D 183433 13;
   D 184424 13; D 185281 13; D 186009 13; D 186615 13; D 187103 13; D 187478 13; D 187742 13; D 1879 15; D 187953 13; D 187903 13; D 187751 13;
   D 187496 13; D 187138 13; D 186676 13; D 186107 13; D 185428 13; D 184638 13; D 183732 13; D 182706 13; D 181558 13; D 180282 13; D 178876 13;
   D 177334 13; D 175653 13; D 173827 13; D 171851 13; D 169722 13; D 167433 13; D 164979 13; D 162357 13; D 159561 13; D 156588 13; D 153433 13;
   D 150094 13; D 146571 13; D 142862 13; D 138968 13; D 134893 13; D 130641 13; D 12622 14; D 121639 13; D 116912 13; D 112056 13; D 107092 13;
   D 102047 13; D 969552 12; D 918563 12; D 867993 12; D 818429 12; D 770573 12; D 725253 12; D 683448 12; D 64631 13; D 615183 12; D 59164 13;
   D 577504 12];
  [D 121365 9; D 124318 10; D 511406 10; D 139756 11; D 301292 11; D 554853 11; D 913256 11; D 138235 12; D 196065 12; D 264261 12; D 341761 12;
   D 42722 13; D 519134 12; D 615891 12; D 715914 12; D 817739 12; D 91998 13; D 102147 13; D 112115 13; D 121815 13; D 131179 13; D 140145 13;
   D 148675 13; D 156738 13; D 164313 13; D 171396 13; D 177986 13; D 184099 13; D 189749 13; D 194961 13; D 199758 13; D 204166 13; D 20821 14;
   D 211917 13; D 215313 13; D 218415 13; D 221247 13; D 223824 13; D 226164 13; D 228282 13; D 230188 13; D 231895 13; D 233414 13; D 234756 13;
   D 23593 14; D 236945 13; D 237808 13; D 238528 13; D 23911 14; D 239558 13; D 239878 13; D 240072 13; D 240143 13; D 240092 13; D 239918 13;
   D 23962 14; D 239197 13; D 238646 13; D 237963 13; D 237145 13; D 236188 13; D 235086 13; D 233836 13; D 232433 13; D 230871 13; D 229144 13;
   D 227246 13; D 225172 13; D 222913 13; D 220463 13; D 217816 13; D 214962 13; D 211896 13; D 20861 14; D 205097 13; D 201353 13; D 197371 13;
   D 193148 13; D 188682 13; D 183971 13; D 179016 13; D 173818 13; D 168383 13; D 162719 13; D 156837 13; D 150752 13; D 144487 13; D 138067 13;
   D 131527 13; D 12491 14; D 118268 13; D 111665 13; D 105179 13; D 989014 12; D 929437 12; D 874367 12; D 825348 12; D 784196 12; D 753037 12;
   D 734353 12];
  [D 17041 10; D 175536 10; D 72321 11; D 197357 11; D 424526 11; D 778714 11; D 127662 12; D 192359 12; D 271609 12; D 364455 12; D 469243 12;
   D 584036 12; D 706664 12; D 834885 12; D 966583 12; D 109977 13; D 123266 13; D 136375 13; D 149168 13; D 161544 13; D 173412 13; D 18471 14;
   D 195392 13; D 205427 13; D 214804 13; D 223519 13; D 231593 13; D 239047 13; D 245912 13; D 252223 13; D 258017 13; D 263326 13; D 26819 14;
   D 272643 13; D 276712 13; D 280426 13; D 283811 13; D 286888 13; D 289677 13; D 292195 13; D 294459 13; D 296485 13; D 298287 13; D 299879 13;
   D 301273 13; D 30248 14; D 30351 14; D 304373 13; D 305074 13; D 305619 13; D 306014 13; D 306261 13; D 306361 13; D 306315 13; D 30612 14;
   D 305776 13; D 305277 13; D 304621 13; D 303802 13; D 302816 13; D 301657 13; D 30032 14; D 298799 13; D 297087 13; D 295176 13; D 293058 13;
   D 290725 13; D 288167 13; D 285374 13; D 282337 13; D 279045 13; D 275488 13; D 271656 13; D 267541 13; D 263132 13; D 258423 13; D 253406 13;
   D 248076 13; D 242427 13; D 236456 13; D 230161 13; D 223545 13; D 216612 13; D 209369 13; D 201831 13; D 194015 13; D 185947 13; D 177661 13;
   D 1692 15; D 16062 14; D 151987 13; D 143386 13; D 134919 13; D 126706 13; D 118895 13; D 11166 14; D 105207 13; D 997795 12; D 956634 12;
   D 931939 12];
  [D 238404 9; D 246852 10; D 101853 11; D 277635 11; D 595585 11; D 10883 13; D 177673 12; D 266485 12; D 374609 12; D 500413 12; D 641452 12;
   D 794926 12; D 957762 12; D 11269 14; D 12995 14; D 147291 13; D 164487 13; D 181339 13; D 197687 13; D 213402 13; D 228378 13; D 24255 14;
   D 255865 13; D 268303 13; D 279856 13; D 290545 13; D 300402 13; D 309467 13; D 317788 13; D 325417 13; D 3324 15; D 338791 13; D 344637 13;
   D 349977 13; D 354851 13; D 359295 13; D 363337 13; D 367006 13; D 370326 13; D 373319 13; D 376008 13; D 378414 13; D 380555 13; D 382449 13;
   D 384111 13; D 385556 13; D 386794 13; D 387836 13; D 38869 14; D 389363 13; D 389857 13; D 390176 13; D 390319 13; D 390284 13; D 390069 13;
   D 38967 14; D 389082 13; D 388299 13; D 387318 13; D 38613 14; D 38473 14; D 383109 13; D 38126 14; D 379171 13; D 376833 13; D 374235 13;
   D 371364 13; D 368207 13; D 36475 14; D 360981 13; D 356886 13; D 352452 13; D 347666 13; D 342516 13; D 336991 13; D 331078 13; D 324767 13;
   D 318048 13; D 310914 13; D 303357 13; D 295374 13; D 286964 13; D 278131 13; D 268883 13; D 259235 13; D 249209 13; D 238837 13; D 22816 14;
   D 217235 13; D 206132 13; D 194938 13; D 183761 13; D 172734 13; D 162017 13; D 151802 13; D 14232 14; D 133845 13; D 126702 13; D 121273 13;
   D 118008 13];
  [D 332292 9; D 346133 10; D 142972 11; D 389071 11; D 832278 11; D 151487 12; D 246246 12; D 367657 12; D 514539 12; D 684251 12; D 873264 12;
   D 107755 13; D 129284 13; D 1515 15; D 174023 13; D 196505 13; D 218661 13; D 240235 13; D 261038 13; D 280904 13; D 299726 13; D 317426 13;
   D 333957 13; D 349309 13; D 363498 13; D 376566 13; D 388567 13; D 399567 13; D 409636 13; D 41884 14; D 427252 13; D 434939 13; D 441956 13;
   D 448358 13; D 454193 13; D 459503 13; D 464326 13; D 468696 13; D 472645 13; D 476203 13; D 4794 15; D 482262 13; D 484813 13; D 487075 13;
   D 489067 13; D 490805 13; D 492304 13; D 493575 13; D 494625 13; D 495461 13; D 496085 13; D 496498 13; D 496697 13; D 49668 14; D 496441 13;
   D 495977 13; D 495282 13; D 494349 13; D 493172 13; D 491742 13; D 49005 14; D 488083 13; D 485832 13; D 483281 13; D 480417 13; D 477222 13;
   D 473682 13; D 469778 13; D 465494 13; D 460813 13; D 455718 13; D 450192 13; D 444219 13; D 437781 13; D 430862 13; D 423445 13; D 415514 13;
   D 407054 13; D 398051 13; D 388494 13; D 378377 13; D 367695 13; D 356451 13; D 344652 13; D 332317 13; D 319472 13; D 306157 13; D 292424 13;
   D 278342 13; D 264002 13; D 249516 13; D 235022 13; D 220693 13; D 206738 13; D 19341 14; D 181012 13; D 169908 13; D 160527 13; D 153378 13;
   D 149059 13];
  [D 461447 9; D 484011 10; D 200021 11; D 543421 11; D 115858 12; D 21008 13; D 339968 12; D 505291 12; D 703992 12; D 932018 12; D 118429 13;
   D 14551 14; D 173857 13; D 202922 13; D 232191 13; D 261229 13; D 289657 13; D 317173 13; D 343534 13; D 368554 13; D 392116 13; D 414133 13;
   D 434582 13; D 453465 13; D 470841 13; D 486774 13; D 501356 13; D 514681 13; D 526844 13; D 537941 13; D 54807 14; D 557305 13; D 565724 13;
   D 573394 13; D 580372 13; D 586712 13; D 59246 14; D 597662 13; D 602359 13; D 606593 13; D 6104 15; D 613814 13; D 616865 13; D 619578 13;
   D 621978 13; D 624083 13; D 62591 14; D 627468 13; D 628766 13; D 629808 13; D 630595 13; D 631124 13; D 631393 13; D 631396 13; D 631132 13;
   D 630591 13; D 629768 13; D 628655 13; D 627242 13; D 625517 13; D 623466 13; D 621074 13; D 618324 13; D 615198 13; D 611675 13; D 607735 13;
   D 603357 13; D 598521 13; D 593205 13; D 587389 13; D 581051 13; D 574168 13; D 566717 13; D 558673 13; D 550012 13; D 54071 14; D 530743 13;
   D 520089 13; D 508729 13; D 496644 13; D 483822 13; D 470257 13; D 455949 13; D 440908 13; D 425152 13; D 408715 13; D 391644 13; D 374004 13;
   D 355883 13; D 337392 13; D 318677 13; D 299916 13; D 281333 13; D 263201 13; D 245849 13; D 229678 13; D 215163 13; D 202871 13; D 193473 13;
   D 187758 13];
  [D 639021 9; D 674704 10; D 27888 12; D 756385 11; D 160718 12; D 29028 13; D 467635 12; D 691919 12; D 959693 12; D 12649 14; D 160031 13;
   D 195792 13; D 232978 13; D 270854 13; D 308752 13; D 346115 13; D 382457 13; D 417421 13; D 450699 13; D 4821 15; D 51148 14; D 538778 13;
   D 563981 13; D 58715 14; D 60837 14; D 627759 13; D 645447 13; D 661565 13; D 676243 13; D 68962 14; D 7018 15; D 712891 13; D 722986 13;
   D 732167 13; D 740505 13; D 748066 13; D 754914 13; D 761107 13; D 766701 13; D 771748 13; D 776293 13; D 780379 13; D 784041 13; D 787311 13;
   D 790217 13; D 792781 13; D 795016 13; D 796933 13; D 798539 13; D 799834 13; D 800818 13; D 801489 13; D 801841 13; D 801871 13; D 801574 13;
   D 800942 13; D 799966 13; D 798632 13; D 796927 13; D 794836 13; D 792338 13; D 789412 13; D 786035 13; D 782182 13; D 777831 13; D 772955 13;
   D 767531 13; D 761533 13; D 754934 13; D 747706 13; D 739819 13; D 731242 13; D 721942 13; D 711884 13; D 701035 13; D 68936 14; D 676824 13;
   D 663397 13; D 64905 14; D 633759 13; D 617506 13; D 600281 13; D 582082 13; D 562917 13; D 542807 13; D 521791 13; D 499925 13; D 47729 14;
   D 453995 13; D 430183 13; D 40604 14; D 381796 13; D 357742 13; D 334231 13; D 311694 13; D 290653 13; D 271729 13; D 255663 13; D 243332 13;
   D 235768 13];
  [D 883584 9; D 937535 10; D 38776 12; D 104967 12; D 2222 14; D 399745 12; D 641023 12; D 944237 12; D 130378 13; D 171084 13; D 215517 13;
   D 262568 13; D 311177 13; D 36036 14; D 409264 13; D 457162 13; D 503472 13; D 547734 13; D 589606 13; D 62887 14; D 665386 13; D 699117 13;
   D 730101 13; D 758453 13; D 784318 13; D 807873 13; D 8293 15; D 848772 13; D 866488 13; D 882592 13; D 897234 13; D 910547 13; D 922642 13;
   D 933621 13; D 943575 13; D 952591 13; D 96075 14; D 968131 13; D 974804 13; D 980832 13; D 986275 13; D 991182 13; D 995597 13; D 999557 13;
   D 100309 14; D 100622 14; D 100896 14; D 101132 14; D 10133 15; D 10149 15; D 101612 14; D 101696 14; D 101741 14; D 101748 14; D 101714 14;
   D 101639 14; D 101522 14; D 101361 14; D 101154 14; D 100898 14; D 100591 14; D 10023 15; D 998128 13; D 993357 13; D 987963 13; D 981916 13;
   D 975185 13; D 967737 13; D 959535 13; D 950542 13; D 940715 13; D 930011 13; D 918384 13; D 905787 13; D 892171 13; D 877489 13; D 861696 13;
   D 84475 14; D 826613 13; D 807254 13; D 786644 13; D 764769 13; D 741619 13; D 717201 13; D 691539 13; D 664675 13; D 636678 13; D 60765 14;
   D 577729 13; D 547098 13; D 515993 13; D 484716 13; D 453639 13; D 423223 13; D 394026 13; D 366722 13; D 342119 13; D 321177 13; D 305033 13;
   D 295024 13];
  [D 121944 10; D 129982 11; D 537559 11; D 145216 12; D 306252 12; D 5487 14; D 875871 12; D 128441 13; D 17655 14; D 230658 13; D 289316 13;
   D 351015 13; D 414342 13; D 477996 13; D 540892 13; D 602097 13; D 660912 13; D 716762 13; D 769284 13; D 818217 13; D 863465 13; D 905021 13;
   D 943024 13; D 977646 13; D 100912 14; D 10377 15; D 106362 14; D 108715 14; D 110851 14; D 112789 14; D 114548 14; D 116145 14; D 117593 14;
   D 118905 14; D 120093 14; D 121168 14; D 122141 14; D 123022 14; D 12382 15; D 124542 14; D 125196 14; D 125788 14; D 126322 14; D 126803 14;
   D 127234 14; D 127617 14; D 127952 14; D 128241 14; D 128484 14; D 128681 14; D 128831 14; D 128935 14; D 128992 14; D 129002 14; D 128963 14;
   D 128873 14; D 12873 15; D 128533 14; D 128277 14; D 127961 14; D 12758 15; D 127131 14; D 126612 14; D 126019 14; D 125349 14; D 124597 14;
   D 12376 15; D 122833 14; D 121812 14; D 12069 15; D 119462 14; D 118122 14; D 116664 14; D 115082 14; D 113368 14; D 111518 14; D 109524 14;
   D 107382 14; D 105087 14; D 102633 14; D 100017 14; D 97237 14; D 942904 13; D 911777 13; D 879014 13; D 844667 13; D 808822 13; D 771607 13;
   D 733199 13; D 693834 13; D 653818 13; D 613536 13; D 573472 13; D 534216 13; D 49649 14; D 461163 13; D 429273 13; D 402057 13; D 380973 13;
   D 367736 13];
  [D 167932 10; D 179789 11; D 743118 11; D 200337 12; D 42085 13; D 75085 13; D 119307 13; D 174176 13; D 238345 13; D 310036 13; D 387225 13;
   D 467878 13; D 550113 13; D 632244 13; D 712878 13; D 790857 13; D 86531 14; D 935574 13; D 100124 14; D 106205 14; D 111795 14; D 116905 14;
   D 121555 14; D 125776 14; D 129601 14; D 133065 14; D 1362 16; D 139041 14; D 141614 14; D 143946 14; D 146059 14; D 147972 14; D 149705 14;
   D 151272 14; D 152689 14; D 153973 14; D 155135 14; D 156189 14; D 157145 14; D 158013 14; D 158801 14; D 159517 14; D 160166 14; D 160751 14;
   D 161277 14; D 161744 14; D 162153 14; D 162506 14; D 162802 14; D 163042 14; D 163226 14; D 163354 14; D 163425 14; D 163437 14; D 163388 14;
   D 163277 14; D 163099 14; D 162852 14; D 162532 14; D 162136 14; D 161659 14; D 161098 14; D 16045 15; D 15971 15; D 158874 14; D 157936 14;
   D 156892 14; D 155734 14; D 154457 14; D 153051 14; D 151511 14; D 149827 14; D 147991 14; D 145996 14; D 143833 14; D 141495 14; D 138973 14;
   D 13626 15; D 13335 15; D 130235 14; D 12691 15; D 123371 14; D 119615 14; D 115642 14; D 111455 14; D 107061 14; D 102471 14; D 977013 13;
   D 927744 13; D 87721 14; D 825804 13; D 774022 13; D 722484 13; D 671949 13; D 623343 13; D 577777 13; D 536581 13; D 501329 13; D 473877 13;
   D 456396 13];
  [D 230726 10; D 248039 11; D 102481 12; D 275608 12; D 576732 12; D 10245 14; D 16205 14; D 235513 13; D 320846 13; D 415539 13; D 516804 13;
   D 62192 14; D 728388 13; D 834057 13; D 937119 13; D 103619 14; D 113015 14; D 121831 14; D 130016 14; D 137553 14; D 144442 14; D 15071 15;
   D 156392 14; D 161532 14; D 166176 14; D 17037 15; D 174161 14; D 177588 14; D 180688 14; D 183492 14; D 186027 14; D 188319 14; D 190391 14;
   D 192263 14; D 193956 14; D 19549 15; D 196881 14; D 198144 14; D 199293 14; D 20034 15; D 201293 14; D 202162 14; D 20295 15; D 203663 14;
   D 204303 14; D 204871 14; D 205369 14; D 205797 14; D 206157 14; D 206449 14; D 206673 14; D 206827 14; D 206911 14; D 206922 14; D 206858 14;
   D 206714 14; D 206486 14; D 206171 14; D 205765 14; D 205262 14; D 204661 14; D 203956 14; D 203143 14; D 202216 14; D 201168 14; D 199994 14;
   D 198684 14; D 19723 15; D 195623 14; D 193852 14; D 191909 14; D 189782 14; D 187462 14; D 184937 14; D 182198 14; D 179235 14; D 176035 14;
   D 17259 15; D 16889 15; D 164925 14; D 160687 14; D 156172 14; D 151375 14; D 146297 14; D 140941 14; D 135316 14; D 129437 14; D 123325 14;
   D 117009 14; D 110529 14; D 103935 14; D 972917 13; D 906775 13; D 8419 15; D 779473 13; D 720909 13; D 667892 13; D 62241 14; D 586796 13;
   D 563768 13];
  [D 316235 10; D 341325 11; D 140959 12; D 378148 12; D 788228 12; D 139398 13; D 2195 15; D 317574 13; D 430725 13; D 555442 13; D 68791 14;
   D 824522 13; D 961978 13; D 109754 14; D 122892 14; D 135442 14; D 14727 15; D 158298 14; D 168476 14; D 177792 14; D 186267 14; D 193942 14;
   D 200874 14; D 207126 14; D 212758 14; D 217837 14; D 222418 14; D 226551 14; D 230283 14; D 233653 14; D 236694 14; D 239438 14; D 241914 14;
   D 244153 14; D 246178 14; D 248014 14; D 249682 14; D 251201 14; D 252586 14; D 253852 14; D 255008 14; D 256063 14; D 257022 14; D 257888 14;
   D 258665 14; D 259353 14; D 259956 14; D 260475 14; D 26091 15; D 261262 14; D 26153 15; D 261713 14; D 261807 14; D 26181 15; D 261717 14;
   D 261523 14; D 261224 14; D 260815 14; D 260293 14; D 259652 14; D 25889 15; D 257999 14; D 256972 14; D 255803 14; D 254482 14; D 252999 14;
   D 251344 14; D 249505 14; D 24747 15; D 245225 14; D 24276 15; D 240061 14; D 237114 14; D 233907 14; D 230425 14; D 226654 14; D 222579 14;
   D 218188 14; D 213466 14; D 208401 14; D 202984 14; D 197208 14; D 191068 14; D 184566 14; D 177706 14; D 170501 14; D 16297 15; D 15514 15;
   D 147049 14; D 138749 14; D 130305 14; D 121799 14; D 113333 14; D 105031 14; D 970419 13; D 895451 13; D 827518 13; D 7691 15; D 723095 13;
   D 692862 13];
  [D 432373 10; D 468825 11; D 193429 12; D 517543 12; D 107456 13; D 189179 13; D 296543 13; D 427108 13; D 576743 13; D 740548 13; D 913371 13;
   D 109043 14; D 126744 14; D 144088 14; D 160794 14; D 176647 14; D 1915 16; D 205259 14; D 217883 14; D 229374 14; D 23978 15; D 249165 14;
   D 257613 14; D 265209 14; D 272038 14; D 278185 14; D 283718 14; D 288703 14; D 293194 14; D 29724 15; D 300885 14; D 30417 15; D 307134 14;
   D 309812 14; D 312239 14; D 314442 14; D 316448 14; D 318278 14; D 319954 14; D 321487 14; D 32289 15; D 324171 14; D 325335 14; D 326385 14;
   D 327324 14; D 328157 14; D 328884 14; D 329509 14; D 330033 14; D 330453 14; D 330769 14; D 330977 14; D 331074 14; D 331054 14; D 330912 14;
   D 330643 14; D 330242 14; D 329706 14; D 32903 15; D 328208 14; D 327233 14; D 326098 14; D 324792 14; D 323305 14; D 321624 14; D 319736 14;
   D 317627 14; D 315282 14; D 312685 14; D 309822 14; D 306677 14; D 303233 14; D 299472 14; D 295377 14; D 290927 14; D 286105 14; D 280891 14;
   D 275266 14; D 269214 14; D 26272 15; D 255773 14; D 248363 14; D 240487 14; D 232148 14; D 223352 14; D 214115 14; D 204465 14; D 194436 14;
   D 184081 14; D 173464 14; D 162671 14; D 151808 14; D 141004 14; D 130418 14; D 120236 14; D 110683 14; D 102021 14; D 945556 13; D 886423 13;
   D 846908 13];
  [D 58996 11; D 642677 11; D 264875 12; D 706547 12; D 146127 13; D 256089 13; D 399636 13; D 573005 13; D 770368 13; D 984949 13; D 120985 14;
   D 143873 14; D 166611 14; D 188746 14; D 209935 14; D 229914 14; D 248517 14; D 265643 14; D 281265 14; D 295415 14; D 308169 14; D 319632 14;
   D 329919 14; D 339141 14; D 347422 14; D 354856 14; D 361538 14; D 367546 14; D 372948 14; D 377805 14; D 382173 14; D 386107 14; D 389657 14;
   D 392867 14; D 395779 14; D 398429 14; D 400847 14; D 40306 15; D 405089 14; D 40695 15; D 408653 14; D 410206 14; D 411614 14; D 412883 14;
   D 414017 14; D 41502 15; D 415895 14; D 416644 14; D 417267 14; D 417761 14; D 418123 14; D 418348 14; D 418431 14; D 418364 14; D 418144 14;
   D 417765 14; D 417224 14; D 416515 14; D 415632 14; D 414567 14; D 41331 15; D 411849 14; D 41017 15; D 408259 14; D 406098 14; D 40367 15;
   D 400959 14; D 397945 14; D 39461 15; D 390934 14; D 386896 14; D 382475 14; D 377645 14; D 372382 14; D 366662 14; D 360459 14; D 353748 14;
   D 346508 14; D 338716 14; D 330357 14; D 321417 14; D 311886 14; D 301761 14; D 291046 14; D 279753 14; D 267905 14; D 255537 14; D 242699 14;
   D 229458 14; D 215901 14; D 202139 14; D 188306 14; D 17457 15; D 161126 14; D 14821 15; D 136099 14; D 125113 14; D 115626 14; D 108067 14;
   D 102931 14];
  [D 804089 10; D 879096 11; D 361892 12; D 962434 12; D 198255 13; D 345853 13; D 53729 14; D 766927 13; D 10266 15; D 1307 16; D 159896 14;
   D 189413 14; D 218551 14; D 246735 14; D 273544 14; D 298664 14; D 321909 14; D 343181 14; D 362473 14; D 379868 14; D 395482 14; D 409468 14;
   D 421981 14; D 43318 15; D 443212 14; D 452203 14; D 460269 14; D 467507 14; D 474 17; D 479829 14; D 485066 14; D 489782 14; D 494038 14;
   D 497893 14; D 501396 14; D 50459 15; D 507513 14; D 510194 14; D 512655 14; D 514912 14; D 516976 14; D 518854 14; D 520555 14; D 522084 14;
   D 523449 14; D 524654 14; D 525701 14; D 52659 15; D 527321 14; D 527889 14; D 528287 14; D 52851 15; D 52855 15; D 528403 14; D 528063 14;
   D 527529 14; D 526792 14; D 525846 14; D 524682 14; D 523287 14; D 521646 14; D 519743 14; D 517559 14; D 515074 14; D 512267 14; D 509117 14;
   D 505602 14; D 501699 14; D 497384 14; D 492631 14; D 48741 15; D 481692 14; D 475444 14; D 468634 14; D 46123 15; D 4532 16; D 444514 14;
   D 435146 14; D 425072 14; D 414271 14; D 402728 14; D 390435 14; D 37739 15; D 3636 16; D 349085 14; D 333879 14; D 318031 14; D 30161 15;
   D 284706 14; D 267434 14; D 249937 14; D 232387 14; D 214993 14; D 198001 14; D 181701 14; D 16643 15; D 152579 14; D 140596 14; D 130994 14;
   D 124359 14];
  [D 10945 12; D 119996 12; D 493461 12; D 130802 13; D 268364 13; D 466018 13; D 720741 13; D 102419 14; D 136503 14; D 173059 14; D 210872 14;
   D 248851 14; D 286103 14; D 321913 14; D 355752 14; D 38727 15; D 416247 14; D 442612 14; D 466402 14; D 487751 14; D 506846 14; D 523898 14;
   D 539111 14; D 552707 14; D 564857 14; D 575729 14; D 585462 14; D 594175 14; D 601979 14; D 608974 14; D 615257 14; D 620916 14; D 626029 14;
   D 630666 14; D 634889 14; D 638751 14; D 642291 14; D 645541 14; D 648526 14; D 651261 14; D 653757 14; D 656024 14; D 658073 14; D 659912 14;
   D 661549 14; D 662988 14; D 66423 15; D 665275 14; D 666116 14; D 666746 14; D 667159 14; D 667346 14; D 667304 14; D 667028 14; D 666514 14;
   D 665756 14; D 664746 14; D 663471 14; D 661917 14; D 660066 14; D 657897 14; D 655386 14; D 65251 15; D 649244 14; D 645562 14; D 641439 14;
   D 636846 14; D 631753 14; D 626126 14; D 619928 14; D 613122 14; D 605666 14; D 59752 15; D 588641 14; D 578992 14; D 568534 14; D 557231 14;
   D 545053 14; D 531972 14; D 517965 14; D 503016 14; D 487118 14; D 470275 14; D 452503 14; D 433834 14; D 414319 14; D 394028 14; D 373056 14;
   D 351524 14; D 329582 14; D 307414 14; D 285239 14; D 263316 14; D 241951 14; D 221496 14; D 202358 14; D 185003 14; D 169965 14; D 157848 14;
   D 149337 14];
  [D 148758 11; D 163536 12; D 671615 12; D 177408 13; D 362496 13; D 626604 13; D 964735 13; D 136484 14; D 18112 15; D 228672 14; D 277536 14;
   D 326301 14; D 37382 15; D 419219 14; D 461846 14; D 5013 16; D 537358 14; D 56997 15; D 59926 15; D 625435 14; D 648766 14; D 669537 14;
   D 688038 14; D 70453 15; D 719245 14; D 732385 14; D 744124 14; D 754612 14; D 763989 14; D 772389 14; D 779934 14; D 786734 14; D 792887 14;
   D 798478 14; D 803582 14; D 808258 14; D 812551 14; D 816494 14; D 820111 14; D 823419 14; D 82643 15; D 829161 14; D 831623 14; D 833829 14;
   D 835783 14; D 83749 15; D 838948 14; D 840151 14; D 841091 14; D 841759 14; D 842147 14; D 842252 14; D 84207 15; D 841598 14; D 840828 14;
   D 83975 15; D 838351 14; D 836612 14; D 83451 15; D 832021 14; D 829114 14; D 825762 14; D 821934 14; D 817601 14; D 812732 14; D 80729 15;
   D 801238 14; D 794533 14; D 787129 14; D 778976 14; D 770025 14; D 760223 14; D 749519 14; D 737863 14; D 725209 14; D 711512 14; D 696731 14;
   D 680829 14; D 663776 14; D 645547 14; D 626131 14; D 605526 14; D 583746 14; D 560824 14; D 536812 14; D 511785 14; D 485845 14; D 459121 14;
   D 431773 14; D 403998 14; D 376029 14; D 348141 14; D 320655 14; D 293943 14; D 268428 14; D 244595 14; D 222996 14; D 204251 14; D 189065 14;
   D 184093 14];
  [D 201855 11; D 222498 12; D 912275 12; D 240145 13; D 488616 13; D 840785 13; D 128869 14; D 18151 15; D 239838 14; D 301563 14; D 364572 14;
   D 427056 14; D 487552 14; D 544986 14; D 598575 14; D 647867 14; D 692644 14; D 732927 14; D 768937 14; D 800996 14; D 829483 14; D 854773 14;
   D 877262 14; D 897266 14; D 915082 14; D 930959 14; D 94511 15; D 957731 14; D 969003 14; D 979098 14; D 988169 14; D 996354 14; D 100377 15;
   D 101053 15; D 101671 15; D 102238 15; D 102759 15; D 103237 15; D 103675 15; D 104074 15; D 104436 15; D 104765 15; D 10506 16; D 105323 15;
   D 105555 15; D 105755 15; D 105924 15; D 106059 15; D 10616 16; D 106226 15; D 106257 15; D 106252 15; D 106212 15; D 106135 15; D 10602 16;
   D 105866 15; D 10567 16; D 10543 16; D 105142 15; D 104803 15; D 104409 15; D 103957 15; D 103443 15; D 102864 15; D 102214 15; D 10149 16;
   D 100685 15; D 99794 15; D 988108 14; D 977288 14; D 965416 14; D 95243 15; D 938268 14; D 922871 14; D 906184 14; D 888155 14; D 868735 14;
   D 847885 14; D 825575 14; D 801784 14; D 776509 14; D 749764 14; D 721582 14; D 692021 14; D 661164 14; D 629122 14; D 596036 14; D 562083 14;
   D 527475 14; D 492463 14; D 457343 14; D 422455 14; D 38819 15; D 354995 14; D 323372 14; D 293891 14; D 26719 15; D 253267 14; D 233586 14;
   D 219153 14];
  [D 273439 11; D 302169 12; D 123701 13; D 324438 13; D 657337 13; D 112598 14; D 171802 14; D 24092 15; D 316984 14; D 396947 14; D 478034 14;
   D 557936 14; D 63481 15; D 707317 14; D 774564 14; D 836022 14; D 891529 14; D 941218 14; D 98544 15; D 102467 15; D 105943 15; D 109023 15;
   D 111755 15; D 114181 15; D 116337 15; D 118255 15; D 11996 16; D 121479 15; D 122835 15; D 124049 15; D 125141 15; D 126128 15; D 127025 15;
   D 127843 15; D 128593 15; D 129281 15; D 129913 15; D 130491 15; D 13102 16; D 131501 15; D 131937 15; D 13233 16; D 132683 15; D 132995 15;
   D 133268 15; D 133499 15; D 133689 15; D 133836 15; D 133939 15; D 133998 15; D 134012 15; D 133982 15; D 133907 15; D 133785 15; D 133615 15;
   D 133393 15; D 133117 15; D 132781 15; D 132382 15; D 131915 15; D 131377 15; D 130763 15; D 130068 15; D 129287 15; D 128413 15; D 12744 16;
   D 12636 16; D 125165 15; D 123848 15; D 1224 17; D 120814 15; D 119082 15; D 117198 15; D 115153 15; D 112941 15; D 110557 15; D 107996 15;
   D 105253 15; D 102326 15; D 99215 15; D 959209 14; D 924479 14; D 888026 14; D 849947 14; D 810366 14; D 769445 14; D 72738 15; D 684405 14;
   D 640798 14; D 596878 14; D 553013 14; D 509619 14; D 467165 14; D 426177 14; D 387243 14; D 365219 14; D 331416 14; D 301835 14; D 277436 14;
   D 259303 14];
  [D 369761 11; D 409637 12; D 167454 13; D 437553 13; D 882613 13; D 150506 14; D 228612 14; D 319184 14; D 418182 14; D 521569 14; D 625724 14;
   D 7277 16; D 825202 14; D 916576 14; D 100079 15; D 10773 16; D 114599 15; D 12072 16; D 126146 15; D 130944 15; D 135182 15; D 138932 15;
   D 142251 15; D 145192 15; D 147801 15; D 150116 15; D 152171 15; D 154 18; D 155632 15; D 157095 15; D 158412 15; D 159605 15; D 160691 15;
   D 161683 15; D 162593 15; D 163428 15; D 164194 15; D 164893 15; D 16553 16; D 166108 15; D 166631 15; D 167101 15; D 16752 16; D 167888 15;
   D 168204 15; D 168466 15; D 168674 15; D 168827 15; D 168923 15; D 168965 15; D 16895 16; D 16888 16; D 168752 15; D 168563 15; D 16831 16;
   D 167989 15; D 167594 15; D 167121 15; D 166564 15; D 165918 15; D 165178 15; D 164338 15; D 163391 15; D 162329 15; D 161143 15; D 159824 15;
   D 158362 15; D 156747 15; D 154969 15; D 153019 15; D 150888 15; D 148566 15; D 146045 15; D 143317 15; D 140374 15; D 137211 15; D 133822 15;
   D 130205 15; D 126359 15; D 122287 15; D 117994 15; D 113488 15; D 10878 16; D 103885 15; D 988226 14; D 936143 14; D 882873 14; D 828725 14;
   D 774054 14; D 71926 15; D 664793 14; D 611151 14; D 558886 14; D 529564 14; D 480748 14; D 435226 14; D 393859 14; D 357613 14; D 327575 14;
   D 304971 14];
  [D 499198 11; D 554574 12; D 226285 13; D 589045 13; D 118297 14; D 200816 14; D 303659 14; D 422123 14; D 550726 14; D 68415 15; D 817704 14;
   D 947611 14; D 107105 15; D 1186 17; D 129128 15; D 138635 15; D 147127 15; D 154658 15; D 161309 15; D 167173 15; D 172342 15; D 176904 15;
   D 180935 15; D 184501 15; D 187656 15; D 19045 16; D 192928 15; D 195131 15; D 197098 15; D 198863 15; D 200454 15; D 201898 15; D 203215 15;
   D 204421 15; D 205526 15; D 206538 15; D 207463 15; D 208307 15; D 209073 15; D 209768 15; D 210393 15; D 210953 15; D 211446 15; D 211874 15;
   D 212233 15; D 212523 15; D 212742 15; D 212891 15; D 21297 16; D 212978 15; D 212917 15; D 212782 15; D 212572 15; D 212283 15; D 211907 15;
   D 21144 16; D 210874 15; D 210204 15; D 209423 15; D 208525 15; D 207502 15; D 206346 15; D 205045 15; D 203589 15; D 201967 15; D 200165 15;
   D 198172 15; D 195974 15; D 193562 15; D 190922 15; D 188044 15; D 184917 15; D 181532 15; D 177879 15; D 173951 15; D 169742 15; D 165251 15;
   D 160477 15; D 155424 15; D 150098 15; D 144511 15; D 138675 15; D 13261 16; D 126339 15; D 119887 15; D 113287 15; D 106573 15; D 997858 14;
   D 929702 14; D 861749 14; D 794538 14; D 75859 15; D 69336 15; D 630597 14; D 571087 14; D 515699 14; D 4654 16; D 421274 14; D 384542 14;
   D 356587 14];
  [D 673323 11; D 749713 12; D 305296 13; D 791677 13; D 158276 14; D 267477 14; D 402654 14; D 557312 14; D 724079 14; D 895958 14; D 10669 16;
   D 123212 15; D 138811 15; D 153249 15; D 166388 15; D 178183 15; D 188667 15; D 197925 15; D 206073 15; D 213236 15; D 219538 15; D 225089 15;
   D 229984 15; D 234305 15; D 23812 16; D 241492 15; D 24448 16; D 247136 15; D 24951 16; D 251642 15; D 253569 15; D 255321 15; D 25692 16;
   D 258385 15; D 259726 15; D 260951 15; D 262068 15; D 263084 15; D 264006 15; D 264837 15; D 265583 15; D 266243 15; D 266819 15; D 267308 15;
   D 267708 15; D 268017 15; D 268237 15; D 268367 15; D 268409 15; D 268362 15; D 268224 15; D 26799 16; D 267657 15; D 267215 15; D 266658 15;
   D 265978 15; D 265166 15; D 264216 15; D 263119 15; D 261865 15; D 260443 15; D 258839 15; D 257041 15; D 255033 15; D 252798 15; D 250322 15;
   D 24759 16; D 244586 15; D 241297 15; D 237709 15; D 233809 15; D 229585 15; D 225026 15; D 220123 15; D 214872 15; D 209269 15; D 203316 15;
   D 197019 15; D 190387 15; D 183434 15; D 176179 15; D 168646 15; D 160862 15; D 152859 15; D 144676 15; D 136353 15; D 127938 15; D 119481 15;
   D 111036 15; D 106824 15; D 984508 14; D 902513 14; D 822992 14; D 746745 14; D 67465 15; D 607674 14; D 546892 14; D 493509 14; D 448887 14;
   D 414579 14];
  [D 907316 11; D 101195 13; D 411266 13; D 106229 14; D 211414 14; D 355677 14; D 53304 15; D 734601 14; D 95049 15; D 117153 15; D 138997 15;
   D 159976 15; D 179655 15; D 197757 15; D 214131 15; D 228745 15; D 241673 15; D 253044 15; D 263022 15; D 271769 15; D 279451 15; D 286203 15;
   D 292146 15; D 29738 16; D 301992 15; D 306064 15; D 309669 15; D 312875 15; D 315744 15; D 318324 15; D 320661 15; D 32279 16; D 324734 15;
   D 326513 15; D 328138 15; D 32962 16; D 330967 15; D 332189 15; D 333294 15; D 334286 15; D 335169 15; D 335942 15; D 336604 15; D 337151 15;
   D 337583 15; D 337899 15; D 338102 15; D 338191 15; D 338168 15; D 33803 16; D 337771 15; D 337386 15; D 336864 15; D 336197 15; D 335374 15;
   D 334386 15; D 333223 15; D 331874 15; D 330328 15; D 32857 16; D 326583 15; D 324349 15; D 321849 15; D 319062 15; D 31597 16; D 312553 15;
   D 308795 15; D 304676 15; D 300179 15; D 29529 16; D 289992 15; D 284274 15; D 278125 15; D 271541 15; D 264519 15; D 257065 15; D 249185 15;
   D 240895 15; D 232214 15; D 223166 15; D 213781 15; D 204096 15; D 194151 15; D 183991 15; D 173668 15; D 163235 15; D 152751 15; D 142279 15;
   D 137416 15; D 127003 15; D 116772 15; D 106797 15; D 971628 14; D 879565 14; D 792751 14; D 712243 14; D 639226 14; D 575031 14; D 521171 14;
   D 479381 14];
  [D 122129 12; D 136381 13; D 553134 13; D 142311 14; D 281944 14; D 472203 14; D 704537 14; D 96678 15; D 12458 16; D 15296 16; D 180828 15;
   D 207424 15; D 232213 15; D 254874 15; D 275247 15; D 293334 15; D 309259 15; D 323217 15; D 335426 15; D 34611 16; D 35547 16; D 363683 15;
   D 370896 15; D 377234 15; D 38281 16; D 387727 15; D 392081 15; D 395957 15; D 399428 15; D 402557 15; D 405396 15; D 407984 15; D 410348 15;
   D 412507 15; D 414474 15; D 416263 15; D 417886 15; D 419354 15; D 420674 15; D 421852 15; D 422889 15; D 423782 15; D 424529 15; D 425126 15;
   D 425575 15; D 425878 15; D 426036 15; D 426051 15; D 425919 15; D 425635 15; D 42519 16; D 424572 15; D 42377 16; D 42277 16; D 421562 15;
   D 420132 15; D 418468 15; D 416553 15; D 41437 16; D 411896 15; D 409107 15; D 40598 16; D 402489 15; D 39861 16; D 39432 16; D 389594 15;
   D 384412 15; D 378753 15; D 372595 15; D 365922 15; D 358718 15; D 350974 15; D 342683 15; D 333849 15; D 324476 15; D 314579 15; D 304178 15;
   D 293301 15; D 281979 15; D 270254 15; D 258171 15; D 245783 15; D 233147 15; D 220324 15; D 20738 16; D 194385 15; D 188856 15; D 175826 15;
   D 162919 15; D 150212 15; D 137786 15; D 125727 15; D 114124 15; D 103073 15; D 926786 14; D 830556 14; D 743335 14; D 666579 14; D 601965 14;
   D 551431 14];
  [D 164196 12; D 183582 13; D 742841 13; D 190366 14; D 375419 14; D 625941 14; D 929795 14; D 127044 15; D 163049 15; D 199432 15; D 234928 15;
   D 268594 15; D 299773 15; D 328097 15; D 353412 15; D 375771 15; D 395374 15; D 412498 15; D 427432 15; D 440477 15; D 451881 15; D 461868 15;
   D 470621 15; D 478295 15; D 485037 15; D 490979 15; D 496243 15; D 500933 15; D 505141 15; D 508943 15; D 512396 15; D 515545 15; D 518417 15;
   D 521034 15; D 523413 15; D 52557 16; D 527522 15; D 52928 16; D 530852 15; D 532241 15; D 533445 15; D 53446 16; D 535283 15; D 535914 15;
   D 536356 15; D 536614 15; D 536686 15; D 536572 15; D 536264 15; D 535752 15; D 535021 15; D 534055 15; D 532838 15; D 531356 15; D 529593 15;
   D 527532 15; D 525153 15; D 522432 15; D 51934 16; D 515849 15; D 511924 15; D 507536 15; D 502652 15; D 497244 15; D 491283 15; D 48474 16;
   D 477589 15; D 469806 15; D 461369 15; D 45226 16; D 44247 16; D 431995 15; D 420838 15; D 409012 15; D 396538 15; D 383445 15; D 369771 15;
   D 35556 16; D 340867 15; D 325752 15; D 310283 15; D 294532 15; D 278576 15; D 262495 15; D 256231 15; D 240034 15; D 223905 15; D 20793 16;
   D 192194 15; D 176782 15; D 161784 15; D 147289 15; D 133395 15; D 120203 15; D 107825 15; D 963839 14; D 860198 14; D 768923 14; D 691862 14;
   D 631178 14];
  [D 220474 12; D 246813 13; D 996227 13; D 254267 14; D 499162 14; D 828509 14; D 122529 15; D 16671 16; D 2131 17; D 259674 15; D 30482 16;
   D 347369 15; D 386534 15; D 421885 15; D 453299 15; D 480913 15; D 505025 15; D 526021 15; D 544288 15; D 56021 16; D 574105 15; D 586246 15;
   D 596862 15; D 606155 15; D 614309 15; D 621496 15; D 627867 15; D 633552 15; D 638662 15; D 643286 15; D 64749 16; D 651321 15; D 654809 15;
   D 657977 15; D 66085 16; D 663448 15; D 665791 15; D 667889 15; D 669749 15; D 671371 15; D 67275 16; D 67388 16; D 674762 15; D 675399 15;
   D 675797 15; D 675959 15; D 67588 16; D 675555 15; D 67497 16; D 674107 15; D 672944 15; D 671462 15; D 669642 15; D 667465 15; D 664908 15;
   D 661945 15; D 658546 15; D 654675 15; D 650291 15; D 645354 15; D 639824 15; D 63366 16; D 626825 15; D 619284 15; D 611 18; D 60194 16;
   D 592073 15; D 581375 15; D 569824 15; D 557411 15; D 544134 15; D 530002 15; D 515036 15; D 499266 15; D 482734 15; D 465493 15; D 447604 15;
   D 429141 15; D 410182 15; D 390816 15; D 371137 15; D 351241 15; D 331227 15; D 324005 15; D 303924 15; D 283953 15; D 264189 15; D 244727 15;
   D 225659 15; D 207078 15; D 189078 15; D 171754 15; D 155205 15; D 139539 15; D 124873 15; D 111339 15; D 990854 14; D 882871 14; D 791479 14;
   D 719088 14];
  [D 295656 12; D 331386 13; D 133412 14; D 339133 14; D 662738 14; D 109507 15; D 161243 15; D 21846 16; D 278143 15; D 337676 15; D 395019 15;
   D 448717 15; D 497838 15; D 541908 15; D 580846 15; D 614916 15; D 644558 15; D 670287 15; D 692632 15; D 712062 15; D 728986 15; D 743745 15;
   D 75662 16; D 767873 15; D 777742 15; D 786442 15; D 794163 15; D 801064 15; D 80728 16; D 812911 15; D 818031 15; D 822688 15; D 826918 15;
   D 83075 16; D 834215 15; D 837341 15; D 840144 15; D 842636 15; D 84482 16; D 84669 16; D 84824 16; D 849468 15; D 850378 15; D 850978 15;
   D 851272 15; D 851259 15; D 85093 16; D 85027 16; D 849256 15; D 847861 15; D 846058 15; D 843823 15; D 841132 15; D 837958 15; D 834265 15;
   D 830015 15; D 82516 16; D 819649 15; D 81343 16; D 806449 15; D 798657 15; D 790006 15; D 780448 15; D 769939 15; D 758437 15; D 745903 15;
   D 732308 15; D 717627 15; D 701851 15; D 684983 15; D 667039 15; D 648051 15; D 628063 15; D 607136 15; D 585341 15; D 562763 15; D 539501 15;
   D 51566 16; D 491357 15; D 466712 15; D 441848 15; D 433523 15; D 408525 15; D 383591 15; D 358837 15; D 334374 15; D 310308 15; D 286741 15;
   D 263773 15; D 241499 15; D 220014 15; D 199415 15; D 179804 15; D 161291 15; D 143997 15; D 12806 16; D 11364 16; D 100928 15; D 901465 14;
   D 81565 15];
  [D 395952 12; D 444337 13; D 178418 14; D 451715 14; D 878727 14; D 144542 15; D 211903 15; D 285898 15; D 362573 15; D 438569 15; D 511306 15;
   D 578982 15; D 640506 15; D 69537 16; D 743592 15; D 785596 15; D 822016 15; D 853537 15; D 880861 15; D 904572 15; D 925183 15; D 943116 15;
   D 95873 16; D 972361 15; D 984314 15; D 994858 15; D 100423 16; D 101262 16; D 102019 16; D 102705 16; D 103328 16; D 103894 16; D 104407 16;
   D 10487 17; D 105287 16; D 105662 16; D 105996 16; D 10629 17; D 106544 16; D 106756 16; D 106927 16; D 107056 16; D 107145 16; D 107194 16;
   D 107204 16; D 107173 16; D 1071 18; D 106982 16; D 106815 16; D 106597 16; D 106323 16; D 105991 16; D 105597 16; D 105136 16; D 104605 16;
   D 103996 16; D 103303 16; D 102519 16; D 101637 16; D 100652 16; D 995554 15; D 983428 15; D 970082 15; D 955461 15; D 939519 15; D 922215 15;
   D 903527 15; D 883444 15; D 861975 15; D 839148 15; D 81501 16; D 789624 15; D 763075 15; D 735462 15; D 706902 15; D 677526 15; D 647477 15;
   D 616906 15; D 585971 15; D 55483 16; D 545046 15; D 513886 15; D 482871 15; D 452141 15; D 421826 15; D 392048 15; D 362922 15; D 334553 15;
   D 30704 16; D 280481 15; D 254967 15; D 230594 15; D 207463 15; D 185683 15; D 165379 15; D 146695 15; D 129802 15; D 114905 15; D 102251 15;
   D 921381 14];
  [D 529801 12; D 595136 13; D 238314 14; D 60085 15; D 116356 15; D 190535 15; D 278119 15; D 373682 15; D 472055 15; D 568933 15; D 661072 15;
   D 746258 15; D 823219 15; D 891441 15; D 951102 15; D 100286 16; D 104758 16; D 10862 17; D 11196 17; D 114853 16; D 117363 16; D 119541 16;
   D 121435 16; D 123087 16; D 124536 16; D 125815 16; D 126954 16; D 127976 16; D 128899 16; D 129735 16; D 130494 16; D 13118 17; D 1318 18;
   D 132359 16; D 132862 16; D 13331 17; D 133706 16; D 13405 17; D 134341 16; D 134577 16; D 13476 17; D 13489 17; D 134968 16; D 134996 16;
   D 134972 16; D 134893 16; D 134758 16; D 13456 17; D 134296 16; D 133961 16; D 133552 16; D 133064 16; D 132491 16; D 131826 16; D 131063 16;
   D 130192 16; D 129204 16; D 128091 16; D 126844 16; D 125455 16; D 123916 16; D 122221 16; D 120361 16; D 118332 16; D 116128 16; D 113747 16;
   D 111187 16; D 108451 16; D 105544 16; D 102471 16; D 992412 15; D 958673 15; D 923625 15; D 887428 15; D 850257 15; D 812304 15; D 773767 15;
   D 734853 15; D 723171 15; D 684157 15; D 645231 15; D 606573 15; D 568354 15; D 530728 15; D 493837 15; D 457811 15; D 422764 15; D 388802 15;
   D 356019 15; D 324507 15; D 294351 15; D 265643 15; D 238477 15; D 212962 15; D 189222 15; D 167407 15; D 147698 15; D 130316 15; D 115534 15;
   D 103683 15];
  [D 708385 12; D 796261 13; D 317913 14; D 798214 14; D 153875 15; D 250847 15; D 364571 15; D 487826 15; D 613874 15; D 737214 15; D 853785 15;
   D 960882 15; D 105703 16; D 114177 16; D 121552 16; D 127925 16; D 133415 16; D 138146 16; D 142228 16; D 145758 16; D 148813 16; D 151459 16;
   D 153757 16; D 15576 17; D 157518 16; D 159072 16; D 160458 16; D 161704 16; D 16283 17; D 163849 16; D 164771 16; D 165604 16; D 166353 16;
   D 167027 16; D 16763 17; D 168164 16; D 16863 17; D 169028 16; D 169356 16; D 169613 16; D 169802 16; D 169923 16; D 169979 16; D 169968 16;
   D 169888 16; D 169735 16; D 169503 16; D 169186 16; D 168779 16; D 168276 16; D 167672 16; D 166961 16; D 166132 16; D 165177 16; D 164083 16;
   D 16284 17; D 161436 16; D 159859 16; D 1581 18; D 156148 16; D 153994 16; D 151629 16; D 149046 16; D 146238 16; D 143203 16; D 139939 16;
   D 136451 16; D 132744 16; D 128827 16; D 124714 16; D 120421 16; D 115966 16; D 111371 16; D 10666 17; D 101857 16; D 969899 15; D 920849 15;
   D 906723 15; D 857769 15; D 809035 15; D 760748 15; D 713116 15; D 666327 15; D 620547 15; D 575924 15; D 532588 15; D 490646 15; D 450196 15;
   D 411323 15; D 374105 15; D 338619 15; D 304944 15; D 273167 15; D 243392 15; D 215741 15; D 190368 15; D 167463 15; D 147266 15; D 130075 15;
   D 11626 16];
  [D 946384 12; D 106414 14; D 423572 14; D 10591 16; D 203244 15; D 329845 15; D 477321 15; D 636093 15; D 797403 15; D 954238 15; D 110153 16;
   D 123601 16; D 1356 18; D 146115 16; D 155225 16; D 163069 16; D 169806 16; D 1756 18; D 18059 17; D 184895 16; D 188613 16; D 191828 16;
   D 194616 16; D 197047 16; D 199182 16; D 201073 16; D 202763 16; D 204283 16; D 205656 16; D 206898 16; D 208018 16; D 209026 16; D 209932 16;
   D 210743 16; D 211463 16; D 212096 16; D 21264 17; D 213093 16; D 213455 16; D 213727 16; D 213912 16; D 214011 16; D 214024 16; D 213948 16;
   D 21378 17; D 213511 16; D 213134 16; D 212642 16; D 212027 16; D 211284 16; D 210402 16; D 209371 16; D 208178 16; D 206808 16; D 205246 16;
   D 203477 16; D 201486 16; D 199261 16; D 196787 16; D 194054 16; D 191048 16; D 187761 16; D 184185 16; D 180316 16; D 176154 16; D 171705 16;
   D 166976 16; D 161982 16; D 15674 17; D 151271 16; D 145602 16; D 139762 16; D 133781 16; D 127695 16; D 121537 16; D 115343 16; D 113616 16;
   D 107461 16; D 101346 16; D 953017 15; D 893527 15; D 835221 15; D 7783 17; D 722933 15; D 669263 15; D 617409 15; D 567467 15; D 519518 15;
   D 473628 15; D 429858 15; D 388266 15; D 348917 15; D 311885 15; D 277263 15; D 245172 15; D 215765 15; D 189245 15; D 165867 15; D 145959 15;
   D 129934 15];
  [D 12632 14; D 142046 14; D 563733 14; D 140352 15; D 268128 15; D 433211 15; D 624215 15; D 828489 15; D 103469 16; D 123387 16; D 141976 16;
   D 158843 16; D 1738 18; D 186838 16; D 198083 16; D 207733 16; D 215999 16; D 223094 16; D 229192 16; D 234442 16; D 238966 16; D 242872 16;
   D 246257 16; D 24921 17; D 251806 16; D 25411 17; D 256171 16; D 258027 16; D 259703 16; D 261214 16; D 262573 16; D 263793 16; D 264886 16;
   D 265859 16; D 266717 16; D 267461 16; D 268088 16; D 268596 16; D 268987 16; D 269263 16; D 269427 16; D 26948 17; D 26942 17; D 269241 16;
   D 268935 16; D 268492 16; D 267901 16; D 267155 16; D 266243 16; D 265154 16; D 263875 16; D 262389 16; D 260677 16; D 258719 16; D 256496 16;
   D 253987 16; D 251177 16; D 248047 16; D 244581 16; D 240765 16; D 236587 16; D 232035 16; D 227107 16; D 221802 16; D 216128 16; D 210096 16;
   D 203726 16; D 197042 16; D 190072 16; D 182852 16; D 175421 16; D 167821 16; D 160097 16; D 152295 16; D 150109 16; D 142325 16; D 13457 17;
   D 126883 16; D 1193 18; D 111854 16; D 104573 16; D 9748 17; D 90596 16; D 83937 16; D 775156 15; D 713417 15; D 654225 15; D 597633 15; D 543682 15;
   D 492406 15; D 443838 15; D 398021 15; D 355012 15; D 31489 16; D 277769 15; D 243803 15; D 213202 15; D 186241 15; D 163278 15; D 144772 15];
  [D 168446 13; D 189418 14; D 749437 14; D 185785 15; D 353323 15; D 568325 15; D 815405 15; D 107791 16; D 134117 16; D 159388 16; D 182821 16;
   D 20395 17; D 222575 16; D 238727 16; D 252601 16; D 264467 16; D 27461 17; D 283295 16; D 290747 16; D 297148 16; D 302653 16; D 307399 16;
   D 311512 16; D 315102 16; D 318263 16; D 321073 16; D 323591 16; D 325858 16; D 327901 16; D 329738 16; D 331386 16; D 332861 16; D 334177 16;
   D 335341 16; D 336357 16; D 337223 16; D 337935 16; D 338493 16; D 338901 16; D 339163 16; D 339282 16; D 339254 16; D 339076 16; D 338736 16;
   D 338221 16; D 337519 16; D 336618 16; D 335505 16; D 334167 16; D 332587 16; D 330743 16; D 32861 17; D 326162 16; D 323374 16; D 320221 16;
   D 316679 16; D 312726 16; D 30834 17; D 303503 16; D 298198 16; D 292412 16; D 286139 16; D 279382 16; D 27215 17; D 264458 16; D 256334 16;
   D 247809 16; D 238923 16; D 229723 16; D 220262 16; D 210594 16; D 200781 16; D 190883 16; D 188133 16; D 178291 16; D 168502 16; D 15882 17;
   D 149288 16; D 139948 16; D 130835 16; D 121977 16; D 113399 16; D 10512 17; D 971518 15; D 89506 16; D 821883 15; D 752024 15; D 685498 15;
   D 622308 15; D 562451 15; D 50593 16; D 452757 15; D 402965 15; D 356616 15; D 313811 15; D 274702 15; D 239508 15; D 208521 15; D 182133 15;
   D 160851 15];
  [D 224396 13; D 25236 15; D 995193 14; D 245648 15; D 465069 15; D 744755 15; D 106401 16; D 140096 16; D 17367 17; D 205695 16; D 235201 16;
   D 261643 16; D 284813 16; D 304809 16; D 321917 16; D 336504 16; D 348947 16; D 359579 16; D 368683 16; D 376487 16; D 383185 16; D 388954 16;
   D 393954 16; D 398324 16; D 402178 16; D 40561 17; D 408687 16; D 411456 16; D 413944 16; D 416176 16; D 418173 16; D 419955 16; D 421535 16;
   D 422922 16; D 424115 16; D 425111 16; D 425906 16; D 426504 16; D 426911 16; D 427131 16; D 427163 16; D 427002 16; D 426637 16; D 426051 16;
   D 425226 16; D 424147 16; D 422798 16; D 421162 16; D 419217 16; D 416937 16; D 414289 16; D 41124 17; D 407755 16; D 403801 16; D 399349 16;
   D 394367 16; D 388829 16; D 382708 16; D 375984 16; D 368639 16; D 360667 16; D 352068 16; D 342856 16; D 333055 16; D 322697 16; D 311826 16;
   D 300497 16; D 28877 17; D 276717 16; D 264411 16; D 251932 16; D 23936 17; D 235872 16; D 223407 16; D 211032 16; D 198813 16; D 186808 16;
   D 175068 16; D 163637 16; D 152551 16; D 141838 16; D 13152 17; D 121611 16; D 112123 16; D 103059 16; D 944217 15; D 862087 15; D 784167 15;
   D 710409 15; D 640765 15; D 575195 15; D 513672 15; D 456198 15; D 402812 15; D 353598 15; D 308703 15; D 268349 15; D 23285 16; D 202631 15;
   D 178254 15];
  [D 298622 13; D 335892 14; D 132023 15; D 324441 15; D 61149 16; D 974923 15; D 138697 16; D 181899 16; D 224671 16; D 265211 16; D 302328 16;
   D 335383 16; D 364182 16; D 388919 16; D 410006 16; D 427933 16; D 443196 16; D 456212 16; D 467333 16; D 476844 16; D 484994 16; D 492011 16;
   D 498096 16; D 503419 16; D 508124 16; D 512319 16; D 516081 16; D 519461 16; D 52249 17; D 525199 16; D 527616 16; D 529765 16; D 531657 16;
   D 533299 16; D 534687 16; D 535817 16; D 536687 16; D 537306 16; D 53768 17; D 537813 16; D 537698 16; D 537325 16; D 536672 16; D 535717 16;
   D 534438 16; D 532815 16; D 530827 16; D 528446 16; D 525639 16; D 522365 16; D 51858 17; D 514238 16; D 509297 16; D 503715 16; D 497454 16;
   D 490477 16; D 48275 17; D 474244 16; D 464937 16; D 454819 16; D 443891 16; D 432172 16; D 419691 16; D 406493 16; D 392637 16; D 378193 16;
   D 363246 16; D 347886 16; D 332213 16; D 316333 16; D 300349 16; D 29589 17; D 280083 16; D 264415 16; D 248969 16; D 23382 17; D 219034 16;
   D 204666 16; D 190759 16; D 177348 16; D 164459 16; D 152109 16; D 140307 16; D 129056 16; D 118355 16; D 108198 16; D 985764 15; D 894801 15;
   D 808981 15; D 728194 15; D 652346 15; D 581363 15; D 515206 15; D 453883 15; D 397458 15; D 346065 15; D 29993 16; D 259384 15; D 224889 15;
   D 197067 15];
  [D 397032 13; D 446624 14; D 174969 15; D 428071 15; D 803179 15; D 127491 16; D 180615 16; D 235948 16; D 29038 17; D 341646 16; D 38829 17;
   D 429572 16; D 465338 16; D 495921 16; D 521903 16; D 543934 16; D 56265 17; D 578581 16; D 592164 16; D 603755 16; D 613676 16; D 622216 16;
   D 629627 16; D 63612 17; D 64187 17; D 647001 16; D 651601 16; D 655723 16; D 659408 16; D 662694 16; D 665617 16; D 6682 18; D 670457 16;
   D 672387 16; D 673983 16; D 675242 16; D 67617 17; D 676777 16; D 677071 16; D 677048 16; D 676696 16; D 675991 16; D 674905 16; D 673408 16;
   D 671472 16; D 669072 16; D 666173 16; D 662734 16; D 658704 16; D 654025 16; D 648637 16; D 642483 16; D 635508 16; D 627662 16; D 618896 16;
   D 609164 16; D 598428 16; D 586659 16; D 57384 17; D 559975 16; D 545085 16; D 529209 16; D 512407 16; D 494755 16; D 476348 16; D 457296 16;
   D 43772 17; D 417753 16; D 397532 16; D 377195 16; D 371456 16; D 351388 16; D 331521 16; D 311966 16; D 292817 16; D 274159 16; D 256061 16;
   D 238579 16; D 221753 16; D 205616 16; D 190184 16; D 175468 16; D 161469 16; D 148181 16; D 135592 16; D 12369 17; D 112454 16; D 101868 16;
   D 919115 15; D 825663 15; D 738161 15; D 656482 15; D 580529 15; D 510274 15; D 445747 15; D 387071 15; D 33447 16; D 288291 15; D 249035 15;
   D 217387 15];
  [D 527562 13; D 593289 14; D 23165 16; D 564226 15; D 105388 16; D 166555 16; D 234975 16; D 305772 16; D 374972 16; D 439736 16; D 498293 16;
   D 5498 18; D 594188 16; D 631981 16; D 663982 16; D 691053 16; D 714002 16; D 733499 16; D 750084 16; D 764212 16; D 776292 16; D 786692 16;
   D 795726 16; D 803657 16; D 81069 17; D 816969 16; D 822591 16; D 827616 16; D 832095 16; D 836078 16; D 839607 16; D 842704 16; D 845379 16;
   D 847626 16; D 849436 16; D 850812 16; D 851766 16; D 85231 17; D 852447 16; D 852165 16; D 851439 16; D 850232 16; D 848505 16; D 846221 16;
   D 843346 16; D 839839 16; D 835649 16; D 830711 16; D 824952 16; D 818293 16; D 810657 16; D 801973 16; D 792172 16; D 78119 17; D 768967 16;
   D 755451 16; D 7406 18; D 724394 16; D 706833 16; D 687942 16; D 667774 16; D 646405 16; D 623936 16; D 600491 16; D 576213 16; D 551265 16;
   D 52582 17; D 500061 16; D 492377 16; D 466744 16; D 441238 16; D 416016 16; D 391221 16; D 366976 16; D 34339 17; D 32055 17; D 298526 16;
   D 27737 17; D 257117 16; D 237789 16; D 219395 16; D 201932 16; D 18539 17; D 169752 16; D 154993 16; D 141088 16; D 128007 16; D 115721 16;
   D 104201 16; D 934187 15; D 833497 15; D 739738 15; D 652753 15; D 572459 15; D 498852 15; D 432028 15; D 372208 15; D 319753 15; D 275206 15;
   D 239316 15];
  [D 700559 13; D 787496 14; D 306402 15; D 742949 15; D 138149 16; D 21738 17; D 305411 16; D 395905 16; D 483794 16; D 565529 16; D 638971 16;
   D 703179 16; D 75823 17; D 804909 16; D 84431 17; D 877574 16; D 905713 16; D 92957 17; D 949819 16; D 967039 16; D 981755 16; D 99443 17;
   D 100545 17; D 101515 17; D 102376 17; D 103145 17; D 103831 17; D 104443 17; D 104987 17; D 10547 18; D 105895 17; D 106265 17; D 106579 17;
   D 106838 17; D 10704 18; D 107187 17; D 107279 17; D 107319 17; D 107306 17; D 107236 17; D 107106 17; D 10691 18; D 106644 17; D 106303 17;
   D 105882 17; D 105375 17; D 104773 17; D 104067 17; D 103248 17; D 102304 17; D 101227 17; D 100007 17; D 986357 16; D 971051 16; D 95408 17;
   D 935389 16; D 914946 16; D 892747 16; D 868824 16; D 843241 16; D 816097 16; D 787523 16; D 75768 17; D 726757 16; D 694968 16; D 662541 16;
   D 629716 16; D 619718 16; D 587085 16; D 554637 16; D 522579 16; D 491098 16; D 460355 16; D 430488 16; D 40161 17; D 373808 16; D 347148 16;
   D 321672 16; D 297406 16; D 274357 16; D 252519 16; D 231875 16; D 212397 16; D 194052 16; D 176801 16; D 160603 16; D 145415 16; D 131194 16;
   D 117897 16; D 105487 16; D 939283 15; D 831909 15; D 73252 16; D 640964 15; D 557192 15; D 481269 15; D 413402 15; D 353969 15; D 303548 15;
   D 262965 15];
  [D 929633 13; D 104441 15; D 404911 15; D 977378 15; D 180924 16; D 283449 16; D 396602 16; D 512166 16; D 623685 16; D 726742 16; D 818763 16;
   D 898739 16; D 966971 16; D 10246 18; D 107311 17; D 111397 17; D 114847 17; D 117766 17; D 120238 17; D 122337 17; D 124131 17; D 125677 17;
   D 127024 17; D 128211 17; D 129265 17; D 130206 17; D 131044 17; D 131789 17; D 132449 17; D 133033 17; D 133543 17; D 133982 17; D 13435 18;
   D 134644 17; D 134864 17; D 135015 17; D 135096 17; D 135109 17; D 135051 17; D 134917 17; D 134701 17; D 134395 17; D 133995 17; D 133493 17;
   D 132883 17; D 132153 17; D 131294 17; D 13029 18; D 129129 17; D 127798 17; D 126285 17; D 124579 17; D 122668 17; D 120544 17; D 118198 17;
   D 115625 17; D 112825 17; D 109801 17; D 106562 17; D 103118 17; D 994887 16; D 956933 16; D 91757 17; D 877076 16; D 835754 16; D 793916 16;
   D 780874 16; D 739303 16; D 697989 16; D 657201 16; D 617181 16; D 578141 16; D 54026 17; D 503682 16; D 468519 16; D 434853 16; D 402738 16;
   D 372201 16; D 343248 16; D 31587 17; D 290038 16; D 265714 16; D 242851 16; D 221395 16; D 201287 16; D 182469 16; D 164877 16; D 148455 16;
   D 133145 16; D 118894 16; D 105654 16; D 93384 16; D 820523 15; D 716355 15; D 621223 15; D 535152 15; D 458332 15; D 391148 15; D 334221 15;
   D 28845 16];
  [D 123269 14; D 138392 15; D 534598 15; D 128459 16; D 236724 16; D 369266 16; D 514572 16; D 662012 16; D 803391 16; D 933206 16; D 104841 17;
   D 114795 17; D 123247 17; D 13036 18; D 13633 18; D 14135 18; D 145579 17; D 149149 17; D 152167 17; D 154727 17; D 156915 17; D 158802 17;
   D 160449 17; D 161903 17; D 163195 17; D 164346 17; D 165368 17; D 166274 17; D 167075 17; D 167779 17; D 16839 18; D 168909 17; D 169333 17;
   D 169661 17; D 169897 17; D 170042 17; D 170099 17; D 170066 17; D 169937 17; D 169705 17; D 169362 17; D 168898 17; D 168306 17; D 167577 17;
   D 166699 17; D 165656 17; D 164434 17; D 163012 17; D 161375 17; D 159507 17; D 157391 17; D 155014 17; D 152363 17; D 149426 17; D 146198 17;
   D 142675 17; D 138861 17; D 134766 17; D 130405 17; D 1258 19; D 120978 17; D 115971 17; D 110815 17; D 10555 18; D 100217 17; D 985126 16;
   D 932144 16; D 879503 16; D 827558 16; D 776626 16; D 726983 16; D 678863 16; D 632454 16; D 587899 16; D 545301 16; D 504728 16; D 466212 16;
   D 429758 16; D 395347 16; D 36294 17; D 332484 16; D 303913 16; D 277154 16; D 252127 16; D 22875 17; D 206939 16; D 186613 16; D 167693 16;
   D 150101 16; D 13377 17; D 118636 16; D 104645 16; D 91752 16; D 799246 15; D 691438 15; D 594068 15; D 507299 15; D 431521 15; D 367394 15;
   D 3159 17];
  [D 163325 14; D 183218 15; D 705181 15; D 168684 16; D 30946 17; D 480644 16; D 667068 16; D 855006 16; D 103408 17; D 119747 17; D 134156 17;
   D 146536 17; D 157 20; D 165777 17; D 173125 17; D 179289 17; D 184474 17; D 18884 18; D 192525 17; D 195648 17; D 198318 17; D 200624 17;
   D 202641 17; D 204422 17; D 206005 17; D 207412 17; D 208658 17; D 20976 18; D 21073 18; D 211577 17; D 212305 17; D 212912 17; D 213396 17;
   D 213756 17; D 213999 17; D 214126 17; D 214137 17; D 214029 17; D 213792 17; D 213415 17; D 212886 17; D 212195 17; D 211332 17; D 210282 17;
   D 209026 17; D 207544 17; D 205813 17; D 203808 17; D 20151 18; D 198897 17; D 195951 17; D 192653 17; D 18899 18; D 18495 18; D 180528 17;
   D 175729 17; D 170563 17; D 165049 17; D 159215 17; D 153096 17; D 146732 17; D 140172 17; D 133466 17; D 126669 17; D 124438 17; D 117683 17;
   D 110971 17; D 10435 18; D 978615 16; D 915412 16; D 854198 16; D 79522 17; D 738663 16; D 684661 16; D 633296 16; D 584609 16; D 538602 16;
   D 495247 16; D 454489 16; D 416254 16; D 380455 16; D 34699 17; D 315753 16; D 286633 16; D 259519 16; D 234298 16; D 210863 16; D 189109 16;
   D 168939 16; D 150262 16; D 132997 16; D 117074 16; D 102433 16; D 890304 15; D 768371 15; D 658437 15; D 560629 15; D 475333 15; D 403249 15;
   D 345448 15];
  [D 216221 14; D 242382 15; D 929422 15; D 221316 16; D 404197 16; D 625088 16; D 864051 16; D 11034 18; D 133002 17; D 153549 17; D 171558 17;
   D 186945 17; D 199895 17; D 21072 18; D 219763 17; D 227333 17; D 233687 17; D 239027 17; D 243526 17; D 247338 17; D 250598 17; D 253419 17;
   D 255891 17; D 258075 17; D 260014 17; D 261733 17; D 263252 17; D 26459 18; D 265763 17; D 26678 18; D 267642 17; D 268345 17; D 268888 17;
   D 269275 17; D 269511 17; D 269597 17; D 269532 17; D 269307 17; D 268906 17; D 268316 17; D 267522 17; D 26651 18; D 265263 17; D 26376 18;
   D 261974 17; D 259876 17; D 257434 17; D 25462 18; D 251407 17; D 247769 17; D 243683 17; D 239127 17; D 234087 17; D 228553 17; D 222529 17;
   D 216026 17; D 209068 17; D 20169 18; D 193934 17; D 185855 17; D 177513 17; D 168975 17; D 160314 17; D 1516 19; D 148777 17; D 140216 17;
   D 13177 18; D 123495 17; D 115439 17; D 107642 17; D 100135 17; D 929438 16; D 860851 16; D 795695 16; D 73402 17; D 675825 16; D 621071 16;
   D 569681 16; D 521557 16; D 476579 16; D 434613 16; D 395517 16; D 359141 16; D 325339 16; D 293959 16; D 264856 16; D 237891 16; D 212929 16;
   D 189846 16; D 168527 16; D 148868 16; D 13078 17; D 114185 16; D 990253 15; D 8526 17; D 728714 15; D 61867 16; D 522847 15; D 441982 15;
   D 377237 15];
  [D 286012 14; D 32042 16; D 122395 16; D 290124 16; D 527493 16; D 812274 16; D 111832 17; D 142289 17; D 170943 17; D 196761 17; D 219251 17;
   D 238364 17; D 254383 17; D 267731 17; D 278859 17; D 288156 17; D 295943 17; D 302473 17; D 307966 17; D 312621 17; D 316607 17; D 320061 17;
   D 323092 17; D 325771 17; D 328145 17; D 330244 17; D 332093 17; D 333717 17; D 335133 17; D 336348 17; D 337361 17; D 338167 17; D 338767 17;
   D 339168 17; D 339375 17; D 339389 17; D 339201 17; D 338796 17; D 338154 17; D 337256 17; D 336083 17; D 334617 17; D 332831 17; D 330692 17;
   D 328164 17; D 325205 17; D 321777 17; D 317843 17; D 313369 17; D 308324 17; D 302679 17; D 296411 17; D 289506 17; D 281965 17; D 273799 17;
   D 265038 17; D 255722 17; D 245907 17; D 235662 17; D 225064 17; D 214201 17; D 203167 17; D 192055 17; D 18835 18; D 177425 17; D 166645 17;
   D 156083 17; D 145803 17; D 135858 17; D 126291 17; D 117132 17; D 108405 17; D 100125 17; D 922958 16; D 849186 16; D 779875 16; D 714924 16;
   D 654199 16; D 59754 17; D 54477 17; D 495698 16; D 450132 16; D 407868 16; D 368712 16; D 332469 16; D 298954 16; D 267986 16; D 239396 16;
   D 213029 16; D 188738 16; D 166393 16; D 145881 16; D 127105 16; D 109988 16; D 944749 15; D 805386 15; D 681798 15; D 574346 15; D 483799 15;
   D 411419 15];
  [D 378092 14; D 42326 16; D 161043 16; D 380009 16; D 687841 16; D 105468 17; D 14463 18; D 183355 17; D 219556 17; D 251971 17; D 280035 17;
   D 303764 17; D 323573 17; D 340031 17; D 353722 17; D 365138 17; D 374679 17; D 382664 17; D 389375 17; D 395063 17; D 399938 17; D 404172 17;
   D 40789 18; D 411177 17; D 414083 17; D 416643 17; D 418894 17; D 420862 17; D 422566 17; D 424011 17; D 425191 17; D 426103 17; D 426751 17;
   D 427146 17; D 427291 17; D 427181 17; D 426802 17; D 426129 17; D 425135 17; D 423797 17; D 42209 18; D 419984 17; D 41744 18; D 414412 17;
   D 410847 17; D 406691 17; D 401898 17; D 396421 17; D 390217 17; D 383248 17; D 37548 18; D 366892 17; D 357479 17; D 347252 17; D 336245 17;
   D 324507 17; D 312107 17; D 299132 17; D 285683 17; D 271872 17; D 25782 18; D 243652 17; D 238789 17; D 224843 17; D 211076 17; D 197585 17;
   D 184454 17; D 171755 17; D 159543 17; D 147861 17; D 136739 17; D 126195 17; D 116238 17; D 106866 17; D 980731 16; D 898446 16; D 821631 16;
   D 750074 16; D 683541 16; D 621779 16; D 564535 16; D 511539 16; D 462537 16; D 417271 16; D 375493 16; D 336967 16; D 301466 16; D 26878 17;
   D 238712 16; D 211082 16; D 185728 16; D 162507 16; D 141297 16; D 122002 16; D 104549 16; D 888982 15; D 750418 15; D 630131 15; D 528923 15;
   D 448156 15];
  [D 499566 14; D 558667 15; D 211729 16; D 497349 16; D 896227 16; D 136837 17; D 18691 18; D 236106 17; D 281807 17; D 322472 17; D 357468 17;
   D 386913 17; D 4114 19; D 43169 18; D 448533 17; D 46255 18; D 474238 17; D 484003 17; D 492204 17; D 499159 17; D 505129 17; D 510322 17;
   D 514886 17; D 518917 17; D 52247 18; D 525593 17; D 52833 18; D 530712 17; D 532756 17; D 534462 17; D 535823 17; D 536838 17; D 537518 17;
   D 537873 17; D 537904 17; D 537598 17; D 536929 17; D 53586 18; D 53436 18; D 532398 17; D 529938 17; D 526935 17; D 523332 17; D 519061 17;
   D 514053 17; D 508242 17; D 501567 17; D 493972 17; D 485401 17; D 47581 18; D 465165 17; D 453452 17; D 440681 17; D 426886 17; D 412128 17;
   D 396492 17; D 380085 17; D 363037 17; D 345493 17; D 32761 18; D 309551 17; D 303169 17; D 285362 17; D 267772 17; D 250527 17; D 233741 17;
   D 217507 17; D 2019 19; D 186977 17; D 172779 17; D 159331 17; D 146642 17; D 134712 17; D 123532 17; D 113084 17; D 103344 17; D 94284 17;
   D 858735 16; D 780793 16; D 708672 16; D 642031 16; D 580526 16; D 52382 17; D 471588 16; D 423516 16; D 379308 16; D 338682 16; D 301374 16;
   D 267143 16; D 235766 16; D 207042 16; D 180796 16; D 156876 16; D 13516 17; D 115556 16; D 980069 15; D 824963 15; D 690528 15; D 577591 15;
   D 487619 15];
  [D 659703 14; D 736839 15; D 278155 16; D 650417 16; D 116684 17; D 177403 17; D 241377 17; D 303829 17; D 361478 17; D 412454 17; D 456066 17;
   D 492585 17; D 522848 17; D 547858 17; D 568576 17; D 585786 17; D 600103 17; D 612045 17; D 622073 17; D 630582 17; D 637898 17; D 644272 17;
   D 649877 17; D 654818 17; D 659161 17; D 662968 17; D 666293 17; D 669168 17; D 671609 17; D 673609 17; D 67516 18; D 676269 17; D 676951 17;
   D 677215 17; D 677055 17; D 676443 17; D 67534 18; D 673698 17; D 671477 17; D 668636 17; D 665121 17; D 660863 17; D 655779 17; D 649778 17;
   D 642772 17; D 634679 17; D 625421 17; D 614926 17; D 60313 18; D 589983 17; D 575457 17; D 559556 17; D 542315 17; D 523805 17; D 504128 17;
   D 483418 17; D 461839 17; D 439577 17; D 416835 17; D 393826 17; D 385453 17; D 362716 17; D 340234 17; D 318179 17; D 296701 17; D 275927 17;
   D 255957 17; D 236869 17; D 218716 17; D 201532 17; D 185333 17; D 170117 17; D 155873 17; D 142577 17; D 130198 17; D 118699 17; D 10804 18;
   D 981777 16; D 890674 16; D 80663 17; D 729206 16; D 657958 16; D 592457 16; D 532293 16; D 477075 16; D 426431 16; D 380014 16; D 3375 18;
   D 29859 17; D 263012 16; D 230521 16; D 2009 18; D 173964 16; D 14956 17; D 127572 16; D 107926 16; D 905897 15; D 755881 15; D 630052 15;
   D 52999 16];
  [D 870655 14; D 971195 15; D 365142 16; D 849941 16; D 151805 17; D 22983 18; D 311501 17; D 39072 18; D 463386 17; D 527241 17; D 581558 17;
   D 626832 17; D 664221 17; D 695048 17; D 720533 17; D 741658 17; D 759195 17; D 773803 17; D 786068 17; D 796487 17; D 805462 17; D 81329 18;
   D 820172 17; D 826226 17; D 831533 17; D 836171 17; D 840203 17; D 843665 17; D 846564 17; D 848888 17; D 850632 17; D 851812 17; D 852448 17;
   D 852542 17; D 852074 17; D 851 20; D 849259 17; D 846796 17; D 843557 17; D 839482 17; D 83449 18; D 82848 18; D 821335 17; D 812937 17;
   D 803175 17; D 791945 17; D 779151 17; D 764704 17; D 748529 17; D 73058 18; D 710847 17; D 689363 17; D 666207 17; D 641502 17; D 615412 17;
   D 588141 17; D 559927 17; D 531033 17; D 501735 17; D 490757 17; D 461728 17; D 432988 17; D 404767 17; D 377267 17; D 350658 17; D 325077 17;
   D 300628 17; D 277384 17; D 255393 17; D 234675 17; D 215231 17; D 197046 17; D 180089 17; D 16432 18; D 149691 17; D 13615 18; D 123638 17;
   D 112098 17; D 101471 17; D 916969 16; D 827185 16; D 744797 16; D 669268 16; D 600084 16; D 536758 16; D 478833 16; D 425881 16; D 377507 16;
   D 333345 16; D 293064 16; D 256364 16; D 222983 16; D 192694 16; D 165309 16; D 140684 16; D 11872 17; D 993719 15; D 826559 15; D 686575 15;
   D 57546 16];
  [D 114834 15; D 127922 16; D 478966 16; D 110987 17; D 197353 17; D 297542 17; D 401728 17; D 502146 17; D 593671 17; D 673605 17; D 741214 17;
   D 797317 17; D 843498 17; D 881494 17; D 912841 17; D 938768 17; D 960248 17; D 978123 17; D 993135 17; D 10059 19; D 101692 18; D 102654 18;
   D 103499 18; D 10424 19; D 104888 18; D 105453 18; D 105941 18; D 106356 18; D 106699 18; D 106966 18; D 107159 18; D 10728 19; D 107331 18;
   D 107311 18; D 107217 18; D 10704 19; D 106774 18; D 106411 18; D 105945 18; D 105364 18; D 104659 18; D 103814 18; D 102814 18; D 101643 18;
   D 100288 18; D 987355 17; D 969737 17; D 949919 17; D 927825 17; D 903423 17; D 876738 17; D 847854 17; D 816913 17; D 784116 17; D 749715 17;
   D 714011 17; D 677341 17; D 640064 17; D 625689 17; D 588634 17; D 551891 17; D 515768 17; D 480536 17; D 446426 17; D 413621 17; D 382268 17;
   D 352464 17; D 324275 17; D 297733 17; D 27284 18; D 249578 17; D 227907 17; D 207776 17; D 189123 17; D 171878 17; D 155966 17; D 141311 17;
   D 127836 17; D 115462 17; D 104115 17; D 937217 16; D 842109 16; D 755157 16; D 675725 16; D 603213 16; D 53706 17; D 476743 16; D 421781 16;
   D 371729 16; D 326186 16; D 28479 17; D 247224 16; D 213211 16; D 182523 16; D 154981 16; D 13046 17; D 108896 16; D 902957 15; D 747444 15;
   D 624232 15];
  [D 151361 15; D 168374 16; D 627832 16; D 144825 17; D 256385 17; D 38494 18; D 517754 17; D 644949 17; D 76015 18; D 860141 17; D 944248 17;
   D 101375 18; D 107078 18; D 111761 18; D 115616 18; D 118798 18; D 121429 18; D 123617 18; D 125455 18; D 127021 18; D 128374 18; D 129557 18;
   D 130594 18; D 131501 18; D 132292 18; D 132979 18; D 133569 18; D 134065 18; D 134466 18; D 134769 18; D 134978 18; D 135095 18; D 135122 18;
   D 135056 18; D 134889 18; D 134612 18; D 134214 18; D 133687 18; D 13302 19; D 132199 18; D 131206 18; D 130023 18; D 128627 18; D 127001 18;
   D 125127 18; D 122989 18; D 120571 18; D 117863 18; D 114857 18; D 111554 18; D 107962 18; D 104098 18; D 999848 17; D 956542 17; D 911437 17;
   D 86496 18; D 817577 17; D 769768 17; D 751497 17; D 704527 17; D 65828 18; D 613121 17; D 569363 17; D 527257 17; D 487 20; D 448735 17;
   D 412549 17; D 378489 17; D 346564 17; D 31675 18; D 288999 17; D 263245 17; D 239407 17; D 217394 17; D 197109 17; D 17845 18; D 161319 17;
   D 145612 17; D 131231 17; D 118081 17; D 106069 17; D 951071 16; D 851124 16; D 760064 16; D 677155 16; D 601713 16; D 533102 16; D 470739 16;
   D 414089 16; D 362666 16; D 316036 16; D 273815 16; D 23567 17; D 201325 16; D 170561 16; D 143221 16; D 119219 16; D 985494 15; D 812961 15;
   D 676522 15];
  [D 199373 15; D 221459 16; D 822396 16; D 188845 17; D 332849 17; D 497679 17; D 666866 17; D 827866 17; D 972774 17; D 109777 18; D 120235 18;
   D 128843 18; D 135885 18; D 141655 18; D 146396 18; D 150301 18; D 153524 18; D 156203 18; D 158456 18; D 160377 18; D 162041 18; D 163494 18;
   D 164767 18; D 165877 18; D 166841 18; D 167675 18; D 168387 18; D 168976 18; D 169441 18; D 169781 18; D 170001 18; D 170103 18; D 170088 18;
   D 169949 18; D 169675 18; D 169252 18; D 168667 18; D 16791 19; D 166963 18; D 165807 18; D 164416 18; D 162764 18; D 160824 18; D 158574 18;
   D 155992 18; D 153056 18; D 14975 19; D 146062 18; D 141989 18; D 137538 18; D 132726 18; D 127582 18; D 122143 18; D 116456 18; D 110575 18;
   D 104559 18; D 984717 17; D 960756 17; D 900727 17; D 841514 17; D 783612 17; D 727442 17; D 673353 17; D 621613 17; D 57242 18; D 525902 17;
   D 482126 17; D 441111 17; D 40283 18; D 367224 17; D 334208 17; D 303677 17; D 275514 17; D 249592 17; D 225778 17; D 203943 17; D 183952 17;
   D 165676 17; D 148991 17; D 133775 17; D 119914 17; D 107299 17; D 958272 16; D 85403 17; D 759365 16; D 673447 16; D 595507 16; D 524841 16;
   D 460805 16; D 402818 16; D 350357 16; D 302964 16; D 260239 16; D 22185 17; D 187529 16; D 157084 16; D 130403 16; D 107462 16; D 883445 15;
   D 732556 15];
  [D 262438 15; D 291096 16; D 10765 18; D 24608 18; D 431828 17; D 643025 17; D 858396 17; D 106205 18; D 12442 19; D 140035 18; D 153034 18;
   D 163691 18; D 172387 18; D 179496 18; D 185326 18; D 190117 18; D 194066 18; D 197348 18; D 20011 19; D 20247 19; D 204516 18; D 206303 18;
   D 207863 18; D 20922 19; D 210396 18; D 211407 18; D 212262 18; D 212958 18; D 213492 18; D 213867 18; D 214088 18; D 214158 18; D 214074 18;
   D 213825 18; D 213393 18; D 212761 18; D 211915 18; D 210836 18; D 2095 20; D 207878 18; D 205935 18; D 203637 18; D 200952 18; D 197849 18;
   D 194301 18; D 190284 18; D 185779 18; D 180777 18; D 175281 18; D 169311 18; D 162896 18; D 156083 18; D 148927 18; D 141499 18; D 133872 18;
   D 126129 18; D 122992 18; D 115324 18; D 107743 18; D 100317 18; D 931039 17; D 861503 17; D 794941 17; D 731628 17; D 671747 17; D 6154 19;
   D 56262 18; D 51338 18; D 467608 17; D 425197 17; D 386013 17; D 349901 17; D 316699 17; D 286233 17; D 258332 17; D 232823 17; D 209535 17;
   D 188306 17; D 168977 17; D 151398 17; D 135427 17; D 12093 18; D 107782 17; D 958648 16; D 850705 16; D 752984 16; D 664559 16; D 584585 16;
   D 51229 17; D 44698 17; D 388032 16; D 334897 16; D 2871 18; D 244241 16; D 205999 16; D 172137 16; D 142511 16; D 117081 16; D 959238 15;
   D 792574 15];
  [D 34529 16; D 382395 16; D 140817 17; D 32045 18; D 559877 17; D 830297 17; D 110428 18; D 136172 18; D 159052 18; D 17855 19; D 1947 20;
   D 207891 18; D 218626 18; D 227385 18; D 234554 18; D 240432 18; D 245271 18; D 249292 18; D 252681 18; D 255583 18; D 2581 20; D 260296 18;
   D 262208 18; D 263866 18; D 265299 18; D 266523 18; D 267545 18; D 268361 18; D 268967 18; D 269371 18; D 269578 18; D 269591 18; D 269399 18;
   D 268985 18; D 268325 18; D 267399 18; D 266186 18; D 264659 18; D 262783 18; D 260515 18; D 257811 18; D 254626 18; D 25092 19; D 246656 18;
   D 241798 18; D 23632 19; D 230203 18; D 223445 18; D 216063 18; D 20809 19; D 199579 18; D 1906 20; D 181236 18; D 171584 18; D 161749 18;
   D 151837 18; D 147858 18; D 138157 18; D 128633 18; D 119366 18; D 110422 18; D 101852 18; D 936943 17; D 859764 17; D 787133 17; D 719105 17;
   D 655661 17; D 596713 17; D 542128 17; D 491732 17; D 44533 18; D 402706 17; D 363639 17; D 327902 17; D 295269 17; D 265517 17; D 238433 17;
   D 21381 18; D 191452 17; D 171173 17; D 152797 17; D 13616 18; D 12111 18; D 107505 17; D 952119 16; D 841112 16; D 740915 16; D 650515 16;
   D 568994 16; D 495523 16; D 429362 16; D 369859 16; D 316448 16; D 268654 16; D 226091 16; D 188472 16; D 155615 16; D 127457 16; D 10407 17;
   D 856828 15];
  [D 4541 17; D 502014 16; D 184085 17; D 417024 17; D 725437 17; D 107146 18; D 141978 18; D 174499 18; D 203223 18; D 227554 18; D 247611 18;
   D 263935 18; D 277188 18; D 287979 18; D 296792 18; D 304003 18; D 309935 18; D 314866 18; D 319027 18; D 322596 18; D 325694 18; D 328391 18;
   D 330734 18; D 33276 19; D 334503 18; D 33598 19; D 337196 18; D 338144 18; D 338824 18; D 339245 18; D 339415 18; D 33933 19; D 338974 18;
   D 338318 18; D 337333 18; D 335993 18; D 334268 18; D 332119 18; D 329494 18; D 326335 18; D 322584 18; D 318185 18; D 313087 18; D 307245 18;
   D 300615 18; D 29317 19; D 284895 18; D 275804 18; D 26593 19; D 255333 18; D 244096 18; D 232321 18; D 22013 19; D 207656 18; D 195039 18;
   D 189822 18; D 177411 18; D 1652 20; D 153293 18; D 141782 18; D 13074 19; D 12022 19; D 110261 18; D 100886 18; D 921051 17; D 83917 18;
   D 763118 17; D 692729 17; D 627786 17; D 568035 17; D 513198 17; D 462986 17; D 417103 17; D 375254 17; D 337148 17; D 302504 17; D 271052 17;
   D 242536 17; D 216711 17; D 193348 17; D 172233 17; D 153166 17; D 135961 17; D 120446 17; D 106464 17; D 938696 16; D 825292 16; D 723227 16;
   D 631406 16; D 548847 16; D 474673 16; D 408112 16; D 348494 16; D 295255 16; D 247935 16; D 206188 16; D 169788 16; D 138645 16; D 112821 16;
   D 925586 15];
  [D 596915 15; D 658627 16; D 240497 17; D 54236 18; D 939377 17; D 138185 18; D 182439 18; D 223497 18; D 259535 18; D 289883 18; D 314782 18;
   D 334978 18; D 351337 18; D 364631 18; D 375465 18; D 384313 18; D 391586 18; D 397636 18; D 402749 18; D 407142 18; D 410953 18; D 414266 18;
   D 417134 18; D 419608 18; D 421725 18; D 423504 18; D 424942 18; D 426033 18; D 426781 18; D 427201 18; D 427296 18; D 427056 18; D 426453 18;
   D 425448 18; D 424004 18; D 422086 18; D 41965 19; D 416638 18; D 412978 18; D 408591 18; D 403405 18; D 397349 18; D 39036 19; D 382379 18;
   D 37336 19; D 363276 18; D 352128 18; D 339947 18; D 3268 20; D 31278 19; D 298014 18; D 28265 19; D 266859 18; D 250822 18; D 243996 18;
   D 228132 18; D 212479 18; D 197181 18; D 182364 18; D 168127 18; D 154549 18; D 141685 18; D 12957 19; D 118219 18; D 107635 18; D 97806 18;
   D 887127 17; D 803274 17; D 726176 17; D 655476 17; D 590795 17; D 53175 18; D 477953 17; D 429025 17; D 384598 17; D 344317 17; D 307846 17;
   D 274866 17; D 245077 17; D 218197 17; D 193966 17; D 172141 17; D 152496 17; D 134827 17; D 118942 17; D 104668 17; D 918475 16; D 803366 16;
   D 700057 16; D 607386 16; D 524318 16; D 449942 16; D 383467 16; D 324225 16; D 271672 16; D 225392 16; D 18511 17; D 150701 16; D 122218 16;
   D 99913 16];
  [D 784251 15; D 863548 16; D 313996 17; D 704939 17; D 121568 18; D 178113 18; D 234304 18; D 286109 18; D 331296 18; D 369129 18; D 400029 18;
   D 425011 18; D 445205 18; D 461581 18; D 474898 18; D 485755 18; D 494675 18; D 502102 18; D 50839 19; D 513797 18; D 518488 18; D 522554 18;
   D 526065 18; D 529083 18; D 53165 19; D 533783 18; D 535473 18; D 536714 18; D 53752 19; D 537906 18; D 537871 18; D 537392 18; D 536426 18;
   D 534921 18; D 532832 18; D 530109 18; D 526688 18; D 522483 18; D 517395 18; D 511324 18; D 504176 18; D 495866 18; D 486311 18; D 475444 18;
   D 463215 18; D 449608 18; D 434646 18; D 418396 18; D 400966 18; D 382505 18; D 363194 18; D 343249 18; D 322899 18; D 313989 18; D 293732 18;
   D 273679 18; D 254029 18; D 234952 18; D 21659 19; D 199054 18; D 182422 18; D 166746 18; D 152054 18; D 138352 18; D 125629 18; D 11386 19;
   D 103013 18; D 930452 17; D 839109 17; D 75561 18; D 679454 17; D 610137 17; D 547162 17; D 490045 17; D 438324 17; D 391555 17; D 349322 17;
   D 31123 18; D 276913 17; D 246026 17; D 218253 17; D 1933 19; D 170897 17; D 150795 17; D 132769 17; D 11661 18; D 102132 17; D 891638 16;
   D 775527 16; D 671614 16; D 578681 16; D 495656 16; D 42161 17; D 355756 16; D 29745 17; D 246199 16; D 201665 16; D 163689 16; D 132304 16;
   D 107776 16];
  [D 102984 16; D 11316 18; D 40971 18; D 915705 17; D 157234 18; D 22945 19; D 300756 18; D 366082 18; D 422708 18; D 46985 19; D 508186 18;
   D 539085 18; D 56401 19; D 584181 18; D 600549 18; D 613872 18; D 624817 18; D 63394 19; D 641677 18; D 648337 18; D 654108 18; D 659097 18;
   D 663392 18; D 66707 19; D 670177 18; D 672722 18; D 674692 18; D 676087 18; D 676928 18; D 67723 19; D 676982 18; D 676143 18; D 67465 19;
   D 672438 18; D 669448 18; D 665609 18; D 660823 18; D 654972 18; D 647923 18; D 639547 18; D 629728 18; D 618357 18; D 605334 18; D 590581 18;
   D 574055 18; D 555762 18; D 535764 18; D 514177 18; D 491174 18; D 466975 18; D 441844 18; D 416076 18; D 389981 18; D 378645 18; D 352978 18;
   D 327748 18; D 303191 18; D 279503 18; D 256842 18; D 235321 18; D 215018 18; D 195978 18; D 178214 18; D 161718 18; D 146462 18; D 132404 18;
   D 119492 18; D 107666 18; D 968643 17; D 870202 17; D 780683 17; D 699435 17; D 625825 17; D 559246 17; D 499116 17; D 444888 17; D 396046 17;
   D 352106 17; D 31262 18; D 277172 17; D 245377 17; D 216881 17; D 19136 18; D 168517 17; D 148082 17; D 129809 17; D 113476 17; D 988811 16;
   D 858442 16; D 74204 17; D 638174 16; D 545587 16; D 463189 16; D 390056 16; D 325432 16; D 26873 17; D 219545 16; D 177671 16; D 143124 16;
   D 116178 16];
  [D 135159 16; D 148205 17; D 534295 17; D 118879 18; D 203248 18; D 295425 18; D 385858 18; D 468185 18; D 539109 18; D 597823 18; D 645373 18;
   D 683587 18; D 714346 18; D 739192 18; D 759307 18; D 775659 18; D 789095 18; D 800308 18; D 809834 18; D 818039 18; D 825136 18; D 831254 18;
   D 836507 18; D 840985 18; D 844734 18; D 847755 18; D 850032 18; D 851574 18; D 852411 18; D 852552 18; D 85197 19; D 850598 18; D 848349 18;
   D 845144 18; D 840902 18; D 835517 18; D 828849 18; D 820732 18; D 810994 18; D 799475 18; D 786026 18; D 770512 18; D 752814 18; D 73285 19;
   D 710596 18; D 686097 18; D 659475 18; D 630921 18; D 600697 18; D 569125 18; D 536574 18; D 503446 18; D 488634 18; D 455819 18; D 423449 18;
   D 391847 18; D 361287 18; D 331992 18; D 304127 18; D 277809 18; D 253105 18; D 230046 18; D 208626 18; D 188817 18; D 170566 18; D 153808 18;
   D 138468 18; D 124465 18; D 111712 18; D 100125 18; D 896187 17; D 801095 17; D 715177 17; D 637673 17; D 567862 17; D 505065 17; D 448649 17;
   D 398025 17; D 352647 17; D 31201 18; D 27565 18; D 243144 17; D 214103 17; D 188173 17; D 165032 17; D 144389 17; D 125982 17; D 109572 17;
   D 949486 16; D 81922 17; D 703246 16; D 600093 16; D 508487 16; D 427349 16; D 355789 16; D 293116 16; D 238846 16; D 192719 16; D 154727 16;
   D 125153 16];
  [D 177289 16; D 193995 17; D 696365 17; D 154244 18; D 262582 18; D 380168 18; D 494796 18; D 59849 19; D 68727 19; D 760369 18; D 819333 18;
   D 86659 19; D 904549 18; D 935148 18; D 959867 18; D 979943 18; D 996444 18; D 101023 19; D 102197 19; D 103208 19; D 10408 20; D 10483 20;
   D 105472 19; D 106017 19; D 106468 19; D 106824 19; D 107084 19; D 107251 19; D 107328 19; D 107315 19; D 107206 19; D 106991 19; D 106659 19;
   D 106199 19; D 105602 19; D 10485 20; D 103924 19; D 102801 19; D 10146 20; D 998803 18; D 980436 18; D 959329 18; D 935348 18; D 90842 19;
   D 878559 18; D 845876 18; D 81058 19; D 772971 18; D 733437 18; D 692435 18; D 650473 18; D 608083 18; D 589291 18; D 5478 20; D 507156 18;
   D 467738 18; D 429861 18; D 393765 18; D 359622 18; D 327539 18; D 297569 18; D 269718 18; D 243955 18; D 220221 18; D 198433 18; D 178496 18;
   D 160306 18; D 143751 18; D 12872 19; D 115103 18; D 10279 19; D 916756 17; D 816608 17; D 726504 17; D 645553 17; D 572922 17; D 507837 17;
   D 449579 17; D 397487 17; D 350954 17; D 309421 17; D 27238 18; D 239367 17; D 209961 17; D 183782 17; D 160485 17; D 13976 18; D 121328 17;
   D 10494 18; D 903754 16; D 774379 16; D 65956 17; D 557812 16; D 467873 16; D 388706 16; D 319497 16; D 259671 16; D 208905 16; D 167163 16;
   D 134736 16];
  [D 232423 16; D 253785 17; D 907077 17; D 20002 19; D 339054 18; D 48897 19; D 634187 18; D 764723 18; D 875791 18; D 966767 18; D 103987 19;
   D 109831 19; D 114515 19; D 118282 19; D 12132 20; D 123786 19; D 125813 19; D 12751 20; D 128957 19; D 130202 19; D 131274 19; D 132193 19;
   D 132977 19; D 133638 19; D 134178 19; D 134596 19; D 13489 20; D 135065 19; D 135125 19; D 135068 19; D 134882 19; D 134555 19; D 134072 19;
   D 133421 19; D 132583 19; D 131537 19; D 130254 19; D 128706 19; D 126865 19; D 124705 19; D 122203 19; D 11934 20; D 1161 21; D 11248 20;
   D 108488 19; D 104145 19; D 994846 18; D 945523 18; D 894039 18; D 841034 18; D 787189 18; D 762615 18; D 709506 18; D 657276 18; D 606456 18;
   D 557487 18; D 510715 18; D 466394 18; D 424691 18; D 385697 18; D 349437 18; D 315883 18; D 284967 18; D 256589 18; D 230629 18; D 206953 18;
   D 185419 18; D 16588 19; D 148191 18; D 13221 19; D 117799 18; D 104827 18; D 931679 17; D 827056 17; D 733302 17; D 649395 17; D 574393 17;
   D 507426 17; D 447693 17; D 394464 17; D 34707 18; D 304904 17; D 267414 17; D 234101 17; D 204513 17; D 178245 17; D 154932 17; D 134247 17;
   D 115899 17; D 996292 16; D 852098 16; D 724407 16; D 611492 16; D 511887 16; D 424381 16; D 348022 16; D 282129 16; D 226308 16; D 180487 16;
   D 144963 16];
  [D 304585 16; D 33182 18; D 118091 18; D 259239 18; D 437569 18; D 628598 18; D 812463 18; D 976699 18; D 111559 19; D 122877 19; D 131939 19;
   D 139163 19; D 144943 19; D 149583 19; D 153316 19; D 156345 19; D 158837 19; D 160927 19; D 16271 20; D 164244 19; D 165561 19; D 166687 19;
   D 167644 19; D 168443 19; D 169088 19; D 169573 19; D 169901 19; D 170078 19; D 170105 19; D 169978 19; D 169681 19; D 169195 19; D 168501 19;
   D 167583 19; D 166414 19; D 164963 19; D 163192 19; D 161063 19; D 158543 19; D 155597 19; D 152199 19; D 148325 19; D 143962 19; D 139113 19;
   D 133795 19; D 128047 19; D 121918 19; D 115477 19; D 108802 19; D 101981 19; D 987786 18; D 919917 18; D 85288 19; D 787406 18; D 724115 18;
   D 663505 18; D 60595 19; D 551706 18; D 500923 18; D 453658 18; D 409897 18; D 369564 18; D 332541 18; D 298678 18; D 267804 18; D 239734 18;
   D 214281 18; D 191254 18; D 170466 18; D 151737 18; D 134893 18; D 119771 18; D 106215 18; D 940812 17; D 832354 17; D 73553 18; D 649195 17;
   D 572297 17; D 503875 17; D 443049 17; D 389021 17; D 341068 17; D 298535 17; D 26083 18; D 227421 17; D 19783 18; D 171629 17; D 148437 17;
   D 127912 17; D 109754 17; D 936965 16; D 795081 16; D 669882 16; D 559666 16; D 463025 16; D 37885 17; D 306338 16; D 245011 16; D 194757 16;
   D 155873 16];
  [D 399 19; D 433641 17; D 15366 19; D 335814 18; D 564419 18; D 807707 18; D 104038 19; D 124691 19; D 14205 20; D 156127 19; D 167356 19;
   D 176289 19; D 183421 19; D 189133 19; D 193722 19; D 197443 19; D 200509 19; D 203084 19; D 205283 19; D 207172 19; D 208789 19; D 210168 19;
   D 211334 19; D 212299 19; D 213063 19; D 213622 19; D 213981 19; D 214147 19; D 21412 20; D 213887 19; D 213428 19; D 212716 19; D 21173 20;
   D 210444 19; D 20882 20; D 206813 19; D 204374 19; D 201456 19; D 198014 19; D 194008 19; D 189405 19; D 184179 19; D 178322 19; D 171847 19;
   D 164791 19; D 157212 19; D 149186 19; D 140811 19; D 132195 19; D 123455 19; D 119383 19; D 110792 19; D 102365 19; D 9419 20; D 863372 18;
   D 788617 18; D 718023 18; D 651832 18; D 590159 18; D 533014 18; D 480321 18; D 431942 18; D 387693 18; D 347357 18; D 310699 18; D 277473 18;
   D 247433 18; D 220333 18; D 195936 18; D 174014 18; D 154351 18; D 136743 18; D 121 21; D 106943 18; D 944102 17; D 832493 17; D 733217 17;
   D 645008 17; D 566709 17; D 497271 17; D 435741 17; D 381258 17; D 333048 17; D 290411 17; D 252721 17; D 219417 17; D 189997 17; D 164015 17;
   D 141075 17; D 120826 17; D 102959 17; D 872069 16; D 733364 16; D 611506 16; D 504866 16; D 412152 16; D 332422 16; D 265103 16; D 210031 16;
   D 167507 16];
  [D 522469 16; D 566431 17; D 199839 18; D 434785 18; D 727679 18; D 103736 19; D 133164 19; D 159121 19; D 180809 19; D 198312 19; D 212225 19;
   D 223269 19; D 232068 19; D 239101 19; D 244742 19; D 249317 19; D 25309 20; D 256265 19; D 258976 19; D 261301 19; D 263286 19; D 264974 19;
   D 266392 19; D 267554 19; D 268455 19; D 269093 19; D 269475 19; D 269611 19; D 269495 19; D 269106 19; D 268414 19; D 267388 19; D 265997 19;
   D 264203 19; D 261954 19; D 259186 19; D 255837 19; D 251846 19; D 247159 19; D 241726 19; D 235506 19; D 228476 19; D 22064 20; D 212027 19;
   D 202699 19; D 192744 19; D 182277 19; D 171433 19; D 160359 19; D 155051 19; D 144062 19; D 133232 19; D 122681 19; D 112511 19; D 102802 19;
   D 936122 18; D 849795 18; D 769249 18; D 694541 18; D 625608 18; D 562296 18; D 50438 19; D 451589 18; D 403622 18; D 360164 18; D 320893 18;
   D 285487 18; D 253636 18; D 22504 19; D 199412 18; D 176486 18; D 156007 18; D 137744 18; D 121478 18; D 107011 18; D 941587 17; D 827547 17;
   D 726462 17; D 636949 17; D 557754 17; D 487744 17; D 4259 19; D 371303 17; D 323132 17; D 280649 17; D 243198 17; D 210191 17; D 181109 17;
   D 15549 18; D 132927 17; D 113064 17; D 955891 16; D 802346 16; D 667727 16; D 550147 16; D 44811 17; D 360514 16; D 286677 16; D 226375 16;
   D 179907 16];
  [D 683853 16; D 739517 17; D 259762 18; D 56264 19; D 937708 18; D 133169 19; D 17037 20; D 20298 20; D 230064 19; D 251819 19; D 269056 19;
   D 282709 19; D 293565 19; D 302223 19; D 309158 19; D 314783 19; D 319429 19; D 323345 19; D 32669 20; D 329551 19; D 331987 19; D 33405 20;
   D 335774 19; D 337167 19; D 338222 19; D 338939 19; D 339333 19; D 339409 19; D 339155 19; D 338538 19; D 337517 19; D 336052 19; D 334102 19;
   D 331611 19; D 328504 19; D 324697 19; D 32011 20; D 314668 19; D 308301 19; D 300949 19; D 292569 19; D 283143 19; D 272692 19; D 261275 19;
   D 24899 20; D 235967 19; D 222372 19; D 208389 19; D 194217 19; D 187476 19; D 173582 19; D 159983 19; D 146822 19; D 134216 19; D 122251 19;
   D 110988 19; D 10046 20; D 906838 18; D 816551 18; D 733578 18; D 657654 18; D 588444 18; D 525568 18; D 468616 18; D 417172 18; D 370819 18;
   D 329145 18; D 291757 18; D 258279 18; D 228354 18; D 201652 18; D 177862 18; D 156697 18; D 137894 18; D 121211 18; D 106427 18; D 933393 17;
   D 817664 17; D 715425 17; D 625185 17; D 545599 17; D 47546 18; D 413686 17; D 359308 17; D 311464 17; D 269383 17; D 232382 17; D 199855 17;
   D 171267 17; D 146147 17; D 124081 17; D 104711 17; D 87727 17; D 728668 16; D 599127 16; D 486917 16; D 390756 16; D 309833 16; D 243857 16;
   D 193119 16];
  [D 894688 16; D 965004 17; D 337484 18; D 727733 18; D 120778 19; D 170876 19; D 217881 19; D 258827 19; D 292637 19; D 319671 19; D 341024 19;
   D 357901 19; D 371293 19; D 38195 20; D 390479 19; D 397399 19; D 403124 19; D 407955 19; D 41208 20; D 4156 21; D 418588 19; D 421109 19;
   D 423198 19; D 424861 19; D 426087 19; D 426882 19; D 427265 19; D 427238 19; D 426775 19; D 425828 19; D 424343 19; D 422271 19; D 419552 19;
   D 416104 19; D 411823 19; D 406602 19; D 400336 19; D 392933 19; D 384306 19; D 374384 19; D 363123 19; D 350523 19; D 336633 19; D 321554 19;
   D 305434 19; D 288466 19; D 270878 19; D 252923 19; D 244134 19; D 226347 19; D 208848 19; D 191836 19; D 175479 19; D 159904 19; D 145204 19;
   D 131438 19; D 118634 19; D 106795 19; D 959072 18; D 859394 18; D 768511 18; D 685944 18; D 611169 18; D 543649 18; D 482836 18; D 428193 18;
   D 379203 18; D 335368 18; D 296219 18; D 261316 18; D 23025 19; D 202642 18; D 17814 19; D 156426 18; D 137207 18; D 120215 18; D 10521 19;
   D 919729 17; D 803062 17; D 700328 17; D 609934 17; D 530456 17; D 460618 17; D 399286 17; D 345446 17; D 298201 17; D 256756 17; D 220405 17;
   D 188529 17; D 160582 17; D 136088 17; D 114633 17; D 958609 16; D 794695 16; D 652085 16; D 528782 16; D 423297 16; D 334677 16; D 262547 16;
   D 20719 17];
  [D 116999 17; D 125863 18; D 438252 18; D 940815 18; D 155492 19; D 219164 19; D 278528 19; D 329917 19; D 372106 19; D 405691 19; D 432141 19;
   D 453002 19; D 469522 19; D 482641 19; D 493132 19; D 501649 19; D 508707 19; D 514669 19; D 519755 19; D 524083 19; D 527747 19; D 530824 19;
   D 533351 19; D 535326 19; D 536737 19; D 537601 19; D 537939 19; D 537743 19; D 53697 20; D 535552 19; D 533421 19; D 530511 19; D 526736 19;
   D 521976 19; D 516094 19; D 508949 19; D 500414 19; D 490368 19; D 478707 19; D 46535 20; D 450263 19; D 433473 19; D 415076 19; D 39523 20;
   D 374158 19; D 352134 19; D 329474 19; D 306511 19; D 29536 20; D 272887 19; D 25093 20; D 229725 19; D 209461 19; D 190278 19; D 17227 20;
   D 155489 19; D 139952 19; D 125648 19; D 112544 19; D 100592 19; D 897308 18; D 798958 18; D 710166 18; D 630221 18; D 558425 18; D 494091 18;
   D 436567 18; D 385231 18; D 339502 18; D 298837 18; D 262731 18; D 230724 18; D 202388 18; D 177336 18; D 155216 18; D 135706 18; D 118518 18;
   D 10339 19; D 900882 17; D 784023 17; D 681441 17; D 591453 17; D 512564 17; D 443442 17; D 382904 17; D 329903 17; D 283514 17; D 242921 17;
   D 207405 17; D 176337 17; D 149167 17; D 125421 17; D 104687 17; D 8662 18; D 709317 16; D 573924 16; D 458298 16; D 36132 17; D 282522 16;
   D 22217 17];
  [D 152928 17; D 16409 19; D 568837 18; D 121572 19; D 200093 19; D 280978 19; D 355914 19; D 420382 19; D 473006 19; D 514722 19; D 547482 19;
   D 573266 19; D 593643 19; D 609792 19; D 6227 21; D 633187 19; D 641892 19; D 649254 19; D 655523 19; D 660843 19; D 665334 19; D 669084 19;
   D 672131 19; D 674463 19; D 676072 19; D 676986 19; D 677224 19; D 676765 19; D 675539 19; D 673455 19; D 670427 19; D 666364 19; D 661139 19;
   D 654588 19; D 646526 19; D 636775 19; D 625174 19; D 611574 19; D 595849 19; D 577916 19; D 557762 19; D 535462 19; D 511177 19; D 485152 19;
   D 45771 20; D 429236 19; D 400154 19; D 385616 19; D 35683 20; D 328542 19; D 301089 19; D 274746 19; D 249721 19; D 226163 19; D 204161 19;
   D 183755 19; D 164944 19; D 147695 19; D 131953 19; D 117645 19; D 104686 19; D 929878 18; D 824583 18; D 730053 18; D 645393 18; D 569738 18;
   D 502269 18; D 442215 18; D 388856 18; D 341524 18; D 299604 18; D 262532 18; D 229793 18; D 200918 18; D 175481 18; D 1531 20; D 133428 18;
   D 116154 18; D 101002 18; D 877201 17; D 76088 18; D 659076 17; D 570033 17; D 492192 17; D 424174 17; D 364761 17; D 312878 17; D 26758 18;
   D 228037 17; D 193524 17; D 163408 17; D 137143 17; D 11426 18; D 943602 16; D 771142 16; D 62258 17; D 495929 16; D 389881 16; D 303861 16;
   D 238111 16];
  [D 199798 17; D 213834 18; D 737981 18; D 157022 19; D 257373 19; D 360076 19; D 454628 19; D 535466 19; D 601082 19; D 652888 19; D 693461 19;
   D 725328 19; D 750459 19; D 770342 19; D 786226 19; D 799146 19; D 809889 19; D 818978 19; D 826704 19; D 83324 20; D 838742 19; D 843307 19;
   D 846968 19; D 849703 19; D 851514 19; D 852444 19; D 852501 19; D 851642 19; D 849762 19; D 846744 19; D 842477 19; D 836831 19; D 829624 19;
   D 820628 19; D 809604 19; D 796329 19; D 7806 21; D 762231 19; D 741078 19; D 717066 19; D 690226 19; D 660702 19; D 628755 19; D 594749 19;
   D 559145 19; D 522472 19; D 485295 19; D 466857 19; D 430502 19; D 395023 19; D 360816 19; D 328192 19; D 297379 19; D 268525 19; D 241709 19;
   D 21695 20; D 194221 19; D 173461 19; D 154582 19; D 13748 20; D 122041 19; D 108146 19; D 956754 18; D 845113 18; D 7454 20; D 65653 19;
   D 577483 18; D 507303 18; D 445103 18; D 390066 18; D 341442 18; D 298545 18; D 260752 18; D 227499 18; D 198275 18; D 172622 18; D 150126 18;
   D 13042 19; D 113172 18; D 980889 17; D 849094 17; D 734011 17; D 633582 17; D 545989 17; D 469623 17; D 40307 18; D 345084 17; D 294572 17;
   D 250577 17; D 212264 17; D 178907 17; D 149877 17; D 124638 17; D 102735 17; D 837898 16; D 675 19; D 53637 17; D 420486 16; D 326647 16;
   D 255067 16];
  [D 260946 17; D 278534 18; D 956979 18; D 202719 19; D 330906 19; D 461254 19; D 580503 19; D 681824 19; D 763614 19; D 827938 19; D 878182 19;
   D 917567 19; D 94856 20; D 97304 20; D 992595 19; D 100852 20; D 102178 20; D 1033 22; D 104252 20; D 105055 20; D 105729 20; D 106283 20;
   D 106721 20; D 10704 21; D 107241 20; D 107329 20; D 107305 20; D 107159 20; D 106878 20; D 106446 20; D 105849 20; D 105068 20; D 104076 20;
   D 102844 20; D 10134 21; D 995372 19; D 974093 19; D 94934 20; D 920955 19; D 888894 19; D 853257 19; D 814298 19; D 772415 19; D 72814 20;
   D 682119 19; D 635065 19; D 611037 19; D 564448 19; D 518699 19; D 474352 19; D 431865 19; D 391584 19; D 353748 19; D 318497 19; D 285888 19;
   D 25591 20; D 2285 21; D 203556 19; D 180951 19; D 16054 20; D 142171 19; D 125687 19; D 110935 19; D 977653 18; D 86034 19; D 756059 18;
   D 663542 18; D 58161 19; D 509175 18; D 445239 18; D 38889 19; D 339298 18; D 29571 19; D 257449 18; D 223902 18; D 194523 18; D 168819 18;
   D 146354 18; D 126738 18; D 109622 18; D 947008 17; D 817011 17; D 703826 17; D 605329 17; D 519654 17; D 445156 17; D 380395 17; D 324108 17;
   D 275193 17; D 23269 18; D 195766 17; D 163703 17; D 135885 17; D 111793 17; D 909948 16; D 731451 16; D 579813 16; D 453268 16; D 350969 16;
   D 273095 16];
  [D 340695 17; D 362646 18; D 124042 19; D 261598 19; D 42527 20; D 59063 20; D 740958 19; D 867897 19; D 969819 19; D 104967 20; D 111189 20;
   D 116056 20; D 119878 20; D 122893 20; D 125301 20; D 127265 20; D 128903 20; D 130288 20; D 13146 21; D 132447 20; D 13327 21; D 133943 20;
   D 134464 20; D 134832 20; D 135051 20; D 135126 20; D 135053 20; D 134821 20; D 134408 20; D 133796 20; D 132964 20; D 131886 20; D 130526 20;
   D 128841 20; D 126795 20; D 124352 20; D 12148 21; D 118152 20; D 114353 20; D 110084 20; D 105367 20; D 100243 20; D 947706 19; D 890269 19;
   D 831 22; D 770851 19; D 740375 19; D 681545 19; D 624172 19; D 568919 19; D 516307 19; D 466711 19; D 420369 19; D 377403 19; D 337834 19;
   D 301607 19; D 268609 19; D 238686 19; D 21166 20; D 187332 19; D 165505 19; D 145974 19; D 128544 19; D 113025 19; D 992378 18; D 870137 18;
   D 76196 19; D 6664 20; D 582126 18; D 50792 19; D 442677 18; D 385394 18; D 335166 18; D 291178 18; D 252701 18; D 219081 18; D 189736 18;
   D 164146 18; D 141852 18; D 122445 18; D 105564 18; D 908905 17; D 781435 17; D 670757 17; D 574703 17; D 49137 18; D 419091 17; D 356411 17;
   D 302062 17; D 254943 17; D 214098 17; D 178707 17; D 148067 17; D 121584 17; D 987677 16; D 792218 16; D 626461 16; D 488365 16; D 376919 16;
   D 292253 16];
  [D 444663 17; D 471949 18; D 16071 20; D 337434 19; D 546319 19; D 756003 19; D 945431 19; D 11044 21; D 123137 20; D 133048 20; D 140753 20;
   D 146768 20; D 151481 20; D 155193 20; D 15816 21; D 160583 20; D 162607 20; D 164317 20; D 16576 21; D 166971 20; D 167977 20; D 16879 21;
   D 169408 20; D 169829 20; D 17006 21; D 170107 20; D 169962 20; D 169603 20; D 169006 20; D 168145 20; D 166993 20; D 16551 21; D 163647 20;
   D 161351 20; D 158573 20; D 15527 21; D 151401 20; D 146937 20; D 141865 20; D 136198 20; D 129974 20; D 123256 20; D 116131 20; D 108706 20;
   D 101101 20; D 971328 19; D 895926 19; D 821892 19; D 750176 19; D 681547 19; D 616581 19; D 555675 19; D 499051 19; D 446794 19; D 398874 19;
   D 355173 19; D 315513 19; D 279672 19; D 247403 19; D 218446 19; D 19254 20; D 169426 19; D 148854 19; D 130586 19; D 114398 19; D 100083 19;
   D 874462 18; D 76311 19; D 665147 18; D 579098 18; D 503621 18; D 43751 19; D 379677 18; D 329148 18; D 28505 19; D 246608 18; D 21313 19;
   D 184004 18; D 158686 18; D 136696 18; D 117612 18; D 10106 19; D 867145 17; D 742866 17; D 63525 18; D 542095 17; D 461479 17; D 391726 17;
   D 33138 18; D 279176 17; D 234024 17; D 194984 17; D 161256 17; D 132165 17; D 10715 18; D 857604 16; D 67653 17; D 525926 16; D 404593 16;
   D 312603 16];
  [D 580146 17; D 613954 18; D 208128 19; D 43507 20; D 701541 19; D 967319 19; D 120592 20; D 140491 20; D 156305 20; D 168605 20; D 178145 20;
   D 185579 20; D 19139 21; D 195963 20; D 199619 20; D 20261 21; D 20511 21; D 207222 20; D 208998 20; D 210483 20; D 211711 20; D 212691 20;
   D 213419 20; D 213895 20; D 214131 20; D 214128 20; D 213873 20; D 213335 20; D 21248 21; D 211278 20; D 209688 20; D 207653 20; D 205108 20;
   D 201984 20; D 198221 20; D 193764 20; D 188565 20; D 182591 20; D 175839 20; D 168338 20; D 16015 21; D 151371 20; D 142126 20; D 132562 20;
   D 122837 20; D 117803 20; D 108279 20; D 989934 19; D 900566 19; D 815568 19; D 735564 19; D 660949 19; D 591915 19; D 528486 19; D 470557 19;
   D 417929 19; D 370334 19; D 327462 19; D 288985 19; D 254559 19; D 223848 19; D 196522 19; D 172266 19; D 150784 19; D 131797 19; D 115048 19;
   D 1003 21; D 873362 18; D 759588 18; D 659888 18; D 572646 18; D 496408 18; D 429872 18; D 371872 18; D 321373 18; D 27745 19; D 239286 18;
   D 206157 18; D 177426 18; D 152527 18; D 130967 18; D 112311 18; D 961765 17; D 822306 17; D 701816 17; D 59775 18; D 507894 17; D 430319 17;
   D 363355 17; D 305555 17; D 255671 17; D 212634 17; D 175531 17; D 143594 17; D 116185 17; D 927928 16; D 730245 16; D 566105 16; D 434091 16;
   D 334205 16];
  [D 756623 17; D 798367 18; D 269422 19; D 560726 19; D 90051 20; D 123725 20; D 153766 20; D 178666 20; D 198357 20; D 21362 21; D 225433 20;
   D 234618 20; D 241783 20; D 247417 20; D 251925 20; D 255618 20; D 258709 20; D 261314 20; D 263499 20; D 265321 20; D 266816 20; D 267994 20;
   D 268846 20; D 269378 20; D 269602 20; D 269519 20; D 269102 20; D 268309 20; D 2671 22; D 26543 21; D 263241 20; D 260456 20; D 256986 20;
   D 252746 20; D 24766 21; D 241659 20; D 234686 20; D 226712 20; D 217748 20; D 207847 20; D 19711 21; D 185676 20; D 17372 21; D 161443 20;
   D 154896 20; D 142693 20; D 130705 20; D 119094 20; D 10799 21; D 974914 19; D 876638 19; D 785438 19; D 701446 19; D 624601 19; D 554692 19;
   D 49141 20; D 434373 19; D 38316 20; D 337334 19; D 296454 19; D 260086 19; D 227814 19; D 199243 19; D 174005 19; D 151755 19; D 132177 19;
   D 11498 20; D 998998 18; D 86697 19; D 751549 18; D 650787 18; D 562941 18; D 486451 18; D 419928 18; D 362139 18; D 31199 19; D 268516 18;
   D 230862 18; D 19828 19; D 170107 18; D 145767 18; D 124752 18; D 106618 18; D 909787 17; D 774969 17; D 658789 17; D 558696 17; D 472476 17;
   D 398214 17; D 334257 17; D 27918 18; D 231765 17; D 190973 17; D 155933 17; D 12592 18; D 100353 17; D 787847 16; D 609062 16; D 465514 16;
   D 357121 16];
  [D 9864 19; D 103775 19; D 348624 19; D 722382 19; D 115547 20; D 158195 20; D 196001 20; D 227148 20; D 251662 20; D 270599 20; D 285224 20;
   D 296573 20; D 305409 20; D 312352 20; D 317911 20; D 322475 20; D 326295 20; D 329508 20; D 332196 20; D 334429 20; D 336248 20; D 337657 20;
   D 338647 20; D 339229 20; D 33942 21; D 33921 21; D 338558 20; D 337409 20; D 33571 21; D 3334 22; D 330397 20; D 326592 20; D 321872 20; D 31613 21;
   D 30927 21; D 301206 20; D 291876 20; D 281259 20; D 269389 20; D 256361 20; D 242324 20; D 22748 21; D 212072 20; D 196365 20; D 188052 20;
   D 172632 20; D 157589 20; D 143115 20; D 129357 20; D 116423 20; D 104379 20; D 932551 19; D 830558 19; D 737619 19; D 653387 19; D 577402 19;
   D 509139 19; D 44804 20; D 393525 19; D 345032 19; D 302009 19; D 263933 19; D 230313 19; D 20069 20; D 174639 19; D 151773 19; D 131737 19;
   D 11421 20; D 989016 18; D 8555 20; D 739215 18; D 638069 18; D 550201 18; D 473957 18; D 407875 18; D 350658 18; D 301169 18; D 258402 18;
   D 221477 18; D 189622 18; D 162161 18; D 138503 18; D 118135 18; D 100609 18; D 855331 17; D 725707 17; D 614278 17; D 518508 17; D 436203 17;
   D 365475 17; D 3047 19; D 252492 17; D 207672 17; D 169249 17; D 136405 17; D 108477 17; D 849584 16; D 654964 16; D 498967 16; D 381413 16];
  [D 128545 18; D 134835 19; D 450929 19; D 930275 19; D 148206 20; D 202198 20; D 249757 20; D 288706 20; D 319215 20; D 34271 21; D 360817 20;
   D 374838 20; D 385734 20; D 394291 20; D 401152 20; D 406792 20; D 411514 20; D 415476 20; D 418782 20; D 421516 20; D 423723 20; D 425402 20;
   D 426543 20; D 427166 20; D 427287 20; D 426884 20; D 425896 20; D 424251 20; D 421879 20; D 418697 20; D 414585 20; D 409399 20; D 402993 20;
   D 395233 20; D 385998 20; D 375185 20; D 362729 20; D 348628 20; D 332955 20; D 315862 20; D 297569 20; D 278361 20; D 258568 20; D 24778 21;
   D 228031 20; D 208609 20; D 18979 21; D 171797 20; D 154795 20; D 138899 20; D 12417 21; D 110629 20; D 982661 19; D 870441 19; D 769098 19;
   D 677984 19; D 596392 19; D 523575 19; D 458797 19; D 401332 19; D 350487 19; D 305607 19; D 26608 20; D 23134 20; D 200866 19; D 174183 19;
   D 150859 19; D 130504 19; D 112767 19; D 973341 18; D 83924 19; D 722867 18; D 622001 18; D 534679 18; D 459165 18; D 393931 18; D 337632 18;
   D 289089 18; D 247271 18; D 211275 18; D 180312 18; D 153698 18; D 130835 18; D 111205 18; D 943578 17; D 79904 18; D 675068 17; D 568752 17;
   D 477586 17; D 399415 17; D 332391 17; D 274939 17; D 225721 17; D 183614 17; D 14769 18; D 117201 17; D 915719 16; D 703982 16; D 534557 16;
   D 407141 16];
  [D 167449 18; D 17512 20; D 583022 19; D 119753 20; D 190026 20; D 258351 20; D 318157 20; D 366847 20; D 404809 20; D 433958 20; D 456374 20;
   D 473694 20; D 487132 20; D 497683 20; D 506152 20; D 513125 20; D 518962 20; D 523847 20; D 52791 21; D 531256 20; D 533928 20; D 535917 20;
   D 537219 20; D 537864 20; D 537861 20; D 537171 20; D 535706 20; D 533373 20; D 530082 20; D 525711 20; D 520095 20; D 51304 21; D 504364 20;
   D 493897 20; D 481489 20; D 467019 20; D 450429 20; D 43175 21; D 411115 20; D 388754 20; D 364988 20; D 340213 20; D 314873 20; D 301158 20;
   D 276187 20; D 251799 20; D 228324 20; D 206016 20; D 185058 20; D 165565 20; D 147589 20; D 131136 20; D 116175 20; D 102645 20; D 90469 20;
   D 795576 19; D 698158 19; D 611477 19; D 534581 19; D 466552 19; D 406519 19; D 353667 19; D 307237 19; D 266531 19; D 230912 19; D 199799 19;
   D 172668 19; D 149047 19; D 128513 19; D 110687 19; D 95234 19; D 818542 18; D 702838 18; D 602896 18; D 516664 18; D 442337 18; D 378334 18;
   D 323272 18; D 275942 18; D 235292 18; D 200404 18; D 170482 18; D 144834 18; D 122861 18; D 104045 18; D 879375 17; D 741527 17; D 623572 17;
   D 522648 17; D 436301 17; D 362428 17; D 29924 18; D 245222 17; D 199103 17; D 159833 17; D 126567 17; D 98652 17; D 756293 16; D 572388 16;
   D 434363 16];
  [D 218059 18; D 227358 19; D 753511 19; D 154099 20; D 24356 21; D 32999 21; D 405169 20; D 466015 20; D 513243 20; D 549403 20; D 577151 20;
   D 598548 20; D 615121 20; D 628134 20; D 638592 20; D 647217 20; D 65443 21; D 66045 21; D 665444 20; D 669532 20; D 672758 20; D 675102 20;
   D 676571 20; D 677203 20; D 676999 20; D 675889 20; D 673752 20; D 670473 20; D 665927 20; D 659939 20; D 652283 20; D 642706 20; D 630979 20;
   D 616889 20; D 60025 21; D 580929 20; D 558885 20; D 534207 20; D 507113 20; D 477948 20; D 447168 20; D 415315 20; D 382977 20; D 365612 20;
   D 334135 20; D 303601 20; D 274397 20; D 24681 21; D 221035 20; D 19718 21; D 175284 20; D 155328 20; D 13725 21; D 120961 20; D 10635 21;
   D 932979 19; D 816801 19; D 713722 19; D 62253 20; D 54207 20; D 471254 19; D 409067 19; D 354574 19; D 306918 19; D 265318 19; D 229069 19;
   D 197534 19; D 170143 19; D 146388 19; D 125813 19; D 108017 19; D 926449 18; D 793814 18; D 679505 18; D 581098 18; D 496465 18; D 423751 18;
   D 361333 18; D 307799 18; D 261921 18; D 222634 18; D 189013 18; D 160257 18; D 135677 18; D 114674 18; D 967347 17; D 814156 17; D 683362 17;
   D 571699 17; D 476372 17; D 394994 17; D 325535 17; D 266282 17; D 215796 17; D 172892 17; D 136614 17; D 106227 17; D 812075 16; D 612564 16;
   D 463126 16];
  [D 283885 18; D 29507 20; D 973487 19; D 198221 20; D 312067 20; D 421357 20; D 515825 20; D 591839 20; D 650586 20; D 695438 20; D 729788 20;
   D 756219 20; D 77666 21; D 792714 20; D 805638 20; D 816306 20; D 825218 20; D 832635 20; D 838769 20; D 843759 20; D 84764 21; D 850385 20;
   D 852018 20; D 852584 20; D 852064 20; D 850347 20; D 847274 20; D 842695 20; D 836439 20; D 828257 20; D 81784 21; D 804867 20; D 789048 20;
   D 770116 20; D 747847 20; D 722102 20; D 692884 20; D 660366 20; D 624892 20; D 586965 20; D 547224 20; D 5064 22; D 483799 20; D 443361 20;
   D 403799 20; D 365678 20; D 329441 20; D 295408 20; D 263776 20; D 234642 20; D 208017 20; D 183849 20; D 162038 20; D 142452 20; D 124941 20;
   D 109346 20; D 955054 19; D 832595 19; D 724552 19; D 629476 19; D 546011 19; D 472903 19; D 408998 19; D 353248 19; D 304701 19; D 262499 19;
   D 225872 19; D 194134 19; D 16667 20; D 14294 20; D 122461 19; D 104811 19; D 896162 18; D 765506 18; D 653276 18; D 556971 18; D 474411 18;
   D 403698 18; D 343183 18; D 291437 18; D 247222 18; D 209466 18; D 177246 18; D 149764 18; D 126334 18; D 106365 18; D 893499 17; D 748547 17;
   D 625069 17; D 519886 17; D 430288 17; D 353977 17; D 289014 17; D 233776 17; D 186926 17; D 147386 17; D 114324 17; D 871501 16; D 655177 16;
   D 49347 17];
  [D 369471 18; D 382804 19; D 125721 20; D 254884 20; D 399708 20; D 537852 20; D 656515 20; D 75145 21; D 824513 20; D 880145 20; D 922664 20;
   D 955313 20; D 980529 20; D 100034 21; D 101632 21; D 102951 21; D 104052 21; D 104966 21; D 105719 21; D 106327 21; D 106792 21; D 107112 21;
   D 10729 22; D 107331 21; D 107231 21; D 106973 21; D 106536 21; D 1059 23; D 105042 21; D 103926 21; D 102512 21; D 100758 21; D 986281 20;
   D 96089 21; D 931144 20; D 896916 20; D 858284 20; D 81555 21; D 769235 20; D 72006 21; D 668905 20; D 616745 20; D 588085 20; D 537058 20;
   D 487476 20; D 440007 20; D 395155 20; D 353261 20; D 314521 20; D 279004 20; D 246684 20; D 217459 20; D 191179 20; D 167658 20; D 146695 20;
   D 128081 20; D 111609 20; D 970739 19; D 842847 19; D 730597 19; D 632306 19; D 546427 19; D 471545 19; D 406376 19; D 349764 19; D 300667 19;
   D 258157 19; D 221405 19; D 189677 19; D 162325 19; D 138774 19; D 118522 19; D 101126 19; D 862016 18; D 734102 18; D 624582 18; D 530899 18;
   D 450836 18; D 382471 18; D 32414 19; D 274407 18; D 232033 18; D 195951 18; D 165242 18; D 139118 18; D 116902 18; D 980146 17; D 81959 18;
   D 683118 17; D 56712 18; D 468522 17; D 384726 17; D 313539 17; D 253133 17; D 201999 17; D 158925 17; D 122973 17; D 934739 16; D 700309 16;
   D 525423 16];
  [D 48071 19; D 496439 19; D 162304 20; D 327628 20; D 511792 20; D 686342 20; D 835347 20; D 953879 20; D 104473 21; D 111373 21; D 116636 21;
   D 120669 21; D 12378 22; D 126226 21; D 128201 21; D 129834 21; D 131194 21; D 132319 21; D 133243 21; D 133983 21; D 134538 21; D 134907 21;
   D 135096 21; D 13511 22; D 134938 21; D 134557 21; D 133941 21; D 133063 21; D 131889 21; D 130371 21; D 128454 21; D 126087 21; D 123225 21;
   D 119826 21; D 11586 22; D 11132 22; D 106225 21; D 100624 21; D 945941 20; D 882369 20; D 816721 20; D 779534 20; D 714074 20; D 649868 20;
   D 587897 20; D 528937 20; D 47355 21; D 42209 21; D 374734 20; D 331511 20; D 292336 20; D 257046 20; D 225419 20; D 197206 20; D 172138 20;
   D 149943 20; D 130357 20; D 113121 20; D 979952 19; D 847535 19; D 731878 19; D 631076 19; D 543396 19; D 467275 19; D 401305 19; D 344227 19;
   D 294922 19; D 252395 19; D 215765 19; D 184258 19; D 157191 19; D 133968 19; D 114066 19; D 970281 18; D 82458 19; D 700105 18; D 593864 18;
   D 503268 18; D 426078 18; D 360362 18; D 304455 18; D 256924 18; D 216539 18; D 182244 18; D 153132 18; D 128429 18; D 107473 18; D 896986 17;
   D 746232 17; D 618371 17; D 509925 17; D 417954 17; D 339985 17; D 273959 17; D 218177 17; D 171277 17; D 132202 17; D 100194 17; D 748029 16;
   D 558995 16];
  [D 625238 18; D 643563 19; D 209454 20; D 420987 20; D 655089 20; D 875562 20; D 106261 21; D 121056 21; D 132352 21; D 140909 21; D 147424 21;
   D 152405 21; D 156244 21; D 159265 21; D 161708 21; D 163729 21; D 165408 21; D 166793 21; D 167926 21; D 168823 21; D 169483 21; D 169905 21;
   D 170098 21; D 170066 21; D 16979 22; D 169237 21; D 168375 21; D 167167 21; D 165565 21; D 163502 21; D 160909 21; D 157722 21; D 153882 21;
   D 14934 22; D 144065 21; D 138056 21; D 131353 21; D 124031 21; D 116203 21; D 108009 21; D 996093 20; D 948849 20; D 866139 20; D 785573 20;
   D 708317 20; D 63526 21; D 567011 20; D 503925 20; D 44614 21; D 393622 20; D 346208 20; D 303648 20; D 265634 20; D 231829 20; D 201882 20;
   D 175443 20; D 152174 20; D 131754 20; D 113879 20; D 98271 20; D 846724 19; D 728495 19; D 625907 19; D 537054 19; D 460233 19; D 393923 19;
   D 336776 19; D 287597 19; D 245335 19; D 209066 19; D 177978 19; D 151365 19; D 128608 19; D 109169 19; D 925826 18; D 784437 18; D 664025 18;
   D 561569 18; D 474464 18; D 400469 18; D 337655 18; D 284369 18; D 239193 18; D 200911 18; D 168487 18; D 141034 18; D 117795 18; D 981274 17;
   D 814824 17; D 673956 17; D 554735 17; D 45384 18; D 368485 17; D 29635 18; D 235528 17; D 184485 17; D 142035 17; D 107324 17; D 798383 16;
   D 594165 16];
  [D 812949 18; D 834001 19; D 270207 20; D 540764 20; D 83824 21; D 111662 21; D 135134 21; D 153597 21; D 167639 21; D 178252 21; D 186316 21;
   D 192467 21; D 197206 21; D 200938 21; D 203961 21; D 206462 21; D 208534 21; D 21024 22; D 211626 21; D 212713 21; D 213493 21; D 21397 22;
   D 214156 21; D 214051 21; D 213624 21; D 212832 21; D 211633 21; D 209978 21; D 207796 21; D 204999 21; D 201498 21; D 197213 21; D 192071 21;
   D 186013 21; D 179009 21; D 171076 21; D 16228 22; D 152735 21; D 142599 21; D 132068 21; D 121353 21; D 115373 21; D 104951 21; D 948683 20;
   D 852609 20; D 762287 20; D 678363 20; D 601168 20; D 530775 20; D 467057 20; D 409748 20; D 358484 20; D 312843 20; D 27238 21; D 236639 20;
   D 205173 20; D 177554 20; D 15338 21; D 132274 20; D 11389 21; D 979135 19; D 840568 19; D 72062 20; D 61698 20; D 527584 19; D 450599 19;
   D 384404 19; D 32757 20; D 27884 20; D 237115 19; D 201431 19; D 17095 20; D 144944 19; D 12278 20; D 103909 19; D 878575 18; D 742177 18;
   D 626373 18; D 528134 18; D 444861 18; D 374326 18; D 31462 19; D 26411 19; D 221402 18; D 185307 18; D 154812 18; D 129055 18; D 107303 18;
   D 88934 18; D 734217 17; D 603211 17; D 492577 17; D 399178 17; D 320405 17; D 254117 17; D 198592 17; D 152498 17; D 114875 17; D 851376 16;
   D 630878 16];
  [D 105666 19; D 108043 20; D 348461 20; D 694387 20; D 107226 21; D 142364 21; D 171807 21; D 194842 21; D 212297 21; D 22546 22; D 235439 21;
   D 243037 21; D 248888 21; D 253499 21; D 257242 21; D 260336 21; D 262893 21; D 264992 21; D 266688 21; D 267999 21; D 268917 21; D 269449 21;
   D 26961 22; D 269392 21; D 26875 22; D 267628 21; D 26597 22; D 263707 21; D 260741 21; D 256956 21; D 252238 21; D 246488 21; D 239613 21;
   D 231547 21; D 22227 22; D 211821 21; D 200306 21; D 187895 21; D 174811 21; D 161314 21; D 153541 21; D 14014 22; D 127045 21; D 114458 21;
   D 102538 21; D 913951 20; D 810953 20; D 716656 20; D 631036 20; D 55384 21; D 484658 20; D 42298 21; D 36824 21; D 319854 20; D 277237 20;
   D 23982 21; D 207066 20; D 17847 21; D 153568 20; D 131932 20; D 113174 20; D 96945 20; D 829302 19; D 708494 19; D 604532 19; D 515211 19;
   D 438585 19; D 372945 19; D 316792 19; D 268818 19; D 227882 19; D 192993 19; D 163291 19; D 138032 19; D 116574 19; D 983625 18; D 829204 18;
   D 698383 18; D 587646 18; D 493982 18; D 414818 18; D 347952 18; D 291507 18; D 243885 18; D 203725 18; D 169868 18; D 141333 18; D 117288 18;
   D 970257 17; D 799514 17; D 655624 17; D 534365 17; D 432209 17; D 346225 17; D 27401 18; D 213636 17; D 16361 18; D 122853 17; D 906969 16;
   D 669037 16];
  [D 137295 19; D 139919 20; D 449227 20; D 891362 20; D 13712 22; D 181458 21; D 218379 21; D 247112 21; D 268806 21; D 28513 22; D 29748 22;
   D 306865 21; D 314089 21; D 319791 21; D 324425 21; D 328253 21; D 331408 21; D 333989 21; D 336061 21; D 337639 21; D 338712 21; D 339294 21;
   D 339402 21; D 339016 21; D 33807 22; D 336492 21; D 33421 22; D 331124 21; D 3271 23; D 321987 21; D 315641 21; D 307937 21; D 298762 21;
   D 288045 21; D 275781 21; D 26205 22; D 247016 21; D 230922 21; D 214076 21; D 196829 21; D 186967 21; D 170056 21; D 153642 21; D 137967 21;
   D 123211 21; D 109492 21; D 968739 20; D 853739 20; D 749751 20; D 656346 20; D 57293 21; D 498803 20; D 433216 20; D 37541 21; D 324637 20;
   D 280181 20; D 241367 20; D 207568 20; D 178209 20; D 152763 20; D 130756 20; D 111761 20; D 953968 19; D 813239 19; D 692415 19; D 588846 19;
   D 5002 21; D 424434 19; D 359766 19; D 304639 19; D 257705 19; D 217793 19; D 183889 19; D 15512 20; D 130733 19; D 110081 19; D 926082 18;
   D 778374 18; D 653614 18; D 548318 18; D 459514 18; D 384668 18; D 321623 18; D 268548 18; D 223885 18; D 186314 18; D 154717 18; D 128149 18;
   D 105808 18; D 870232 17; D 712259 17; D 579413 17; D 467726 17; D 373909 17; D 295271 17; D 229655 17; D 175388 17; D 131257 17; D 965064 16;
   D 708501 16];
  [D 178337 19; D 181139 20; D 578938 20; D 114385 21; D 175295 21; D 231222 21; D 277508 21; D 313342 21; D 340302 21; D 360545 21; D 375827 21;
   D 387421 21; D 396344 21; D 403396 21; D 409134 21; D 413869 21; D 417761 21; D 420933 21; D 423461 21; D 425353 21; D 426598 21; D 42722 22;
   D 427234 21; D 426601 21; D 42523 22; D 423028 21; D 419897 21; D 415699 21; D 410249 21; D 403353 21; D 394833 21; D 384527 21; D 372303 21;
   D 358091 21; D 341916 21; D 323916 21; D 304336 21; D 283522 21; D 261893 21; D 249135 21; D 227445 21; D 206159 21; D 185637 21; D 166161 21;
   D 147932 21; D 131073 21; D 115641 21; D 101637 21; D 890247 20; D 777369 20; D 676902 20; D 587902 20; D 509394 20; D 440396 20; D 379959 20;
   D 327182 20; D 281222 20; D 241302 20; D 206711 20; D 176805 20; D 151004 20; D 128787 20; D 109692 20; D 933086 19; D 792753 19; D 672735 19;
   D 570244 19; D 482843 19; D 408409 19; D 345101 19; D 29132 20; D 245685 19; D 207006 19; D 174258 19; D 146557 19; D 12315 20; D 103389 19;
   D 867204 18; D 726717 18; D 608403 18; D 508835 18; D 425098 18; D 354717 18; D 295592 18; D 245945 18; D 204272 18; D 169301 18; D 139957 18;
   D 115337 18; D 946777 17; D 773418 17; D 627937 17; D 505878 17; D 403555 17; D 317959 17; D 246677 17; D 187836 17; D 140079 17; D 10255 18;
   D 749075 16];
  [D 231591 19; D 234421 20; D 745856 20; D 146739 21; D 224032 21; D 294556 21; D 352562 21; D 397243 21; D 430747 21; D 455848 21; D 474759 21;
   D 489082 21; D 500105 21; D 50883 22; D 515937 21; D 521793 21; D 526592 21; D 530489 21; D 533568 21; D 535828 21; D 537261 21; D 537903 21;
   D 537762 21; D 53677 22; D 534807 21; D 531753 21; D 527473 21; D 521773 21; D 514405 21; D 505121 21; D 493699 21; D 479936 21; D 46368 22;
   D 44487 22; D 423584 21; D 400043 21; D 374607 21; D 347759 21; D 320066 21; D 303841 21; D 276418 21; D 249693 21; D 224096 21; D 19995 22;
   D 177475 21; D 156795 21; D 137951 21; D 120923 21; D 105644 21; D 920191 20; D 799314 20; D 692563 20; D 598671 20; D 516383 20; D 444499 20;
   D 381891 20; D 32751 21; D 280394 20; D 239669 20; D 204545 20; D 174314 20; D 148345 20; D 126078 20; D 107017 20; D 907271 19; D 768275 19;
   D 649845 19; D 549078 19; D 463454 19; D 390789 19; D 329196 19; D 277047 19; D 232944 19; D 195684 19; D 164236 19; D 13772 20; D 115383 19;
   D 965818 18; D 807701 18; D 674826 18; D 563244 18; D 469605 18; D 39107 19; D 325237 18; D 270076 18; D 223874 18; D 185184 18; D 15279 19;
   D 125668 18; D 102958 18; D 839412 17; D 680155 17; D 54681 18; D 435255 17; D 342124 17; D 264719 17; D 200951 17; D 149302 17; D 108805 17;
   D 790488 16];
  [D 300668 19; D 303277 20; D 960592 20; D 188186 21; D 286237 21; D 37514 22; D 447814 21; D 503514 21; D 545148 21; D 576272 21; D 599671 21;
   D 617367 21; D 630989 21; D 641789 21; D 650592 21; D 657832 21; D 663749 21; D 668533 21; D 672275 21; D 674963 21; D 676596 21; D 677224 21;
   D 676839 21; D 675335 21; D 672553 21; D 668339 21; D 662504 21; D 654778 21; D 644833 21; D 632358 21; D 617069 21; D 59872 22; D 577139 21;
   D 552296 21; D 524346 21; D 493632 21; D 460673 21; D 426133 21; D 39077 22; D 370203 21; D 335622 21; D 302149 21; D 270292 21; D 240418 21;
   D 21276 22; D 187434 21; D 164459 21; D 143781 21; D 125296 21; D 108867 21; D 943374 20; D 815452 20; D 703257 20; D 605198 20; D 519766 20;
   D 445551 20; D 381251 20; D 325681 20; D 277766 20; D 23654 21; D 201142 20; D 170806 20; D 144854 20; D 122691 20; D 103793 20; D 877048 19;
   D 740277 19; D 624166 19; D 525722 19; D 442362 19; D 37186 20; D 312299 19; D 262036 19; D 219665 19; D 183982 19; D 153959 19; D 128722 19;
   D 107526 19; D 897388 18; D 748231 18; D 623246 18; D 518583 18; D 430991 18; D 357722 18; D 296463 18; D 245261 18; D 202477 18; D 16673 19;
   D 136864 18; D 111909 18; D 910562 17; D 736286 17; D 590668 17; D 469095 17; D 367804 17; D 283786 17; D 214716 17; D 158899 17; D 115238 17;
   D 832402 16];
  [D 390244 19; D 392236 20; D 123677 21; D 241268 21; D 365611 21; D 477649 21; D 568672 21; D 638098 21; D 68983 22; D 728421 21; D 757374 21;
   D 779238 21; D 796077 21; D 809449 21; D 820354 21; D 829303 21; D 836597 21; D 842466 21; D 847003 21; D 850184 21; D 852024 21; D 852582 21;
   D 851827 21; D 849598 21; D 845689 21; D 839901 21; D 831965 21; D 821509 21; D 80811 22; D 791372 21; D 770942 21; D 746517 21; D 717919 21;
   D 685176 21; D 648558 21; D 608582 21; D 565981 21; D 521663 21; D 495046 21; D 450635 21; D 407135 21; D 365309 21; D 325746 21; D 288856 21;
   D 25488 22; D 223913 21; D 19594 22; D 170861 21; D 148521 21; D 128731 21; D 111285 21; D 959684 20; D 825728 20; D 708967 20; D 607509 20;
   D 519597 20; D 443622 20; D 378124 20; D 321786 20; D 273429 20; D 232007 20; D 19659 21; D 166363 20; D 140607 20; D 118696 20; D 100085 20;
   D 842983 19; D 709262 19; D 59614 20; D 500562 19; D 419903 19; D 35191 20; D 294658 19; D 246499 19; D 206029 19; D 172052 19; D 143553 19;
   D 119669 19; D 996684 18; D 82933 19; D 689396 18; D 572465 18; D 474815 18; D 393308 18; D 325305 18; D 268587 18; D 221294 18; D 181863 18;
   D 148989 18; D 121578 18; D 98719 18; D 796549 17; D 637586 17; D 505141 17; D 395017 17; D 303866 17; D 229102 17; D 168828 17; D 121804 17;
   D 87443 17];
  [D 506365 19; D 507134 20; D 159185 21; D 309231 21; D 466868 21; D 608019 21; D 721992 21; D 808512 21; D 872788 21; D 920634 21; D 956457 21;
   D 983477 21; D 10043 23; D 102086 22; D 103437 22; D 104543 22; D 105442 22; D 106161 22; D 10671 23; D 107084 22; D 107288 22; D 107329 22;
   D 107198 22; D 106873 22; D 106328 22; D 105536 22; D 104459 22; D 103046 22; D 101244 22; D 99002 22; D 96276 22; D 930301 21; D 892477 21;
   D 84941 22; D 801545 21; D 749638 21; D 694714 21; D 637994 21; D 604161 21; D 548041 21; D 493451 21; D 441302 21; D 392271 21; D 346802 21;
   D 305132 21; D 267324 21; D 23331 22; D 202929 21; D 17596 22; D 152145 21; D 131213 21; D 11289 22; D 96909 21; D 830164 20; D 709759 20;
   D 605695 20; D 515985 20; D 438835 20; D 372634 20; D 315948 20; D 267504 20; D 226181 20; D 190993 20; D 161079 20; D 135689 20; D 114171 20;
   D 959591 19; D 805672 19; D 67575 20; D 566219 19; D 473986 19; D 396408 19; D 331226 19; D 276515 19; D 230638 19; D 192205 19; D 160038 19;
   D 133137 19; D 110659 19; D 918901 18; D 762302 18; D 631725 18; D 52291 19; D 432276 18; D 356819 18; D 294017 18; D 241759 18; D 198282 18;
   D 16211 19; D 132011 18; D 106962 18; D 861154 17; D 68768 18; D 543439 17; D 423762 17; D 324928 17; D 244058 17; D 179032 17; D 12845 18;
   D 91615 17];
  [D 65685 20; D 655485 20; D 204825 21; D 396223 21; D 596009 21; D 773781 21; D 916456 21; D 102426 22; D 110412 22; D 116344 22; D 120776 22;
   D 124116 22; D 126691 22; D 128743 22; D 130416 22; D 131783 22; D 13289 23; D 13377 23; D 134432 22; D 13487 23; D 135092 22; D 135105 22;
   D 134894 22; D 134427 22; D 133672 22; D 132591 22; D 131132 22; D 129226 22; D 126806 22; D 123807 22; D 120175 22; D 115869 22; D 110876 22;
   D 105223 22; D 989808 21; D 92257 22; D 851933 21; D 779526 21; D 736654 21; D 665909 21; D 59756 22; D 532678 21; D 472029 21; D 416083 21;
   D 365056 21; D 318959 21; D 277651 21; D 240889 21; D 208362 21; D 179731 21; D 154639 21; D 132736 21; D 113684 21; D 971664 20; D 828872 20;
   D 70577 21; D 59991 21; D 509092 20; D 43135 21; D 364939 20; D 308316 20; D 260128 20; D 219189 20; D 184466 20; D 155059 20; D 130193 20;
   D 109195 20; D 914866 19; D 765725 19; D 640266 19; D 534853 19; D 44638 20; D 372205 19; D 310081 19; D 2581 21; D 214647 19; D 178356 19;
   D 148071 19; D 122819 19; D 10178 20; D 842629 18; D 696876 18; D 575671 18; D 474932 18; D 391237 18; D 321725 18; D 264006 18; D 216085 18;
   D 176296 18; D 143257 18; D 115818 18; D 93029 18; D 741037 17; D 584009 17; D 454013 17; D 346917 17; D 259513 17; D 18944 18; D 13512 18;
   D 957125 16];
  [D 851807 19; D 846971 20; D 263472 21; D 507543 21; D 760671 21; D 984497 21; D 116306 22; D 129737 22; D 139657 22; D 147012 22; D 152496 22;
   D 156624 22; D 15981 23; D 162353 22; D 164425 22; D 166114 22; D 167477 22; D 168553 22; D 169349 22; D 169858 22; D 170094 22; D 170059 22;
   D 169732 22; D 169069 22; D 168028 22; D 166557 22; D 164583 22; D 162018 22; D 158772 22; D 154768 22; D 149936 22; D 144233 22; D 137654 22;
   D 130251 22; D 122128 22; D 113439 22; D 104377 22; D 98832 22; D 897402 21; D 808431 21; D 723041 21; D 64248 22; D 567596 21; D 498872 21;
   D 436479 21; D 380349 21; D 330241 21; D 285803 21; D 246612 21; D 212218 21; D 182164 21; D 156002 21; D 133307 21; D 113681 21; D 967582 20;
   D 822052 20; D 697213 20; D 59037 21; D 499129 20; D 421369 20; D 355224 20; D 299063 20; D 251458 20; D 211172 20; D 177132 20; D 148412 20;
   D 124213 20; D 103851 20; D 867386 19; D 723754 19; D 603333 19; D 502484 19; D 418115 19; D 347606 19; D 288736 19; D 23963 20; D 198705 19;
   D 164626 19; D 136271 19; D 112697 19; D 931106 18; D 768482 18; D 633533 18; D 521606 18; D 42881 19; D 351901 18; D 288173 18; D 235371 18;
   D 19162 19; D 155365 18; D 125317 18; D 100411 18; D 797715 17; D 626837 17; D 485713 17; D 369745 17; D 275375 17; D 199974 17; D 141749 17;
   D 996894 16];
  [D 11043 21; D 109406 21; D 338812 21; D 649957 21; D 970576 21; D 12523 23; D 147573 22; D 164303 22; D 176627 22; D 185745 22; D 192529 22;
   D 197633 22; D 201577 22; D 204728 22; D 207295 22; D 20938 23; D 211058 22; D 212372 22; D 213325 22; D 213913 22; D 214153 22; D 214045 22;
   D 213552 22; D 212619 22; D 211189 22; D 209192 22; D 206527 22; D 203078 22; D 198733 22; D 193393 22; D 186976 22; D 179435 22; D 170784 22;
   D 161109 22; D 150562 22; D 13936 23; D 127764 22; D 120716 22; D 109228 22; D 980639 21; D 874182 21; D 774343 21; D 682046 21; D 597756 21;
   D 521569 21; D 453305 21; D 392589 21; D 338924 21; D 291745 21; D 250465 21; D 214495 21; D 183269 21; D 156252 21; D 132949 21; D 112906 21;
   D 957121 20; D 809989 20; D 684369 20; D 577345 20; D 486347 20; D 409123 20; D 343703 20; D 288377 20; D 241662 20; D 202278 20; D 169122 20;
   D 141249 20; D 117846 20; D 982217 19; D 817857 19; D 680357 19; D 565454 19; D 469536 19; D 389546 19; D 322904 19; D 267434 19; D 221303 19;
   D 182972 19; D 151147 19; D 124743 19; D 102853 19; D 847155 18; D 696964 18; D 572654 18; D 469808 18; D 384746 18; D 314407 18; D 256246 18;
   D 208153 18; D 168381 18; D 135485 18; D 108274 18; D 857729 17; D 671872 17; D 518759 17; D 393294 17; D 291534 17; D 210543 17; D 148272 17;
   D 103503 17];
  [D 143122 20; D 141282 21; D 435571 21; D 832102 21; D 123809 22; D 15926 23; D 187209 22; D 208046 22; D 223355 22; D 23466 23; D 243053 22;
   D 249365 22; D 254247 22; D 258154 22; D 261332 22; D 263907 22; D 265971 22; D 267572 22; D 268709 22; D 269382 22; D 269611 22; D 26939 23;
   D 268664 22; D 26736 23; D 265405 22; D 262699 22; D 259107 22; D 254476 22; D 248668 22; D 241558 22; D 233048 22; D 223095 22; D 211742 22;
   D 199123 22; D 185462 22; D 171055 22; D 156249 22; D 147317 22; D 132835 22; D 118857 22; D 105612 22; D 932615 21; D 819037 21; D 715804 21;
   D 622895 21; D 53997 22; D 466475 21; D 401729 21; D 344983 21; D 295476 21; D 252458 21; D 215213 21; D 183073 21; D 155421 21; D 131697 21;
   D 111396 21; D 940657 20; D 793043 20; D 667577 20; D 561147 20; D 471033 20; D 394869 20; D 330602 20; D 27646 21; D 230916 20; D 192659 20;
   D 160568 20; D 133683 20; D 111189 20; D 923897 19; D 766968 19; D 636112 19; D 527112 19; D 436408 19; D 361001 19; D 298369 19; D 246394 19;
   D 203298 19; D 167593 19; D 138032 19; D 113577 19; D 933563 18; D 766472 18; D 628462 18; D 514519 18; D 420472 18; D 342861 18; D 278816 18;
   D 225967 18; D 182349 18; D 146345 18; D 116625 18; D 921045 17; D 719004 17; D 553008 17; D 417422 17; D 307869 17; D 221052 17; D 154622 17;
   D 107117 17];
  [D 185449 20; D 182394 21; D 559805 21; D 1065 24; D 157896 22; D 202492 22; D 237445 22; D 263395 22; D 282412 22; D 296426 22; D 306811 22;
   D 314617 22; D 320664 22; D 325508 22; D 329443 22; D 332621 22; D 335159 22; D 337107 22; D 338458 22; D 339218 22; D 339413 22; D 339024 22;
   D 337972 22; D 336162 22; D 333497 22; D 329839 22; D 325003 22; D 318795 22; D 311042 22; D 301588 22; D 29032 23; D 277208 22; D 262339 22;
   D 245917 22; D 228259 22; D 209773 22; D 198238 22; D 179627 22; D 161413 22; D 143947 22; D 127499 22; D 112248 22; D 982928 21; D 856668 21;
   D 743503 21; D 642877 21; D 554001 21; D 475954 21; D 407756 21; D 348428 21; D 297016 21; D 252623 21; D 214413 21; D 181622 21; D 153559 21;
   D 129603 21; D 109201 21; D 918646 20; D 77164 21; D 647227 20; D 542127 20; D 453499 20; D 378883 20; D 316164 20; D 263522 20; D 2194 22;
   D 182471 20; D 151601 20; D 125828 20; D 104335 20; D 864332 19; D 715375 19; D 591563 19; D 488754 19; D 403466 19; D 332779 19; D 274243 19;
   D 22581 20; D 185769 19; D 152688 19; D 125377 19; D 102843 19; D 842607 18; D 689444 18; D 56325 19; D 459302 18; D 373692 18; D 303191 18;
   D 24513 19; D 197306 18; D 157911 18; D 125464 18; D 987559 17; D 768064 17; D 588279 17; D 441965 17; D 324246 17; D 231402 17; D 160742 17;
   D 110506 17];
  [D 240241 20; D 235404 21; D 719271 21; D 136273 22; D 201318 22; D 257403 22; D 301107 22; D 33342 23; D 357042 22; D 374415 22; D 387264 22;
   D 396921 22; D 404413 22; D 410419 22; D 41529 23; D 419213 22; D 422329 22; D 424694 22; D 426292 22; D 42714 23; D 427266 22; D 426631 22;
   D 425125 22; D 422626 22; D 419004 22; D 414065 22; D 407565 22; D 399257 22; D 388922 22; D 376369 22; D 361473 22; D 344231 22; D 324794 22;
   D 303468 22; D 280698 22; D 257033 22; D 242365 22; D 218844 22; D 195983 22; D 174204 22; D 153814 22; D 135011 22; D 117891 22; D 102468 22;
   D 887004 21; D 765023 21; D 657645 21; D 563642 21; D 481745 21; D 410699 21; D 3493 23; D 29642 22; D 251022 21; D 212161 21; D 178983 21;
   D 15073 22; D 126726 21; D 106377 21; D 891619 20; D 746257 20; D 623743 20; D 520662 20; D 434074 20; D 361452 20; D 300635 20; D 249774 20;
   D 207296 20; D 171866 20; D 14235 21; D 117789 20; D 973755 19; D 804266 19; D 663691 19; D 547211 19; D 450789 19; D 371043 19; D 305146 19;
   D 250738 19; D 205851 19; D 168845 19; D 138357 19; D 113254 19; D 925963 18; D 756042 18; D 616323 18; D 501467 18; D 407064 18; D 329477 18;
   D 265706 18; D 213284 18; D 170193 18; D 134783 18; D 105708 18; D 818829 17; D 624356 17; D 46674 18; D 34052 18; D 241502 17; D 166584 17;
   D 113653 17];
  [D 311151 20; D 303734 21; D 923907 21; D 174325 22; D 25662 23; D 327135 22; D 381769 22; D 422002 22; D 451344 22; D 472878 22; D 488777 22;
   D 500727 22; D 510011 22; D 517459 22; D 523488 22; D 528329 22; D 532154 22; D 535017 22; D 536897 22; D 537826 22; D 537829 22; D 53684 23;
   D 534706 22; D 531274 22; D 526362 22; D 519705 22; D 51098 23; D 499878 22; D 486121 22; D 469476 22; D 449816 22; D 427184 22; D 401828 22;
   D 374193 22; D 344895 22; D 31467 23; D 296068 22; D 266408 22; D 237774 22; D 210667 22; D 185437 22; D 162291 22; D 141315 22; D 1225 24;
   D 105767 22; D 909948 21; D 780327 21; D 667201 21; D 568926 21; D 483906 21; D 410626 21; D 347678 21; D 293773 21; D 247744 21; D 208543 21;
   D 175241 21; D 147014 21; D 123141 21; D 102991 21; D 860156 20; D 71741 21; D 597578 20; D 497144 20; D 413097 20; D 342867 20; D 284263 20;
   D 235426 20; D 194779 20; D 160991 20; D 132937 20; D 10967 21; D 90393 20; D 744388 19; D 612476 19; D 50351 20; D 413582 19; D 339428 19;
   D 278332 19; D 228032 19; D 186651 19; D 15263 20; D 124675 19; D 101718 19; D 828727 18; D 674082 18; D 54721 19; D 443139 18; D 357774 18;
   D 287748 18; D 230303 18; D 183188 18; D 144563 18; D 112936 18; D 871028 17; D 661 20; D 491547 17; D 356556 17; D 251273 17; D 172114 17;
   D 116545 17]].
