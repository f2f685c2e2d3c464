(** Generated by gen/gen_tables.py from app/status_page.cpp:49-237: the raw strings of
    the page in order, as octets. *)
From Verif Require Import Base.

(** status_page.cpp:49-237. *)
Definition TEXT_HEAD : bytes := [
  10; 60; 33; 68; 79; 67; 84; 89; 80; 69; 32; 104; 116; 109; 108; 62; 10; 60; 104; 116; 109; 108; 32; 108;
  97; 110; 103; 61; 34; 101; 110; 34; 62; 10; 60; 104; 101; 97; 100; 62; 10; 32; 32; 32; 32; 60; 116; 105;
  116; 108; 101; 62; 105; 111; 110; 32; 115; 101; 114; 118; 101; 114; 32; 115; 116; 97; 116; 117; 115; 60; 47; 116;
  105; 116; 108; 101; 62; 10; 32; 32; 32; 32; 60; 109; 101; 116; 97; 32; 99; 104; 97; 114; 115; 101; 116; 61;
  34; 85; 84; 70; 45; 56; 34; 62; 10; 32; 32; 32; 32; 60; 109; 101; 116; 97; 32; 110; 97; 109; 101; 61;
  34; 118; 105; 101; 119; 112; 111; 114; 116; 34; 32; 99; 111; 110; 116; 101; 110; 116; 61; 34; 119; 105; 100; 116;
  104; 61; 100; 101; 118; 105; 99; 101; 45; 119; 105; 100; 116; 104; 44; 32; 105; 110; 105; 116; 105; 97; 108; 45;
  115; 99; 97; 108; 101; 61; 49; 46; 48; 34; 62; 10; 32; 32; 32; 32; 60; 115; 116; 121; 108; 101; 62; 10;
  32; 32; 32; 32; 32; 32; 32; 32; 58; 114; 111; 111; 116; 32; 123; 10; 32; 32; 32; 32; 32; 32; 32; 32;
  32; 32; 32; 32; 45; 45; 98; 103; 58; 32; 35; 48; 100; 49; 49; 49; 55; 59; 10; 32; 32; 32; 32; 32;
  32; 32; 32; 32; 32; 32; 32; 45; 45; 99; 97; 114; 100; 45; 98; 103; 58; 32; 35; 49; 54; 49; 98; 50;
  50; 59; 10; 32; 32; 32; 32; 32; 32; 32; 32; 32; 32; 32; 32; 45; 45; 98; 111; 114; 100; 101; 114; 58;
  32; 35; 51; 48; 51; 54; 51; 100; 59; 10; 32; 32; 32; 32; 32; 32; 32; 32; 32; 32; 32; 32; 45; 45;
  97; 99; 99; 101; 110; 116; 58; 32; 35; 102; 57; 100; 52; 50; 51; 59; 32; 47; 42; 32; 73; 111; 110; 32;
  71; 111; 108; 100; 32; 42; 47; 10; 32; 32; 32; 32; 32; 32; 32; 32; 32; 32; 32; 32; 45; 45; 99; 121;
  97; 110; 58; 32; 35; 48; 48; 100; 52; 102; 102; 59; 10; 32; 32; 32; 32; 32; 32; 32; 32; 32; 32; 32;
  32; 45; 45; 116; 101; 120; 116; 58; 32; 35; 99; 57; 100; 49; 100; 57; 59; 10; 32; 32; 32; 32; 32; 32;
  32; 32; 32; 32; 32; 32; 45; 45; 116; 101; 120; 116; 45; 100; 105; 109; 58; 32; 35; 56; 98; 57; 52; 57;
  101; 59; 10; 32; 32; 32; 32; 32; 32; 32; 32; 32; 32; 32; 32; 45; 45; 115; 117; 99; 99; 101; 115; 115;
  58; 32; 35; 50; 51; 56; 54; 51; 54; 59; 10; 32; 32; 32; 32; 32; 32; 32; 32; 125; 10; 10; 32; 32;
  32; 32; 32; 32; 32; 32; 98; 111; 100; 121; 32; 123; 10; 32; 32; 32; 32; 32; 32; 32; 32; 32; 32; 32;
  32; 102; 111; 110; 116; 45; 102; 97; 109; 105; 108; 121; 58; 32; 45; 97; 112; 112; 108; 101; 45; 115; 121; 115;
  116; 101; 109; 44; 32; 66; 108; 105; 110; 107; 77; 97; 99; 83; 121; 115; 116; 101; 109; 70; 111; 110; 116; 44;
  32; 34; 83; 101; 103; 111; 101; 32; 85; 73; 34; 44; 32; 82; 111; 98; 111; 116; 111; 44; 32; 115; 97; 110;
  115; 45; 115; 101; 114; 105; 102; 59; 10; 32; 32; 32; 32; 32; 32; 32; 32; 32; 32; 32; 32; 98; 97; 99;
  107; 103; 114; 111; 117; 110; 100; 58; 32; 118; 97; 114; 40; 45; 45; 98; 103; 41; 59; 10; 32; 32; 32; 32;
  32; 32; 32; 32; 32; 32; 32; 32; 99; 111; 108; 111; 114; 58; 32; 118; 97; 114; 40; 45; 45; 116; 101; 120;
  116; 41; 59; 10; 32; 32; 32; 32; 32; 32; 32; 32; 32; 32; 32; 32; 108; 105; 110; 101; 45; 104; 101; 105;
  103; 104; 116; 58; 32; 49; 46; 54; 59; 10; 32; 32; 32; 32; 32; 32; 32; 32; 32; 32; 32; 32; 112; 97;
  100; 100; 105; 110; 103; 58; 32; 50; 114; 101; 109; 59; 10; 32; 32; 32; 32; 32; 32; 32; 32; 32; 32; 32;
  32; 109; 97; 120; 45; 119; 105; 100; 116; 104; 58; 32; 56; 48; 48; 112; 120; 59; 10; 32; 32; 32; 32; 32;
  32; 32; 32; 32; 32; 32; 32; 109; 97; 114; 103; 105; 110; 58; 32; 97; 117; 116; 111; 59; 10; 32; 32; 32;
  32; 32; 32; 32; 32; 125; 10; 10; 32; 32; 32; 32; 32; 32; 32; 32; 46; 99; 97; 114; 100; 32; 123; 10;
  32; 32; 32; 32; 32; 32; 32; 32; 32; 32; 32; 32; 98; 97; 99; 107; 103; 114; 111; 117; 110; 100; 58; 32;
  118; 97; 114; 40; 45; 45; 99; 97; 114; 100; 45; 98; 103; 41; 59; 10; 32; 32; 32; 32; 32; 32; 32; 32;
  32; 32; 32; 32; 98; 111; 114; 100; 101; 114; 45; 114; 97; 100; 105; 117; 115; 58; 32; 49; 50; 112; 120; 59;
  10; 32; 32; 32; 32; 32; 32; 32; 32; 32; 32; 32; 32; 112; 97; 100; 100; 105; 110; 103; 58; 32; 50; 114;
  101; 109; 59; 10; 32; 32; 32; 32; 32; 32; 32; 32; 32; 32; 32; 32; 98; 111; 114; 100; 101; 114; 58; 32;
  49; 112; 120; 32; 115; 111; 108; 105; 100; 32; 118; 97; 114; 40; 45; 45; 98; 111; 114; 100; 101; 114; 41; 59;
  10; 32; 32; 32; 32; 32; 32; 32; 32; 32; 32; 32; 32; 98; 111; 120; 45; 115; 104; 97; 100; 111; 119; 58;
  32; 48; 32; 49; 48; 112; 120; 32; 51; 48; 112; 120; 32; 114; 103; 98; 97; 40; 48; 44; 48; 44; 48; 44;
  48; 46; 53; 41; 59; 10; 32; 32; 32; 32; 32; 32; 32; 32; 32; 32; 32; 32; 112; 111; 115; 105; 116; 105;
  111; 110; 58; 32; 114; 101; 108; 97; 116; 105; 118; 101; 59; 10; 32; 32; 32; 32; 32; 32; 32; 32; 32; 32;
  32; 32; 111; 118; 101; 114; 102; 108; 111; 119; 58; 32; 104; 105; 100; 100; 101; 110; 59; 10; 32; 32; 32; 32;
  32; 32; 32; 32; 125; 10; 10; 32; 32; 32; 32; 32; 32; 32; 32; 47; 42; 32; 83; 117; 98; 116; 108; 101;
  32; 34; 108; 105; 103; 104; 116; 110; 105; 110; 103; 34; 32; 100; 101; 99; 111; 114; 97; 116; 105; 118; 101; 32;
  101; 108; 101; 109; 101; 110; 116; 32; 42; 47; 10; 32; 32; 32; 32; 32; 32; 32; 32; 46; 99; 97; 114; 100;
  58; 58; 97; 102; 116; 101; 114; 32; 123; 10; 32; 32; 32; 32; 32; 32; 32; 32; 32; 32; 32; 32; 99; 111;
  110; 116; 101; 110; 116; 58; 32; 34; 226; 154; 161; 239; 184; 143; 34; 59; 10; 32; 32; 32; 32; 32; 32; 32;
  32; 32; 32; 32; 32; 112; 111; 115; 105; 116; 105; 111; 110; 58; 32; 97; 98; 115; 111; 108; 117; 116; 101; 59;
  10; 32; 32; 32; 32; 32; 32; 32; 32; 32; 32; 32; 32; 116; 111; 112; 58; 32; 45; 49; 48; 112; 120; 59;
  10; 32; 32; 32; 32; 32; 32; 32; 32; 32; 32; 32; 32; 114; 105; 103; 104; 116; 58; 32; 49; 48; 112; 120;
  59; 10; 32; 32; 32; 32; 32; 32; 32; 32; 32; 32; 32; 32; 102; 111; 110; 116; 45; 115; 105; 122; 101; 58;
  32; 53; 114; 101; 109; 59; 10; 32; 32; 32; 32; 32; 32; 32; 32; 32; 32; 32; 32; 111; 112; 97; 99; 105;
  116; 121; 58; 32; 48; 46; 48; 53; 59; 10; 32; 32; 32; 32; 32; 32; 32; 32; 32; 32; 32; 32; 112; 111;
  105; 110; 116; 101; 114; 45; 101; 118; 101; 110; 116; 115; 58; 32; 110; 111; 110; 101; 59; 10; 32; 32; 32; 32;
  32; 32; 32; 32; 125; 10; 10; 32; 32; 32; 32; 32; 32; 32; 32; 104; 49; 32; 123; 10; 32; 32; 32; 32;
  32; 32; 32; 32; 32; 32; 32; 32; 99; 111; 108; 111; 114; 58; 32; 118; 97; 114; 40; 45; 45; 97; 99; 99;
  101; 110; 116; 41; 59; 10; 32; 32; 32; 32; 32; 32; 32; 32; 32; 32; 32; 32; 109; 97; 114; 103; 105; 110;
  45; 116; 111; 112; 58; 32; 48; 59; 10; 32; 32; 32; 32; 32; 32; 32; 32; 32; 32; 32; 32; 102; 111; 110;
  116; 45; 115; 105; 122; 101; 58; 32; 49; 46; 53; 114; 101; 109; 59; 10; 32; 32; 32; 32; 32; 32; 32; 32;
  32; 32; 32; 32; 108; 101; 116; 116; 101; 114; 45; 115; 112; 97; 99; 105; 110; 103; 58; 32; 45; 48; 46; 53;
  112; 120; 59; 10; 32; 32; 32; 32; 32; 32; 32; 32; 32; 32; 32; 32; 100; 105; 115; 112; 108; 97; 121; 58;
  32; 102; 108; 101; 120; 59; 10; 32; 32; 32; 32; 32; 32; 32; 32; 32; 32; 32; 32; 97; 108; 105; 103; 110;
  45; 105; 116; 101; 109; 115; 58; 32; 99; 101; 110; 116; 101; 114; 59; 10; 32; 32; 32; 32; 32; 32; 32; 32;
  32; 32; 32; 32; 103; 97; 112; 58; 32; 49; 48; 112; 120; 59; 10; 32; 32; 32; 32; 32; 32; 32; 32; 125;
  10; 10; 32; 32; 32; 32; 32; 32; 32; 32; 104; 51; 32; 123; 10; 32; 32; 32; 32; 32; 32; 32; 32; 32;
  32; 32; 32; 102; 111; 110; 116; 45; 115; 105; 122; 101; 58; 32; 48; 46; 57; 114; 101; 109; 59; 10; 32; 32;
  32; 32; 32; 32; 32; 32; 32; 32; 32; 32; 116; 101; 120; 116; 45; 116; 114; 97; 110; 115; 102; 111; 114; 109;
  58; 32; 117; 112; 112; 101; 114; 99; 97; 115; 101; 59; 10; 32; 32; 32; 32; 32; 32; 32; 32; 32; 32; 32;
  32; 108; 101; 116; 116; 101; 114; 45; 115; 112; 97; 99; 105; 110; 103; 58; 32; 49; 112; 120; 59; 10; 32; 32;
  32; 32; 32; 32; 32; 32; 32; 32; 32; 32; 99; 111; 108; 111; 114; 58; 32; 118; 97; 114; 40; 45; 45; 116;
  101; 120; 116; 45; 100; 105; 109; 41; 59; 10; 32; 32; 32; 32; 32; 32; 32; 32; 32; 32; 32; 32; 109; 97;
  114; 103; 105; 110; 45; 116; 111; 112; 58; 32; 50; 114; 101; 109; 59; 10; 32; 32; 32; 32; 32; 32; 32; 32;
  32; 32; 32; 32; 98; 111; 114; 100; 101; 114; 45; 98; 111; 116; 116; 111; 109; 58; 32; 49; 112; 120; 32; 115;
  111; 108; 105; 100; 32; 118; 97; 114; 40; 45; 45; 98; 111; 114; 100; 101; 114; 41; 59; 10; 32; 32; 32; 32;
  32; 32; 32; 32; 32; 32; 32; 32; 112; 97; 100; 100; 105; 110; 103; 45; 98; 111; 116; 116; 111; 109; 58; 32;
  48; 46; 53; 114; 101; 109; 59; 10; 32; 32; 32; 32; 32; 32; 32; 32; 125; 10; 10; 32; 32; 32; 32; 32;
  32; 32; 32; 46; 115; 116; 97; 116; 45; 103; 114; 105; 100; 32; 123; 10; 32; 32; 32; 32; 32; 32; 32; 32;
  32; 32; 32; 32; 100; 105; 115; 112; 108; 97; 121; 58; 32; 103; 114; 105; 100; 59; 10; 32; 32; 32; 32; 32;
  32; 32; 32; 32; 32; 32; 32; 103; 114; 105; 100; 45; 116; 101; 109; 112; 108; 97; 116; 101; 45; 99; 111; 108;
  117; 109; 110; 115; 58; 32; 114; 101; 112; 101; 97; 116; 40; 97; 117; 116; 111; 45; 102; 105; 116; 44; 32; 109;
  105; 110; 109; 97; 120; 40; 50; 48; 48; 112; 120; 44; 32; 49; 102; 114; 41; 41; 59; 10; 32; 32; 32; 32;
  32; 32; 32; 32; 32; 32; 32; 32; 103; 97; 112; 58; 32; 49; 46; 53; 114; 101; 109; 59; 10; 32; 32; 32;
  32; 32; 32; 32; 32; 125; 10; 10; 32; 32; 32; 32; 32; 32; 32; 32; 46; 115; 116; 97; 116; 45; 105; 116;
  101; 109; 32; 123; 10; 32; 32; 32; 32; 32; 32; 32; 32; 32; 32; 32; 32; 100; 105; 115; 112; 108; 97; 121;
  58; 32; 102; 108; 101; 120; 59; 10; 32; 32; 32; 32; 32; 32; 32; 32; 32; 32; 32; 32; 102; 108; 101; 120;
  45; 100; 105; 114; 101; 99; 116; 105; 111; 110; 58; 32; 99; 111; 108; 117; 109; 110; 59; 10; 32; 32; 32; 32;
  32; 32; 32; 32; 125; 10; 10; 32; 32; 32; 32; 32; 32; 32; 32; 46; 108; 97; 98; 101; 108; 32; 123; 10;
  32; 32; 32; 32; 32; 32; 32; 32; 32; 32; 32; 32; 102; 111; 110; 116; 45; 119; 101; 105; 103; 104; 116; 58;
  32; 54; 48; 48; 59; 10; 32; 32; 32; 32; 32; 32; 32; 32; 32; 32; 32; 32; 99; 111; 108; 111; 114; 58;
  32; 118; 97; 114; 40; 45; 45; 116; 101; 120; 116; 45; 100; 105; 109; 41; 59; 10; 32; 32; 32; 32; 32; 32;
  32; 32; 32; 32; 32; 32; 102; 111; 110; 116; 45; 115; 105; 122; 101; 58; 32; 48; 46; 55; 53; 114; 101; 109;
  59; 10; 32; 32; 32; 32; 32; 32; 32; 32; 32; 32; 32; 32; 116; 101; 120; 116; 45; 116; 114; 97; 110; 115;
  102; 111; 114; 109; 58; 32; 117; 112; 112; 101; 114; 99; 97; 115; 101; 59; 10; 32; 32; 32; 32; 32; 32; 32;
  32; 32; 32; 32; 32; 109; 97; 114; 103; 105; 110; 45; 98; 111; 116; 116; 111; 109; 58; 32; 52; 112; 120; 59;
  10; 32; 32; 32; 32; 32; 32; 32; 32; 125; 10; 10; 32; 32; 32; 32; 32; 32; 32; 32; 46; 118; 97; 108;
  117; 101; 32; 123; 10; 32; 32; 32; 32; 32; 32; 32; 32; 32; 32; 32; 32; 102; 111; 110; 116; 45; 102; 97;
  109; 105; 108; 121; 58; 32; 34; 83; 70; 77; 111; 110; 111; 45; 82; 101; 103; 117; 108; 97; 114; 34; 44; 32;
  67; 111; 110; 115; 111; 108; 97; 115; 44; 32; 109; 111; 110; 111; 115; 112; 97; 99; 101; 59; 10; 32; 32; 32;
  32; 32; 32; 32; 32; 32; 32; 32; 32; 99; 111; 108; 111; 114; 58; 32; 118; 97; 114; 40; 45; 45; 99; 121;
  97; 110; 41; 59; 10; 32; 32; 32; 32; 32; 32; 32; 32; 32; 32; 32; 32; 102; 111; 110; 116; 45; 115; 105;
  122; 101; 58; 32; 49; 46; 50; 53; 114; 101; 109; 59; 10; 32; 32; 32; 32; 32; 32; 32; 32; 32; 32; 32;
  32; 102; 111; 110; 116; 45; 119; 101; 105; 103; 104; 116; 58; 32; 53; 48; 48; 59; 10; 32; 32; 32; 32; 32;
  32; 32; 32; 32; 32; 32; 32; 119; 104; 105; 116; 101; 45; 115; 112; 97; 99; 101; 58; 32; 110; 111; 119; 114;
  97; 112; 59; 10; 32; 32; 32; 32; 32; 32; 32; 32; 125; 10; 10; 32; 32; 32; 32; 32; 32; 32; 32; 46;
  99; 111; 100; 101; 45; 108; 105; 115; 116; 32; 123; 10; 32; 32; 32; 32; 32; 32; 32; 32; 32; 32; 32; 32;
  100; 105; 115; 112; 108; 97; 121; 58; 32; 102; 108; 101; 120; 59; 10; 32; 32; 32; 32; 32; 32; 32; 32; 32;
  32; 32; 32; 102; 108; 101; 120; 45; 119; 114; 97; 112; 58; 32; 119; 114; 97; 112; 59; 10; 32; 32; 32; 32;
  32; 32; 32; 32; 32; 32; 32; 32; 103; 97; 112; 58; 32; 48; 46; 55; 53; 114; 101; 109; 59; 10; 32; 32;
  32; 32; 32; 32; 32; 32; 32; 32; 32; 32; 109; 97; 114; 103; 105; 110; 45; 116; 111; 112; 58; 32; 49; 114;
  101; 109; 59; 10; 32; 32; 32; 32; 32; 32; 32; 32; 125; 10; 10; 32; 32; 32; 32; 32; 32; 32; 32; 46;
  99; 111; 100; 101; 45; 98; 97; 100; 103; 101; 32; 123; 10; 32; 32; 32; 32; 32; 32; 32; 32; 32; 32; 32;
  32; 98; 97; 99; 107; 103; 114; 111; 117; 110; 100; 58; 32; 114; 103; 98; 97; 40; 48; 44; 32; 50; 49; 50;
  44; 32; 50; 53; 53; 44; 32; 48; 46; 48; 53; 41; 59; 10; 32; 32; 32; 32; 32; 32; 32; 32; 32; 32;
  32; 32; 112; 97; 100; 100; 105; 110; 103; 58; 32; 48; 46; 53; 114; 101; 109; 32; 49; 114; 101; 109; 59; 10;
  32; 32; 32; 32; 32; 32; 32; 32; 32; 32; 32; 32; 98; 111; 114; 100; 101; 114; 45; 114; 97; 100; 105; 117;
  115; 58; 32; 54; 112; 120; 59; 10; 32; 32; 32; 32; 32; 32; 32; 32; 32; 32; 32; 32; 98; 111; 114; 100;
  101; 114; 58; 32; 49; 112; 120; 32; 115; 111; 108; 105; 100; 32; 118; 97; 114; 40; 45; 45; 98; 111; 114; 100;
  101; 114; 41; 59; 10; 32; 32; 32; 32; 32; 32; 32; 32; 32; 32; 32; 32; 100; 105; 115; 112; 108; 97; 121;
  58; 32; 102; 108; 101; 120; 59; 10; 32; 32; 32; 32; 32; 32; 32; 32; 32; 32; 32; 32; 97; 108; 105; 103;
  110; 45; 105; 116; 101; 109; 115; 58; 32; 99; 101; 110; 116; 101; 114; 59; 10; 32; 32; 32; 32; 32; 32; 32;
  32; 32; 32; 32; 32; 116; 114; 97; 110; 115; 105; 116; 105; 111; 110; 58; 32; 116; 114; 97; 110; 115; 102; 111;
  114; 109; 32; 48; 46; 50; 115; 59; 10; 32; 32; 32; 32; 32; 32; 32; 32; 125; 10; 10; 32; 32; 32; 32;
  32; 32; 32; 32; 46; 99; 111; 100; 101; 45; 98; 97; 100; 103; 101; 58; 104; 111; 118; 101; 114; 32; 123; 10;
  32; 32; 32; 32; 32; 32; 32; 32; 32; 32; 32; 32; 116; 114; 97; 110; 115; 102; 111; 114; 109; 58; 32; 116;
  114; 97; 110; 115; 108; 97; 116; 101; 89; 40; 45; 50; 112; 120; 41; 59; 10; 32; 32; 32; 32; 32; 32; 32;
  32; 32; 32; 32; 32; 98; 111; 114; 100; 101; 114; 45; 99; 111; 108; 111; 114; 58; 32; 118; 97; 114; 40; 45;
  45; 99; 121; 97; 110; 41; 59; 10; 32; 32; 32; 32; 32; 32; 32; 32; 125; 10; 10; 32; 32; 32; 32; 32;
  32; 32; 32; 46; 99; 111; 100; 101; 45; 110; 117; 109; 32; 123; 10; 32; 32; 32; 32; 32; 32; 32; 32; 32;
  32; 32; 32; 102; 111; 110; 116; 45; 119; 101; 105; 103; 104; 116; 58; 32; 98; 111; 108; 100; 59; 10; 32; 32;
  32; 32; 32; 32; 32; 32; 32; 32; 32; 32; 99; 111; 108; 111; 114; 58; 32; 118; 97; 114; 40; 45; 45; 97;
  99; 99; 101; 110; 116; 41; 59; 10; 32; 32; 32; 32; 32; 32; 32; 32; 32; 32; 32; 32; 109; 97; 114; 103;
  105; 110; 45; 114; 105; 103; 104; 116; 58; 32; 49; 48; 112; 120; 59; 10; 32; 32; 32; 32; 32; 32; 32; 32;
  32; 32; 32; 32; 112; 97; 100; 100; 105; 110; 103; 45; 114; 105; 103; 104; 116; 58; 32; 49; 48; 112; 120; 59;
  10; 32; 32; 32; 32; 32; 32; 32; 32; 32; 32; 32; 32; 98; 111; 114; 100; 101; 114; 45; 114; 105; 103; 104;
  116; 58; 32; 49; 112; 120; 32; 115; 111; 108; 105; 100; 32; 118; 97; 114; 40; 45; 45; 98; 111; 114; 100; 101;
  114; 41; 59; 10; 32; 32; 32; 32; 32; 32; 32; 32; 125; 10; 10; 32; 32; 32; 32; 32; 32; 32; 32; 46;
  102; 111; 111; 116; 101; 114; 32; 123; 10; 32; 32; 32; 32; 32; 32; 32; 32; 32; 32; 32; 32; 109; 97; 114;
  103; 105; 110; 45; 116; 111; 112; 58; 32; 51; 114; 101; 109; 59; 10; 32; 32; 32; 32; 32; 32; 32; 32; 32;
  32; 32; 32; 102; 111; 110; 116; 45; 115; 105; 122; 101; 58; 32; 48; 46; 55; 53; 114; 101; 109; 59; 10; 32;
  32; 32; 32; 32; 32; 32; 32; 32; 32; 32; 32; 99; 111; 108; 111; 114; 58; 32; 118; 97; 114; 40; 45; 45;
  116; 101; 120; 116; 45; 100; 105; 109; 41; 59; 10; 32; 32; 32; 32; 32; 32; 32; 32; 32; 32; 32; 32; 116;
  101; 120; 116; 45; 97; 108; 105; 103; 110; 58; 32; 99; 101; 110; 116; 101; 114; 59; 10; 32; 32; 32; 32; 32;
  32; 32; 32; 125; 10; 10; 32; 32; 32; 32; 32; 32; 32; 32; 46; 112; 117; 108; 115; 101; 32; 123; 10; 32;
  32; 32; 32; 32; 32; 32; 32; 32; 32; 32; 32; 119; 105; 100; 116; 104; 58; 32; 56; 112; 120; 59; 10; 32;
  32; 32; 32; 32; 32; 32; 32; 32; 32; 32; 32; 104; 101; 105; 103; 104; 116; 58; 32; 56; 112; 120; 59; 10;
  32; 32; 32; 32; 32; 32; 32; 32; 32; 32; 32; 32; 98; 97; 99; 107; 103; 114; 111; 117; 110; 100; 58; 32;
  118; 97; 114; 40; 45; 45; 115; 117; 99; 99; 101; 115; 115; 41; 59; 10; 32; 32; 32; 32; 32; 32; 32; 32;
  32; 32; 32; 32; 98; 111; 114; 100; 101; 114; 45; 114; 97; 100; 105; 117; 115; 58; 32; 53; 48; 37; 59; 10;
  32; 32; 32; 32; 32; 32; 32; 32; 32; 32; 32; 32; 100; 105; 115; 112; 108; 97; 121; 58; 32; 105; 110; 108;
  105; 110; 101; 45; 98; 108; 111; 99; 107; 59; 10; 32; 32; 32; 32; 32; 32; 32; 32; 32; 32; 32; 32; 98;
  111; 120; 45; 115; 104; 97; 100; 111; 119; 58; 32; 48; 32; 48; 32; 56; 112; 120; 32; 118; 97; 114; 40; 45;
  45; 115; 117; 99; 99; 101; 115; 115; 41; 59; 10; 32; 32; 32; 32; 32; 32; 32; 32; 32; 32; 32; 32; 97;
  110; 105; 109; 97; 116; 105; 111; 110; 58; 32; 98; 108; 105; 110; 107; 32; 50; 115; 32; 105; 110; 102; 105; 110;
  105; 116; 101; 59; 10; 32; 32; 32; 32; 32; 32; 32; 32; 125; 10; 10; 32; 32; 32; 32; 32; 32; 32; 32;
  64; 107; 101; 121; 102; 114; 97; 109; 101; 115; 32; 98; 108; 105; 110; 107; 32; 123; 10; 32; 32; 32; 32; 32;
  32; 32; 32; 32; 32; 32; 32; 48; 37; 32; 123; 32; 111; 112; 97; 99; 105; 116; 121; 58; 32; 49; 59; 32;
  125; 10; 32; 32; 32; 32; 32; 32; 32; 32; 32; 32; 32; 32; 53; 48; 37; 32; 123; 32; 111; 112; 97; 99;
  105; 116; 121; 58; 32; 48; 46; 51; 59; 32; 125; 10; 32; 32; 32; 32; 32; 32; 32; 32; 32; 32; 32; 32;
  49; 48; 48; 37; 32; 123; 32; 111; 112; 97; 99; 105; 116; 121; 58; 32; 49; 59; 32; 125; 10; 32; 32; 32;
  32; 32; 32; 32; 32; 125; 10; 32; 32; 32; 32; 60; 47; 115; 116; 121; 108; 101; 62; 10; 60; 47; 104; 101;
  97; 100; 62; 10; 60; 98; 111; 100; 121; 62; 10; 32; 32; 32; 32; 60; 100; 105; 118; 32; 99; 108; 97; 115;
  115; 61; 34; 99; 97; 114; 100; 34; 62; 10; 32; 32; 32; 32; 32; 32; 32; 32; 32; 60; 104; 49; 62; 10;
  32; 32; 32; 32; 32; 32; 32; 32; 32; 32; 32; 32; 60; 115; 112; 97; 110; 32; 99; 108; 97; 115; 115; 61;
  34; 112; 117; 108; 115; 101; 34; 62; 60; 47; 115; 112; 97; 110; 62; 10; 32; 32; 32; 32; 32; 32; 32; 32;
  32; 32; 32; 32; 105; 111; 110; 32; 115; 101; 114; 118; 101; 114; 32; 115; 116; 97; 116; 117; 115; 10; 32; 32;
  32; 32; 32; 32; 32; 32; 32; 32; 32; 32; 60; 115; 112; 97; 110; 32; 115; 116; 121; 108; 101; 61; 39; 99;
  111; 108; 111; 114; 58; 32; 118; 97; 114; 40; 45; 45; 97; 99; 99; 101; 110; 116; 41; 39; 62; 226; 154; 161;
  32; 239; 184; 143; 239; 184; 143; 60; 47; 115; 112; 97; 110; 62; 10; 32; 32; 32; 32; 32; 32; 32; 32; 60;
  47; 104; 49; 62; 10; 32; 32; 32; 32; 32; 32; 32; 32; 60; 100; 105; 118; 32; 99; 108; 97; 115; 115; 61;
  34; 115; 116; 97; 116; 45; 103; 114; 105; 100; 34; 62; 10; 32; 32; 32; 32; 32; 32; 32; 32; 32; 32; 32;
  32; 60; 100; 105; 118; 32; 99; 108; 97; 115; 115; 61; 34; 115; 116; 97; 116; 45; 105; 116; 101; 109; 34; 62;
  60; 115; 112; 97; 110; 32; 99; 108; 97; 115; 115; 61; 34; 108; 97; 98; 101; 108; 34; 62; 85; 112; 116; 105;
  109; 101; 60; 47; 115; 112; 97; 110; 62; 60; 115; 112; 97; 110; 32; 99; 108; 97; 115; 115; 61; 34; 118; 97;
  108; 117; 101; 34; 62
].

(** status_page.cpp:49-237. *)
Definition TEXT_REQUESTS : bytes := [
  60; 47; 115; 112; 97; 110; 62; 60; 47; 100; 105; 118; 62; 10; 32; 32; 32; 32; 32; 32; 32; 32; 32; 32;
  32; 32; 60; 100; 105; 118; 32; 99; 108; 97; 115; 115; 61; 34; 115; 116; 97; 116; 45; 105; 116; 101; 109; 34;
  62; 60; 115; 112; 97; 110; 32; 99; 108; 97; 115; 115; 61; 34; 108; 97; 98; 101; 108; 34; 62; 82; 101; 113;
  117; 101; 115; 116; 115; 60; 47; 115; 112; 97; 110; 62; 60; 115; 112; 97; 110; 32; 99; 108; 97; 115; 115; 61;
  34; 118; 97; 108; 117; 101; 34; 62
].

(** status_page.cpp:49-237. *)
Definition TEXT_LATENCY : bytes := [
  60; 47; 115; 112; 97; 110; 62; 60; 47; 100; 105; 118; 62; 10; 32; 32; 32; 32; 32; 32; 32; 32; 32; 32;
  32; 32; 60; 100; 105; 118; 32; 99; 108; 97; 115; 115; 61; 34; 115; 116; 97; 116; 45; 105; 116; 101; 109; 34;
  62; 60; 115; 112; 97; 110; 32; 99; 108; 97; 115; 115; 61; 34; 108; 97; 98; 101; 108; 34; 62; 65; 118; 103;
  32; 76; 97; 116; 101; 110; 99; 121; 60; 47; 115; 112; 97; 110; 62; 60; 115; 112; 97; 110; 32; 99; 108; 97;
  115; 115; 61; 34; 118; 97; 108; 117; 101; 34; 62
].

(** status_page.cpp:49-237. *)
Definition TEXT_CODES : bytes := [
  109; 115; 60; 47; 115; 112; 97; 110; 62; 60; 47; 100; 105; 118; 62; 10; 32; 32; 32; 32; 32; 32; 32; 32;
  60; 47; 100; 105; 118; 62; 10; 10; 32; 32; 32; 32; 32; 32; 32; 32; 60; 104; 51; 62; 72; 84; 84; 80;
  32; 83; 116; 97; 116; 117; 115; 32; 67; 111; 100; 101; 115; 60; 47; 104; 51; 62; 10; 32; 32; 32; 32; 32;
  32; 32; 32; 60; 100; 105; 118; 32; 99; 108; 97; 115; 115; 61; 34; 99; 111; 100; 101; 45; 108; 105; 115; 116;
  34; 62
].

(** status_page.cpp:49-237. *)
Definition TEXT_VERSION : bytes := [
  10; 32; 32; 32; 32; 32; 32; 32; 32; 60; 47; 100; 105; 118; 62; 10; 32; 32; 32; 32; 60; 47; 100; 105;
  118; 62; 10; 32; 32; 32; 32; 60; 100; 105; 118; 32; 99; 108; 97; 115; 115; 61; 34; 102; 111; 111; 116; 101;
  114; 34; 62; 10; 32; 32; 32; 32; 32; 32; 32; 32; 112; 111; 119; 101; 114; 101; 100; 32; 98; 121; 32; 60;
  97; 32; 104; 114; 101; 102; 61; 34; 104; 116; 116; 112; 115; 58; 47; 47; 103; 105; 116; 104; 117; 98; 46; 99;
  111; 109; 47; 114; 104; 97; 114; 103; 114; 101; 97; 118; 101; 115; 47; 105; 111; 110; 34; 62; 105; 111; 110; 60;
  47; 97; 62; 32; 118
].

(** status_page.cpp:49-237. *)
Definition TEXT_ID : bytes := [
  32; 226; 128; 162; 32; 105; 110; 115; 116; 97; 110; 99; 101; 32; 105; 100; 58; 32
].

(** status_page.cpp:49-237. *)
Definition TEXT_TAIL : bytes := [
  10; 32; 32; 32; 32; 60; 47; 100; 105; 118; 62; 10; 60; 47; 98; 111; 100; 121; 62; 10; 60; 47; 104; 116;
  109; 108; 62; 10
].
