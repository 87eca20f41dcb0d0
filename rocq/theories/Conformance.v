(** Tests of the model, not proofs: the sample chunks of the library's own tests
    (/repo/tests/chunks, those of at most 1100 bytes) run through the model as
    tests/test_chunks.py runs them through the code. Each is read in little endian and written back,
    which has to give the same bytes; it is then written in big endian, read and written again in
    little endian, which has to give them once more. *)
From Coq Require Import ZArith List Bool.
From Verif Require Import Base IoCtx Objects FileModel.
Import ListNotations.
Open Scope Z_scope.

(** tests/test_chunks.py:31-83 (MockFile, 22-29: references are not checked and keep their numbers). *)
Definition conforms (cc data : bytes) : bool :=
  let i bo := {| ibo := bo; inobj := None |} in
  let c bo := {| obo := bo; orefs := Some |} in
  match robject (i LE) cc data with
  | Err _ => false
  | Ok o =>
    match wbody (c LE) o, wbody (c BE) o with
    | Ok d1, Ok d2 =>
      match robject (i BE) cc d2 with
      | Err _ => false
      | Ok o' =>
        match wbody (c LE) o' with
        | Err _ => false
        | Ok d3 => zlist_eqb d1 data && zlist_eqb d3 data
        end
      end
    | _, _ => false
    end
  end.

(** tests/chunks/AIFC/aifc_01.chunk *)
Example sample_chunk_aifc_01 : conforms [65; 73; 70; 67] [
    2; 3; 1; 19; 0; 0; 0; 0; 0; 0; 0; 0; 2; 3; 128; 187; 0; 0; 0; 0; 10; 204; 91; 0; 0; 0; 0;
    0; 0; 0; 2; 1; 70; 79; 82; 77; 0; 0; 2; 206; 65; 73; 70; 67; 98; 101; 120; 116; 0; 0; 2;
    92; 54; 54; 32; 71; 111; 111; 79; 108; 105; 103; 104; 106; 32; 106; 114; 97; 108; 97; 109;
    46; 109; 112; 51; 0; 0; 0; 0; 0; 0; 0; 0; 0; 0; 0; 0; 0; 0; 0; 0; 0; 0; 0; 0; 0; 0; 0; 0;
    0; 0; 0; 0; 0; 0; 0; 0; 0; 0; 0; 0; 0; 0; 0; 0; 0; 0; 0; 0; 0; 0; 0; 0; 0; 0; 0; 0; 0; 0;
    0; 0; 0; 0; 0; 0; 0; 0; 0; 0; 0; 0; 0; 0; 0; 0; 0; 0; 0; 0; 0; 0; 0; 0; 0; 0; 0; 0; 0; 0;
    0; 0; 0; 0; 0; 0; 0; 0; 0; 0; 0; 0; 0; 0; 0; 0; 0; 0; 0; 0; 0; 0; 0; 0; 0; 0; 0; 0; 0; 0;
    0; 0; 0; 0; 0; 0; 0; 0; 0; 0; 0; 0; 0; 0; 0; 0; 0; 0; 0; 0; 0; 0; 0; 0; 0; 0; 0; 0; 0; 0;
    0; 0; 0; 0; 0; 0; 0; 0; 0; 0; 0; 0; 0; 0; 0; 0; 0; 0; 0; 0; 0; 0; 0; 0; 0; 0; 0; 0; 0; 0;
    0; 0; 0; 0; 0; 0; 0; 0; 0; 0; 0; 0; 0; 0; 0; 0; 0; 0; 0; 0; 0; 0; 0; 0; 0; 0; 0; 0; 0; 0;
    0; 0; 0; 0; 0; 0; 0; 0; 0; 0; 0; 0; 0; 0; 0; 0; 0; 0; 0; 0; 0; 0; 0; 0; 0; 0; 0; 0; 0; 65;
    118; 105; 100; 32; 77; 101; 100; 105; 97; 32; 67; 111; 109; 112; 111; 115; 101; 114; 32;
    51; 46; 48; 46; 53; 46; 53; 56; 49; 55; 48; 0; 48; 48; 48; 48; 48; 48; 48; 48; 48; 48; 48;
    48; 48; 48; 50; 97; 52; 57; 55; 101; 50; 48; 49; 49; 48; 48; 99; 98; 56; 55; 48; 54; 49;
    57; 48; 52; 45; 48; 49; 45; 48; 49; 48; 48; 45; 48; 48; 45; 48; 48; 0; 0; 0; 0; 9; 118;
    124; 64; 0; 0; 0; 0; 0; 0; 0; 0; 0; 0; 0; 0; 0; 0; 0; 0; 0; 0; 0; 0; 0; 0; 0; 0; 0; 0; 0;
    0; 0; 0; 0; 0; 0; 0; 0; 0; 0; 0; 0; 0; 0; 0; 0; 0; 0; 0; 0; 0; 0; 0; 0; 0; 0; 0; 0; 0; 0;
    0; 0; 0; 0; 0; 0; 0; 0; 0; 0; 0; 0; 0; 0; 0; 0; 0; 0; 0; 0; 0; 0; 0; 0; 0; 0; 0; 0; 0; 0;
    0; 0; 0; 0; 0; 0; 0; 0; 0; 0; 0; 0; 0; 0; 0; 0; 0; 0; 0; 0; 0; 0; 0; 0; 0; 0; 0; 0; 0; 0;
    0; 0; 0; 0; 0; 0; 0; 0; 0; 0; 0; 0; 0; 0; 0; 0; 0; 0; 0; 0; 0; 0; 0; 0; 0; 0; 0; 0; 0; 0;
    0; 0; 0; 0; 0; 0; 0; 0; 0; 0; 0; 0; 0; 0; 0; 0; 0; 0; 0; 0; 0; 0; 0; 0; 0; 0; 0; 0; 0; 0;
    0; 0; 0; 0; 0; 0; 0; 0; 0; 0; 0; 0; 0; 0; 0; 0; 0; 0; 0; 0; 0; 0; 0; 0; 0; 0; 0; 0; 0; 0;
    0; 0; 0; 0; 0; 0; 0; 0; 0; 0; 0; 0; 0; 0; 0; 0; 0; 0; 0; 0; 0; 0; 0; 0; 0; 0; 0; 0; 0; 0;
    0; 0; 0; 0; 0; 0; 0; 0; 0; 0; 0; 0; 0; 0; 0; 0; 0; 0; 0; 32; 0; 67; 79; 77; 77; 0; 0; 0;
    38; 0; 1; 0; 91; 204; 10; 0; 16; 64; 14; 187; 128; 0; 0; 0; 0; 0; 0; 78; 79; 78; 69; 14;
    78; 111; 116; 32; 67; 111; 109; 112; 114; 101; 115; 115; 101; 100; 0; 117; 109; 105; 100;
    0; 0; 0; 24; 0; 0; 0; 0; 0; 0; 0; 42; 73; 126; 32; 17; 0; 203; 135; 6; 0; 0; 0; 0; 0; 0;
    0; 1; 109; 105; 110; 102; 0; 0; 0; 16; 1; 201; 127; 179; 122; 8; 47; 0; 0; 0; 0; 0; 0; 0;
    0; 0; 1; 1; 71; 0; 16; 0; 0; 3] = true.
Proof. vm_compute; reflexivity. Qed.

(** tests/chunks/ANCD/ancd_01.chunk *)
Example sample_chunk_ancd_01 : conforms [65; 78; 67; 68] [
    2; 3; 1; 12; 0; 0; 0; 0; 11; 0; 0; 0; 1; 1; 65; 16; 0; 0; 0; 33; 137; 235; 96; 2; 42; 6;
    68; 137; 28; 217; 182; 166; 174; 6; 69; 1; 2; 65; 0; 2; 0; 0; 91; 0; 65; 0; 118; 0; 105;
    0; 100; 0; 32; 0; 84; 0; 101; 0; 99; 0; 104; 0; 110; 0; 111; 0; 108; 0; 111; 0; 103; 0;
    121; 0; 44; 0; 32; 0; 73; 0; 110; 0; 99; 0; 46; 0; 93; 0; 91; 0; 77; 0; 83; 0; 80; 0; 95;
    0; 77; 0; 88; 0; 70; 0; 32; 0; 80; 0; 108; 0; 117; 0; 103; 0; 45; 0; 73; 0; 110; 0; 93; 0;
    91; 0; 49; 0; 46; 0; 50; 0; 50; 0; 46; 0; 49; 0; 50; 0; 46; 0; 49; 0; 48; 0; 49; 0; 55; 0;
    57; 0; 93; 0; 91; 0; 71; 0; 101; 0; 110; 0; 101; 0; 114; 0; 105; 0; 99; 0; 77; 0; 88; 0;
    70; 0; 77; 0; 101; 0; 100; 0; 105; 0; 97; 0; 67; 0; 111; 0; 110; 0; 116; 0; 97; 0; 105; 0;
    110; 0; 101; 0; 114; 0; 93; 0; 0; 0; 0; 0; 0; 0; 0; 0; 0; 0; 0; 0; 0; 0; 0; 0; 0; 0; 0; 0;
    0; 0; 0; 0; 0; 0; 0; 0; 0; 0; 0; 0; 0; 0; 0; 0; 0; 0; 0; 0; 0; 0; 0; 0; 0; 0; 0; 0; 0; 0;
    0; 0; 0; 0; 0; 0; 0; 0; 0; 0; 0; 0; 0; 0; 0; 0; 0; 0; 0; 0; 0; 0; 0; 0; 0; 0; 0; 0; 0; 0;
    0; 0; 0; 0; 0; 0; 0; 0; 0; 0; 0; 0; 0; 0; 0; 0; 0; 0; 0; 0; 0; 0; 0; 0; 0; 0; 0; 0; 0; 0;
    0; 0; 0; 0; 0; 0; 0; 0; 0; 0; 0; 0; 0; 0; 0; 0; 0; 0; 0; 0; 0; 0; 0; 0; 0; 0; 0; 0; 0; 0;
    0; 0; 0; 0; 0; 0; 0; 0; 0; 0; 0; 0; 0; 0; 0; 0; 0; 0; 0; 0; 0; 0; 0; 0; 0; 0; 0; 0; 0; 0;
    0; 0; 0; 0; 0; 0; 0; 0; 0; 0; 0; 0; 0; 0; 0; 0; 0; 0; 0; 0; 0; 0; 0; 0; 0; 0; 0; 0; 0; 0;
    0; 0; 0; 0; 0; 0; 0; 0; 0; 0; 0; 0; 0; 0; 0; 0; 0; 0; 0; 0; 0; 0; 0; 0; 0; 0; 0; 0; 0; 0;
    0; 0; 0; 0; 0; 0; 0; 0; 0; 0; 0; 0; 0; 0; 0; 0; 0; 0; 0; 0; 0; 0; 0; 0; 0; 0; 0; 0; 0; 0;
    0; 0; 0; 0; 0; 0; 0; 0; 0; 0; 0; 0; 0; 0; 0; 0; 0; 0; 0; 0; 0; 0; 0; 0; 0; 0; 0; 0; 0; 0;
    0; 0; 0; 0; 0; 0; 0; 0; 0; 0; 0; 0; 0; 0; 0; 0; 0; 0; 0; 0; 0; 0; 0; 0; 0; 0; 0; 0; 0; 0;
    0; 0; 0; 0; 0; 0; 0; 0; 0; 0; 0; 0; 0; 0; 0; 0; 0; 0; 0; 0; 0; 0; 0; 0; 0; 0; 0; 0; 0; 0;
    2; 3; 181; 11; 0; 0; 254; 255; 58; 8; 0; 0; 2; 0; 0; 0; 0; 0; 2; 1; 0; 0; 0; 0; 0; 0; 0;
    0; 0; 0; 0; 0; 0; 0; 0; 0; 0; 0; 0; 0; 0; 2; 1; 0; 0; 0; 0; 3] = true.
Proof. vm_compute; reflexivity. Qed.

(** tests/chunks/ASPI/aspi_01.chunk *)
Example sample_chunk_aspi_01 : conforms [65; 83; 80; 73] [
    2; 3; 0; 0; 0; 0; 0; 0; 0; 0; 2; 0; 168; 93; 0; 0; 253; 255; 255; 255; 20; 0; 69; 70; 70;
    95; 65; 85; 68; 73; 79; 95; 65; 83; 95; 80; 76; 85; 71; 95; 73; 78; 111; 173; 3; 0; 0; 0;
    0; 0; 0; 0; 0; 0; 1; 1; 72; 0; 0; 0; 0; 2; 8; 0; 116; 0; 0; 0; 0; 0; 0; 0; 1; 0; 0; 0; 5;
    0; 1; 0; 110; 173; 3; 0; 1; 1; 69; 0; 0; 2; 6; 15; 0; 0; 0; 15; 0; 0; 0; 2; 0; 0; 0; 0; 0;
    0; 0; 0; 0; 1; 0; 1; 0; 0; 0; 0; 0; 0; 0; 0; 0; 1; 2; 72; 0; 0; 0; 0; 2; 1; 1; 0; 0; 0;
    10; 0; 69; 81; 51; 32; 55; 45; 66; 97; 110; 100; 105; 103; 105; 68; 51; 101; 55; 52; 97;
    113; 101; 55; 1; 0; 0; 0; 32; 2; 0; 0; 255; 255; 255; 255; 105; 103; 105; 68; 51; 101; 55;
    52; 97; 113; 101; 55; 107; 99; 108; 101; 23; 0; 67; 111; 109; 112; 108; 101; 116; 101; 32;
    67; 111; 110; 116; 114; 111; 108; 115; 32; 83; 116; 97; 116; 101; 1; 1; 1; 1; 108; 95;
    104; 97; 107; 51; 0; 0; 0; 0; 0; 0; 108; 95; 104; 97; 107; 49; 0; 0; 0; 0; 0; 0; 100; 95;
    105; 110; 112; 116; 0; 0; 0; 0; 0; 0; 0; 0; 0; 0; 100; 95; 111; 117; 116; 112; 0; 0; 0; 0;
    0; 0; 0; 0; 0; 0; 108; 95; 80; 104; 115; 101; 0; 0; 0; 0; 0; 0; 108; 95; 104; 112; 114;
    103; 0; 0; 0; 0; 0; 1; 108; 95; 105; 110; 32; 49; 0; 0; 0; 0; 0; 0; 100; 95; 104; 112;
    102; 113; 0; 0; 63; 240; 0; 0; 0; 0; 0; 0; 108; 95; 104; 112; 102; 115; 0; 0; 0; 0; 0; 0;
    100; 95; 102; 114; 113; 49; 0; 0; 64; 52; 0; 0; 0; 0; 0; 0; 108; 95; 105; 110; 32; 50; 0;
    0; 0; 0; 0; 1; 100; 95; 103; 97; 105; 50; 0; 0; 64; 40; 0; 0; 0; 0; 0; 0; 100; 95; 102;
    114; 113; 50; 0; 0; 64; 127; 63; 255; 255; 255; 255; 253; 100; 95; 98; 110; 100; 50; 0; 0;
    63; 240; 0; 0; 0; 0; 0; 0; 108; 95; 108; 102; 114; 103; 0; 0; 0; 0; 0; 1; 108; 95; 105;
    110; 32; 51; 0; 0; 0; 0; 0; 1; 100; 95; 103; 97; 105; 51; 0; 0; 192; 50; 0; 0; 0; 0; 0; 0;
    100; 95; 102; 114; 113; 51; 0; 0; 64; 121; 138; 192; 71; 212; 204; 23; 100; 95; 98; 110;
    100; 51; 0; 0; 63; 240; 0; 0; 0; 0; 0; 0; 108; 95; 105; 110; 32; 52; 0; 0; 0; 0; 0; 1;
    100; 95; 103; 97; 105; 52; 0; 0; 192; 35; 33; 165; 77; 103; 33; 165; 100; 95; 102; 114;
    113; 52; 0; 0; 64; 152; 36; 118; 144; 236; 38; 27; 100; 95; 98; 110; 100; 52; 0; 0; 63;
    240; 0; 0; 0; 0; 0; 0; 108; 95; 105; 110; 32; 53; 0; 0; 0; 0; 0; 1; 100; 95; 103; 97; 105;
    53; 0; 0; 64; 2; 236; 251; 156; 2; 237; 0; 100; 95; 102; 114; 113; 53; 0; 0; 64; 159; 64;
    0; 0; 34; 117; 135; 100; 95; 98; 110; 100; 53; 0; 0; 63; 240; 0; 0; 0; 0; 0; 0; 108; 95;
    105; 110; 32; 54; 0; 0; 0; 0; 0; 1; 100; 95; 103; 97; 105; 54; 0; 0; 0; 0; 0; 0; 0; 0; 0;
    0; 100; 95; 102; 114; 113; 54; 0; 0; 64; 183; 111; 255; 255; 255; 255; 251; 100; 95; 98;
    110; 100; 54; 0; 0; 63; 240; 0; 0; 0; 0; 0; 0; 108; 95; 104; 102; 114; 103; 0; 0; 0; 0; 0;
    1; 108; 95; 108; 112; 114; 103; 0; 0; 0; 0; 0; 1; 108; 95; 105; 110; 32; 55; 0; 0; 0; 0;
    0; 0; 100; 95; 108; 112; 102; 113; 0; 0; 63; 240; 0; 0; 0; 0; 0; 0; 108; 95; 108; 112;
    102; 115; 0; 0; 0; 0; 0; 0; 100; 95; 102; 114; 113; 55; 0; 0; 64; 211; 135; 255; 255; 255;
    255; 251; 108; 95; 104; 97; 107; 50; 0; 0; 0; 0; 0; 0; 1; 1; 71; 0; 0; 0; 0; 71; 0; 0; 0;
    0; 1; 8; 65; 12; 0; 0; 0; 6; 10; 43; 52; 1; 1; 1; 1; 1; 1; 15; 0; 68; 19; 68; 0; 68; 0;
    68; 0; 72; 0; 0; 0; 0; 70; 0; 0; 70; 0; 0; 65; 8; 0; 0; 0; 6; 14; 43; 52; 127; 127; 42;
    128; 1; 2; 77; 255; 255; 255; 255; 255; 255; 255; 255; 1; 3; 77; 255; 255; 255; 255; 255;
    255; 255; 255; 1; 4; 72; 0; 0; 0; 0; 1; 5; 71; 1; 0; 0; 0; 1; 6; 71; 0; 0; 0; 0; 1; 9; 72;
    17; 0; 0; 0; 65; 17; 0; 0; 0; 60; 102; 97; 99; 116; 111; 114; 121; 32; 100; 101; 102; 97;
    117; 108; 116; 62; 3] = true.
Proof. vm_compute; reflexivity. Qed.

(** tests/chunks/ASPI/aspi_02.chunk *)
Example sample_chunk_aspi_02 : conforms [65; 83; 80; 73] [
    2; 3; 0; 0; 0; 0; 0; 0; 0; 0; 2; 0; 168; 93; 0; 0; 253; 255; 255; 255; 20; 0; 69; 70; 70;
    95; 65; 85; 68; 73; 79; 95; 65; 83; 95; 80; 76; 85; 71; 95; 73; 78; 109; 66; 1; 0; 0; 0;
    0; 0; 108; 66; 1; 0; 1; 1; 72; 0; 0; 0; 0; 2; 8; 0; 74; 0; 0; 0; 0; 0; 0; 0; 1; 0; 0; 0;
    5; 0; 1; 0; 107; 66; 1; 0; 1; 1; 69; 0; 0; 2; 6; 15; 0; 0; 0; 15; 0; 0; 0; 2; 0; 0; 0; 0;
    0; 0; 0; 0; 0; 1; 0; 1; 0; 0; 0; 0; 0; 0; 0; 0; 0; 1; 2; 72; 0; 0; 0; 0; 2; 1; 1; 0; 0; 0;
    7; 0; 82; 101; 118; 101; 114; 115; 101; 105; 103; 105; 68; 32; 84; 82; 78; 83; 82; 86; 82;
    0; 0; 0; 0; 1; 1; 71; 0; 0; 0; 0; 71; 0; 0; 0; 0; 1; 8; 65; 12; 0; 0; 0; 6; 10; 43; 52; 1;
    1; 1; 1; 1; 1; 15; 0; 68; 19; 68; 0; 68; 0; 68; 0; 72; 0; 0; 0; 0; 70; 0; 0; 70; 0; 0; 65;
    8; 0; 0; 0; 6; 14; 43; 52; 127; 127; 42; 128; 1; 2; 77; 255; 255; 255; 255; 255; 255; 255;
    255; 1; 3; 77; 255; 255; 255; 255; 255; 255; 255; 255; 1; 4; 72; 0; 0; 0; 0; 1; 5; 71; 1;
    0; 0; 0; 1; 6; 71; 0; 0; 0; 0; 1; 9; 72; 17; 0; 0; 0; 65; 17; 0; 0; 0; 60; 102; 97; 99;
    116; 111; 114; 121; 32; 100; 101; 102; 97; 117; 108; 116; 62; 3] = true.
Proof. vm_compute; reflexivity. Qed.

(** tests/chunks/ASPI/aspi_03.chunk *)
Example sample_chunk_aspi_03 : conforms [65; 83; 80; 73] [
    2; 3; 0; 0; 0; 0; 0; 0; 0; 0; 2; 0; 168; 93; 0; 0; 253; 255; 255; 255; 20; 0; 69; 70; 70;
    95; 65; 85; 68; 73; 79; 95; 65; 83; 95; 80; 76; 85; 71; 95; 73; 78; 44; 254; 1; 0; 0; 0;
    0; 0; 43; 254; 1; 0; 1; 1; 72; 0; 0; 0; 0; 2; 8; 0; 27; 0; 0; 0; 0; 0; 0; 0; 1; 0; 0; 0;
    5; 0; 1; 0; 42; 254; 1; 0; 1; 1; 69; 0; 0; 2; 6; 15; 0; 0; 0; 15; 0; 0; 0; 2; 0; 0; 0; 0;
    0; 0; 0; 0; 0; 1; 0; 1; 0; 0; 0; 0; 0; 0; 0; 0; 0; 1; 2; 72; 0; 0; 0; 0; 2; 1; 1; 0; 0; 0;
    6; 0; 68; 45; 86; 101; 114; 98; 105; 103; 105; 68; 98; 114; 118; 82; 98; 114; 118; 68; 1;
    0; 0; 0; 40; 0; 0; 0; 1; 0; 0; 0; 105; 103; 105; 68; 98; 114; 118; 82; 104; 118; 111; 109;
    32; 108; 108; 65; 0; 0; 128; 0; 0; 0; 127; 255; 255; 255; 127; 255; 255; 255; 154; 106;
    31; 167; 96; 0; 0; 0; 236; 204; 204; 205; 195; 58; 146; 169; 127; 255; 255; 255; 228; 122;
    225; 71; 0; 0; 0; 0; 1; 1; 71; 0; 0; 0; 0; 71; 0; 0; 0; 0; 1; 8; 65; 12; 0; 0; 0; 6; 10;
    43; 52; 1; 1; 1; 1; 1; 1; 15; 0; 68; 19; 68; 0; 68; 0; 68; 0; 72; 0; 0; 0; 0; 70; 0; 0;
    70; 0; 0; 65; 8; 0; 0; 0; 6; 14; 43; 52; 127; 127; 42; 128; 1; 2; 77; 255; 255; 255; 255;
    255; 255; 255; 255; 1; 3; 77; 255; 255; 255; 255; 255; 255; 255; 255; 1; 4; 72; 0; 0; 0;
    0; 1; 5; 71; 1; 0; 0; 0; 1; 6; 71; 0; 0; 0; 0; 1; 9; 72; 0; 0; 0; 0; 3] = true.
Proof. vm_compute; reflexivity. Qed.

(** tests/chunks/BINF/binf_01.chunk *)
Example sample_chunk_binf_01 : conforms [66; 73; 78; 70] [
    2; 14; 46; 0; 0; 0; 234; 143; 78; 94; 117; 162; 14; 0; 5; 0; 45; 0; 0; 0; 208; 138; 208;
    138; 0; 0; 0; 0; 1; 44; 0; 0; 0; 208; 138; 208; 138; 0; 0; 0; 0; 0; 43; 0; 0; 0; 208; 138;
    208; 138; 0; 0; 0; 0; 0; 42; 0; 0; 0; 208; 138; 208; 138; 0; 0; 0; 0; 0; 41; 0; 0; 0; 208;
    138; 208; 138; 0; 0; 0; 0; 0; 183; 130; 1; 0; 0; 0; 0; 1; 0; 0; 0; 3; 0; 65; 110; 121; 1;
    0; 0; 0; 3; 0; 65; 110; 121; 1; 0; 0; 0; 3; 0; 65; 110; 121; 1; 0; 0; 0; 3; 0; 65; 110;
    121; 1; 0; 0; 0; 3; 0; 65; 110; 121; 1; 0; 0; 0; 3; 0; 65; 110; 121; 0; 0; 12; 1; 11; 0;
    5; 0; 1; 0; 28; 1; 29; 1; 199; 1; 107; 2; 1; 0; 0; 101; 0; 197; 0; 83; 1; 0; 0; 0; 0; 0;
    0; 0; 6; 0; 40; 0; 0; 0; 0; 2; 1; 39; 0; 0; 0; 3] = true.
Proof. vm_compute; reflexivity. Qed.

(** tests/chunks/BINF/binf_02.chunk *)
Example sample_chunk_binf_02 : conforms [66; 73; 78; 70] [
    2; 14; 4; 0; 0; 0; 157; 167; 78; 94; 217; 62; 24; 0; 0; 0; 183; 130; 1; 0; 0; 0; 0; 1; 0;
    0; 0; 3; 0; 65; 110; 121; 1; 0; 0; 0; 3; 0; 65; 110; 121; 1; 0; 0; 0; 3; 0; 65; 110; 121;
    1; 0; 0; 0; 3; 0; 65; 110; 121; 1; 0; 0; 0; 3; 0; 65; 110; 121; 1; 0; 0; 0; 3; 0; 65; 110;
    121; 0; 0; 12; 1; 11; 0; 5; 0; 1; 0; 54; 0; 226; 0; 66; 2; 208; 2; 1; 0; 0; 77; 0; 77; 0;
    77; 1; 0; 0; 179; 0; 179; 0; 179; 6; 0; 3; 0; 0; 0; 0; 2; 1; 2; 0; 0; 0; 3] = true.
Proof. vm_compute; reflexivity. Qed.

(** tests/chunks/BINF/binf_03.chunk *)
Example sample_chunk_binf_03 : conforms [66; 73; 78; 70] [
    2; 14; 99; 0; 0; 0; 234; 143; 78; 94; 39; 162; 14; 0; 6; 0; 98; 0; 0; 0; 208; 138; 208;
    138; 0; 0; 0; 0; 1; 97; 0; 0; 0; 208; 138; 208; 138; 0; 0; 0; 0; 0; 96; 0; 0; 0; 208; 138;
    208; 138; 0; 0; 0; 0; 0; 95; 0; 0; 0; 208; 138; 208; 138; 0; 0; 0; 0; 0; 94; 0; 0; 0; 208;
    138; 208; 138; 0; 0; 0; 0; 0; 93; 0; 0; 0; 208; 138; 208; 138; 0; 0; 0; 0; 0; 183; 130; 1;
    0; 0; 0; 0; 1; 0; 0; 0; 3; 0; 65; 110; 121; 1; 0; 0; 0; 3; 0; 65; 110; 121; 1; 0; 0; 0; 3;
    0; 65; 110; 121; 1; 0; 0; 0; 3; 0; 65; 110; 121; 1; 0; 0; 0; 3; 0; 65; 110; 121; 1; 0; 0;
    0; 3; 0; 65; 110; 121; 0; 0; 12; 1; 11; 0; 5; 0; 1; 0; 30; 1; 109; 2; 218; 1; 90; 3; 1; 0;
    0; 90; 0; 152; 0; 227; 1; 0; 0; 0; 0; 0; 0; 0; 6; 0; 92; 0; 0; 0; 0; 2; 1; 91; 0; 0; 0; 3] = true.
Proof. vm_compute; reflexivity. Qed.

(** tests/chunks/CCFX/ccfx_01.chunk *)
Example sample_chunk_ccfx_01 : conforms [67; 67; 70; 88] [
    2; 1; 75; 0; 12; 0; 5; 0; 107; 237; 225; 69; 6; 0; 246; 255; 7; 0; 4; 0; 54; 1; 3; 0; 56;
    1; 47; 161; 189; 132; 246; 146; 127; 64; 57; 1; 0; 0; 0; 0; 0; 240; 135; 64; 72; 1; 237;
    37; 180; 151; 208; 172; 128; 64; 73; 1; 0; 0; 0; 0; 0; 240; 135; 64; 87; 1; 144; 88; 1;
    128; 89; 1; 128; 92; 1; 48; 98; 1; 16; 3] = true.
Proof. vm_compute; reflexivity. Qed.

(** tests/chunks/CDCI/cdci_01.chunk *)
Example sample_chunk_cdci_01 : conforms [67; 68; 67; 73] [
    2; 3; 1; 172; 131; 9; 0; 0; 171; 131; 9; 0; 2; 3; 168; 93; 0; 0; 253; 255; 132; 0; 0; 0;
    0; 0; 0; 0; 6; 0; 2; 2; 56; 4; 0; 0; 128; 7; 0; 0; 56; 4; 0; 0; 128; 7; 0; 0; 0; 0; 0; 0;
    0; 0; 0; 0; 56; 4; 0; 0; 128; 7; 0; 0; 0; 0; 0; 0; 0; 0; 0; 0; 0; 0; 16; 0; 0; 0; 9; 0; 0;
    0; 8; 0; 0; 0; 42; 0; 0; 0; 0; 0; 0; 0; 0; 0; 0; 0; 0; 0; 128; 123; 1; 0; 0; 0; 0; 68; 72;
    86; 65; 229; 4; 0; 0; 0; 32; 0; 0; 1; 1; 69; 73; 73; 1; 2; 71; 0; 224; 2; 0; 1; 3; 71; 0;
    0; 0; 0; 1; 4; 71; 0; 0; 0; 0; 71; 0; 0; 0; 0; 1; 5; 71; 255; 255; 255; 255; 1; 8; 71;
    224; 252; 255; 255; 71; 1; 0; 0; 0; 71; 62; 254; 255; 255; 71; 1; 0; 0; 0; 71; 64; 6; 0;
    0; 71; 1; 0; 0; 0; 71; 132; 3; 0; 0; 71; 1; 0; 0; 0; 71; 224; 252; 255; 255; 71; 1; 0; 0;
    0; 71; 62; 254; 255; 255; 71; 1; 0; 0; 0; 71; 64; 6; 0; 0; 71; 1; 0; 0; 0; 71; 132; 3; 0;
    0; 71; 1; 0; 0; 0; 71; 224; 252; 255; 255; 71; 1; 0; 0; 0; 71; 62; 254; 255; 255; 71; 1;
    0; 0; 0; 71; 64; 6; 0; 0; 71; 1; 0; 0; 0; 71; 132; 3; 0; 0; 71; 1; 0; 0; 0; 1; 10; 80; 1;
    1; 1; 4; 2; 1; 0; 0; 6; 14; 43; 52; 4; 1; 1; 1; 1; 11; 80; 1; 1; 1; 4; 3; 3; 0; 0; 6; 14;
    43; 52; 4; 1; 1; 6; 80; 1; 1; 1; 4; 2; 2; 0; 0; 6; 14; 43; 52; 4; 1; 1; 1; 1; 15; 66; 0;
    2; 2; 2; 0; 0; 0; 1; 0; 0; 0; 8; 0; 0; 0; 4; 0; 16; 0; 0; 0; 235; 0; 0; 0; 225; 0; 0; 0;
    231; 0; 124; 1; 0; 0; 0; 0; 1; 1; 72; 0; 0; 0; 0; 1; 2; 72; 0; 0; 0; 0; 3] = true.
Proof. vm_compute; reflexivity. Qed.

(** tests/chunks/CDCI/cdci_02.chunk *)
Example sample_chunk_cdci_02 : conforms [67; 68; 67; 73] [
    2; 3; 1; 33; 131; 9; 0; 0; 32; 131; 9; 0; 2; 3; 168; 93; 0; 0; 253; 255; 235; 15; 0; 0; 0;
    0; 0; 0; 6; 0; 2; 2; 56; 4; 0; 0; 128; 7; 0; 0; 56; 4; 0; 0; 128; 7; 0; 0; 0; 0; 0; 0; 0;
    0; 0; 0; 56; 4; 0; 0; 128; 7; 0; 0; 0; 0; 0; 0; 0; 0; 0; 0; 0; 0; 16; 0; 0; 0; 9; 0; 0; 0;
    8; 0; 0; 0; 42; 0; 0; 0; 0; 0; 0; 0; 0; 0; 0; 0; 0; 0; 160; 195; 45; 0; 0; 0; 0; 68; 72;
    86; 65; 229; 4; 0; 0; 0; 32; 0; 0; 1; 1; 69; 73; 73; 1; 2; 71; 0; 224; 2; 0; 1; 3; 71; 0;
    0; 0; 0; 1; 4; 71; 0; 0; 0; 0; 71; 0; 0; 0; 0; 1; 5; 71; 255; 255; 255; 255; 1; 11; 80; 0;
    0; 0; 0; 0; 0; 0; 0; 0; 0; 0; 0; 0; 0; 0; 0; 80; 1; 1; 1; 4; 2; 2; 0; 0; 6; 14; 43; 52; 4;
    1; 1; 1; 1; 15; 66; 0; 2; 2; 2; 0; 0; 0; 1; 0; 0; 0; 8; 0; 0; 0; 4; 0; 16; 0; 0; 0; 235;
    0; 0; 0; 225; 0; 0; 0; 231; 0; 196; 45; 0; 0; 0; 0; 1; 1; 72; 0; 0; 0; 0; 1; 2; 72; 0; 0;
    0; 0; 3] = true.
Proof. vm_compute; reflexivity. Qed.

(** tests/chunks/CDCI/cdci_03.chunk *)
Example sample_chunk_cdci_03 : conforms [67; 68; 67; 73] [
    2; 3; 1; 26; 148; 8; 0; 0; 25; 148; 8; 0; 2; 3; 168; 93; 0; 0; 253; 255; 1; 0; 0; 0; 0; 0;
    0; 0; 6; 0; 2; 2; 56; 4; 0; 0; 128; 7; 0; 0; 56; 4; 0; 0; 128; 7; 0; 0; 0; 0; 0; 0; 0; 0;
    0; 0; 56; 4; 0; 0; 128; 7; 0; 0; 0; 0; 0; 0; 0; 0; 0; 0; 0; 0; 16; 0; 0; 0; 9; 0; 0; 0; 8;
    0; 0; 0; 42; 0; 0; 0; 0; 0; 0; 0; 0; 0; 0; 0; 1; 0; 224; 2; 0; 0; 0; 0; 0; 68; 72; 86; 65;
    229; 4; 0; 0; 0; 32; 0; 0; 1; 1; 69; 73; 73; 1; 2; 71; 0; 224; 2; 0; 1; 3; 71; 0; 0; 0; 0;
    1; 4; 71; 0; 0; 0; 0; 71; 0; 0; 0; 0; 1; 5; 71; 255; 255; 255; 255; 1; 8; 71; 224; 252;
    255; 255; 71; 1; 0; 0; 0; 71; 62; 254; 255; 255; 71; 1; 0; 0; 0; 71; 64; 6; 0; 0; 71; 1;
    0; 0; 0; 71; 132; 3; 0; 0; 71; 1; 0; 0; 0; 71; 224; 252; 255; 255; 71; 1; 0; 0; 0; 71; 62;
    254; 255; 255; 71; 1; 0; 0; 0; 71; 64; 6; 0; 0; 71; 1; 0; 0; 0; 71; 132; 3; 0; 0; 71; 1;
    0; 0; 0; 71; 224; 252; 255; 255; 71; 1; 0; 0; 0; 71; 62; 254; 255; 255; 71; 1; 0; 0; 0;
    71; 64; 6; 0; 0; 71; 1; 0; 0; 0; 71; 132; 3; 0; 0; 71; 1; 0; 0; 0; 1; 9; 71; 224; 252;
    255; 255; 71; 1; 0; 0; 0; 71; 62; 254; 255; 255; 71; 1; 0; 0; 0; 71; 64; 6; 0; 0; 71; 1;
    0; 0; 0; 71; 132; 3; 0; 0; 71; 1; 0; 0; 0; 71; 255; 255; 255; 255; 1; 10; 80; 1; 1; 1; 4;
    2; 1; 0; 0; 6; 14; 43; 52; 4; 1; 1; 1; 1; 11; 80; 1; 1; 1; 4; 3; 3; 0; 0; 6; 14; 43; 52;
    4; 1; 1; 6; 80; 1; 1; 1; 4; 2; 2; 0; 0; 6; 14; 43; 52; 4; 1; 1; 1; 1; 15; 66; 0; 2; 2; 2;
    0; 0; 0; 1; 0; 0; 0; 8; 0; 0; 0; 4; 0; 16; 0; 0; 0; 235; 0; 0; 0; 225; 0; 0; 0; 231; 0; 4;
    0; 0; 0; 0; 0; 1; 1; 72; 0; 0; 0; 0; 1; 2; 72; 0; 0; 0; 0; 3] = true.
Proof. vm_compute; reflexivity. Qed.

(** tests/chunks/CDCI/cdci_04.chunk *)
Example sample_chunk_cdci_04 : conforms [67; 68; 67; 73] [
    2; 3; 1; 100; 41; 0; 0; 0; 0; 0; 0; 0; 2; 3; 168; 93; 0; 0; 253; 255; 210; 71; 0; 0; 0; 0;
    224; 255; 5; 0; 2; 2; 56; 4; 0; 0; 128; 7; 0; 0; 56; 4; 0; 0; 128; 7; 0; 0; 0; 0; 0; 0; 0;
    0; 0; 0; 56; 4; 0; 0; 128; 7; 0; 0; 0; 0; 0; 0; 0; 0; 0; 0; 0; 0; 16; 0; 0; 0; 9; 0; 0; 0;
    8; 0; 0; 0; 42; 0; 0; 0; 0; 0; 0; 0; 0; 0; 0; 0; 0; 0; 192; 123; 206; 0; 0; 0; 0; 68; 72;
    86; 65; 229; 4; 0; 0; 0; 32; 0; 0; 1; 1; 69; 73; 73; 1; 2; 71; 0; 224; 2; 0; 1; 3; 71; 0;
    0; 0; 0; 1; 4; 71; 0; 0; 0; 0; 71; 0; 0; 0; 0; 1; 5; 71; 255; 255; 255; 255; 1; 10; 80; 1;
    1; 1; 4; 2; 1; 0; 0; 6; 14; 43; 52; 4; 1; 1; 1; 1; 11; 80; 1; 1; 1; 4; 3; 3; 0; 0; 6; 14;
    43; 52; 4; 1; 1; 6; 80; 1; 1; 1; 4; 2; 2; 0; 0; 6; 14; 43; 52; 4; 1; 1; 1; 1; 15; 66; 1;
    2; 2; 2; 0; 0; 0; 1; 0; 0; 0; 8; 0; 0; 0; 0; 0; 16; 0; 0; 0; 235; 0; 0; 0; 225; 0; 0; 0;
    231; 0; 124; 206; 0; 0; 0; 0; 1; 1; 72; 0; 0; 0; 0; 1; 2; 72; 0; 0; 0; 0; 3] = true.
Proof. vm_compute; reflexivity. Qed.

(** tests/chunks/CDCI/cdci_05.chunk *)
Example sample_chunk_cdci_05 : conforms [67; 68; 67; 73] [
    2; 3; 1; 26; 148; 8; 0; 0; 25; 148; 8; 0; 2; 3; 168; 93; 0; 0; 253; 255; 1; 0; 0; 0; 0; 0;
    0; 0; 6; 0; 2; 2; 56; 4; 0; 0; 128; 7; 0; 0; 56; 4; 0; 0; 128; 7; 0; 0; 0; 0; 0; 0; 0; 0;
    0; 0; 56; 4; 0; 0; 128; 7; 0; 0; 0; 0; 0; 0; 0; 0; 0; 0; 0; 0; 16; 0; 0; 0; 9; 0; 0; 0; 8;
    0; 0; 0; 42; 0; 0; 0; 0; 0; 0; 0; 0; 0; 0; 0; 1; 0; 224; 2; 0; 0; 0; 0; 0; 68; 72; 86; 65;
    229; 4; 0; 0; 0; 32; 0; 0; 1; 1; 69; 73; 73; 1; 2; 71; 0; 224; 2; 0; 1; 3; 71; 0; 0; 0; 0;
    1; 4; 71; 0; 0; 0; 0; 71; 0; 0; 0; 0; 1; 5; 71; 255; 255; 255; 255; 1; 8; 71; 224; 252;
    255; 255; 71; 1; 0; 0; 0; 71; 62; 254; 255; 255; 71; 1; 0; 0; 0; 71; 64; 6; 0; 0; 71; 1;
    0; 0; 0; 71; 132; 3; 0; 0; 71; 1; 0; 0; 0; 71; 224; 252; 255; 255; 71; 1; 0; 0; 0; 71; 62;
    254; 255; 255; 71; 1; 0; 0; 0; 71; 64; 6; 0; 0; 71; 1; 0; 0; 0; 71; 132; 3; 0; 0; 71; 1;
    0; 0; 0; 71; 224; 252; 255; 255; 71; 1; 0; 0; 0; 71; 62; 254; 255; 255; 71; 1; 0; 0; 0;
    71; 64; 6; 0; 0; 71; 1; 0; 0; 0; 71; 132; 3; 0; 0; 71; 1; 0; 0; 0; 1; 9; 71; 224; 252;
    255; 255; 71; 1; 0; 0; 0; 71; 62; 254; 255; 255; 71; 1; 0; 0; 0; 71; 64; 6; 0; 0; 71; 1;
    0; 0; 0; 71; 132; 3; 0; 0; 71; 1; 0; 0; 0; 71; 255; 255; 255; 255; 1; 10; 80; 1; 1; 1; 4;
    2; 1; 0; 0; 6; 14; 43; 52; 4; 1; 1; 1; 1; 11; 80; 1; 1; 1; 4; 3; 3; 0; 0; 6; 14; 43; 52;
    4; 1; 1; 6; 80; 1; 1; 1; 4; 2; 2; 0; 0; 6; 14; 43; 52; 4; 1; 1; 1; 1; 15; 66; 0; 2; 2; 2;
    0; 0; 0; 1; 0; 0; 0; 8; 0; 0; 0; 4; 0; 16; 0; 0; 0; 235; 0; 0; 0; 225; 0; 0; 0; 231; 0; 4;
    0; 0; 0; 0; 0; 1; 1; 72; 0; 0; 0; 0; 1; 2; 72; 0; 0; 0; 0; 3] = true.
Proof. vm_compute; reflexivity. Qed.

(** tests/chunks/CDCI/cdci_06.chunk *)
Example sample_chunk_cdci_06 : conforms [67; 68; 67; 73] [
    2; 3; 1; 73; 78; 22; 0; 0; 0; 0; 0; 0; 2; 3; 168; 93; 0; 0; 253; 255; 56; 73; 0; 0; 0; 0;
    0; 0; 6; 0; 2; 2; 56; 4; 0; 0; 128; 7; 0; 0; 56; 4; 0; 0; 128; 7; 0; 0; 0; 0; 0; 0; 0; 0;
    0; 0; 56; 4; 0; 0; 128; 7; 0; 0; 0; 0; 0; 0; 0; 0; 0; 0; 0; 0; 16; 0; 0; 0; 9; 0; 0; 0; 8;
    0; 0; 0; 21; 0; 0; 0; 72; 2; 0; 0; 0; 0; 0; 0; 0; 0; 0; 32; 2; 0; 0; 0; 0; 48; 48; 73; 82;
    0; 0; 0; 0; 0; 32; 0; 0; 1; 1; 69; 73; 73; 1; 2; 71; 0; 0; 28; 0; 1; 3; 71; 0; 0; 0; 0; 1;
    4; 71; 0; 0; 0; 0; 71; 0; 0; 0; 0; 1; 5; 71; 255; 255; 255; 255; 1; 12; 80; 2; 2; 1; 4;
    36; 113; 0; 0; 6; 14; 43; 52; 4; 1; 1; 13; 2; 2; 1; 0; 0; 0; 1; 0; 0; 0; 10; 0; 0; 0; 0;
    0; 64; 0; 0; 0; 172; 3; 0; 0; 129; 3; 0; 0; 231; 0; 32; 2; 8; 0; 0; 0; 1; 1; 72; 0; 0; 0;
    0; 3] = true.
Proof. vm_compute; reflexivity. Qed.

(** tests/chunks/CDCI/cdci_07.chunk *)
Example sample_chunk_cdci_07 : conforms [67; 68; 67; 73] [
    2; 3; 1; 188; 42; 0; 0; 1; 0; 0; 0; 0; 2; 3; 168; 93; 0; 0; 253; 255; 224; 1; 0; 0; 0; 0;
    0; 0; 32; 0; 2; 2; 56; 4; 0; 0; 128; 7; 0; 0; 56; 4; 0; 0; 128; 7; 0; 0; 0; 0; 0; 0; 0; 0;
    0; 0; 56; 4; 0; 0; 128; 7; 0; 0; 0; 0; 0; 0; 0; 0; 0; 0; 0; 0; 16; 0; 0; 0; 9; 0; 0; 0; 8;
    0; 0; 0; 42; 0; 0; 0; 0; 0; 0; 0; 0; 0; 0; 0; 0; 0; 0; 92; 148; 0; 0; 0; 0; 49; 70; 88;
    77; 211; 7; 0; 0; 0; 32; 0; 0; 1; 1; 69; 73; 73; 1; 2; 71; 0; 32; 79; 0; 1; 3; 71; 0; 0;
    0; 0; 1; 4; 71; 0; 0; 0; 0; 71; 0; 0; 0; 0; 1; 5; 71; 255; 255; 255; 255; 1; 6; 71; 0; 6;
    0; 0; 2; 2; 2; 0; 0; 0; 1; 0; 0; 0; 10; 0; 0; 0; 0; 0; 64; 0; 0; 0; 172; 3; 0; 0; 129; 3;
    0; 0; 231; 0; 96; 148; 0; 0; 0; 0; 3] = true.
Proof. vm_compute; reflexivity. Qed.

(** tests/chunks/CMPO/cmpo_01.chunk *)
Example sample_chunk_cmpo_01 : conforms [67; 77; 80; 79] [
    2; 3; 0; 0; 0; 0; 0; 0; 0; 0; 0; 0; 168; 93; 0; 0; 253; 255; 12; 0; 65; 49; 48; 45; 51;
    66; 95; 52; 56; 102; 112; 115; 255; 255; 85; 77; 0; 0; 0; 0; 0; 0; 0; 0; 0; 0; 1; 1; 72;
    0; 0; 0; 0; 2; 8; 0; 36; 4; 0; 0; 0; 0; 0; 0; 2; 0; 0; 0; 5; 2; 1; 0; 84; 77; 0; 0; 83;
    77; 0; 0; 29; 2; 1; 0; 82; 77; 0; 0; 81; 77; 0; 0; 80; 77; 0; 0; 79; 77; 0; 0; 1; 1; 69;
    0; 0; 69; 0; 0; 2; 2; 4; 203; 150; 91; 182; 166; 21; 1; 118; 138; 165; 91; 2; 7; 0; 0; 0;
    0; 0; 0; 0; 1; 1; 71; 4; 203; 150; 91; 1; 2; 65; 12; 0; 0; 0; 6; 10; 43; 52; 1; 1; 1; 1;
    1; 1; 15; 0; 68; 19; 68; 0; 68; 0; 68; 0; 72; 4; 203; 150; 91; 70; 182; 166; 70; 21; 1;
    65; 8; 0; 0; 0; 6; 14; 43; 52; 127; 127; 42; 128; 3] = true.
Proof. vm_compute; reflexivity. Qed.

(** tests/chunks/CMPO/cmpo_02.chunk *)
Example sample_chunk_cmpo_02 : conforms [67; 77; 80; 79] [
    2; 3; 0; 0; 0; 0; 0; 0; 0; 0; 0; 0; 168; 93; 0; 0; 253; 255; 20; 0; 82; 86; 49; 50; 95;
    82; 101; 101; 108; 32; 49; 95; 50; 48; 49; 56; 48; 57; 49; 54; 255; 255; 72; 27; 5; 0; 71;
    27; 5; 0; 0; 0; 0; 0; 1; 1; 72; 0; 0; 0; 0; 2; 8; 0; 213; 98; 0; 0; 0; 0; 0; 0; 36; 0; 0;
    0; 5; 2; 1; 0; 70; 27; 5; 0; 69; 27; 5; 0; 5; 2; 3; 0; 68; 27; 5; 0; 67; 27; 5; 0; 5; 2;
    2; 0; 66; 27; 5; 0; 65; 27; 5; 0; 5; 2; 4; 0; 64; 27; 5; 0; 63; 27; 5; 0; 5; 2; 5; 0; 62;
    27; 5; 0; 61; 27; 5; 0; 5; 2; 6; 0; 60; 27; 5; 0; 59; 27; 5; 0; 5; 2; 7; 0; 58; 27; 5; 0;
    57; 27; 5; 0; 5; 2; 1; 0; 56; 27; 5; 0; 55; 27; 5; 0; 5; 2; 8; 0; 54; 27; 5; 0; 53; 27; 5;
    0; 29; 2; 1; 0; 52; 27; 5; 0; 51; 27; 5; 0; 50; 27; 5; 0; 49; 27; 5; 0; 13; 2; 2; 0; 48;
    27; 5; 0; 47; 27; 5; 0; 46; 27; 5; 0; 29; 2; 3; 0; 45; 27; 5; 0; 44; 27; 5; 0; 43; 27; 5;
    0; 42; 27; 5; 0; 29; 2; 4; 0; 41; 27; 5; 0; 40; 27; 5; 0; 39; 27; 5; 0; 38; 27; 5; 0; 29;
    2; 5; 0; 37; 27; 5; 0; 36; 27; 5; 0; 35; 27; 5; 0; 34; 27; 5; 0; 29; 2; 6; 0; 33; 27; 5;
    0; 32; 27; 5; 0; 31; 27; 5; 0; 30; 27; 5; 0; 13; 2; 7; 0; 29; 27; 5; 0; 28; 27; 5; 0; 27;
    27; 5; 0; 13; 2; 8; 0; 26; 27; 5; 0; 25; 27; 5; 0; 24; 27; 5; 0; 13; 2; 9; 0; 23; 27; 5;
    0; 22; 27; 5; 0; 21; 27; 5; 0; 13; 2; 10; 0; 20; 27; 5; 0; 19; 27; 5; 0; 18; 27; 5; 0; 29;
    2; 11; 0; 17; 27; 5; 0; 16; 27; 5; 0; 15; 27; 5; 0; 14; 27; 5; 0; 13; 2; 12; 0; 13; 27; 5;
    0; 12; 27; 5; 0; 11; 27; 5; 0; 15; 2; 13; 0; 10; 27; 5; 0; 9; 27; 5; 0; 8; 27; 5; 0; 7;
    27; 5; 0; 31; 2; 14; 0; 6; 27; 5; 0; 5; 27; 5; 0; 4; 27; 5; 0; 3; 27; 5; 0; 2; 27; 5; 0;
    13; 2; 15; 0; 1; 27; 5; 0; 0; 27; 5; 0; 255; 26; 5; 0; 15; 2; 16; 0; 254; 26; 5; 0; 253;
    26; 5; 0; 252; 26; 5; 0; 251; 26; 5; 0; 13; 2; 17; 0; 250; 26; 5; 0; 249; 26; 5; 0; 248;
    26; 5; 0; 13; 2; 22; 0; 247; 26; 5; 0; 246; 26; 5; 0; 245; 26; 5; 0; 13; 2; 23; 0; 244;
    26; 5; 0; 243; 26; 5; 0; 242; 26; 5; 0; 29; 2; 24; 0; 241; 26; 5; 0; 240; 26; 5; 0; 239;
    26; 5; 0; 238; 26; 5; 0; 5; 2; 1; 0; 237; 26; 5; 0; 236; 26; 5; 0; 5; 2; 2; 0; 235; 26; 5;
    0; 234; 26; 5; 0; 7; 2; 17; 0; 233; 26; 5; 0; 232; 26; 5; 0; 231; 26; 5; 0; 7; 2; 18; 0;
    230; 26; 5; 0; 229; 26; 5; 0; 228; 26; 5; 0; 7; 2; 22; 0; 227; 26; 5; 0; 226; 26; 5; 0;
    225; 26; 5; 0; 7; 2; 23; 0; 224; 26; 5; 0; 223; 26; 5; 0; 222; 26; 5; 0; 13; 0; 1; 0; 221;
    26; 5; 0; 220; 26; 5; 0; 1; 1; 69; 0; 0; 69; 0; 0; 69; 0; 0; 69; 0; 0; 69; 0; 0; 69; 0; 0;
    69; 0; 0; 69; 0; 0; 69; 0; 0; 69; 1; 0; 69; 1; 0; 69; 1; 0; 69; 1; 0; 69; 1; 0; 69; 1; 0;
    69; 1; 0; 69; 1; 0; 69; 1; 0; 69; 1; 0; 69; 1; 0; 69; 1; 0; 69; 1; 0; 69; 1; 0; 69; 1; 0;
    69; 1; 0; 69; 1; 0; 69; 1; 0; 69; 1; 0; 69; 1; 0; 69; 1; 0; 69; 1; 0; 69; 1; 0; 69; 1; 0;
    69; 1; 0; 69; 1; 0; 69; 0; 0; 2; 2; 188; 247; 145; 91; 87; 76; 0; 0; 247; 216; 191; 91; 1;
    0; 0; 0; 0; 0; 0; 0; 0; 1; 1; 71; 189; 247; 145; 91; 1; 2; 65; 12; 0; 0; 0; 6; 10; 43; 52;
    1; 1; 1; 1; 1; 1; 15; 0; 68; 19; 68; 0; 68; 0; 68; 0; 72; 188; 247; 145; 91; 70; 87; 76;
    70; 0; 0; 65; 8; 0; 0; 0; 6; 14; 43; 52; 127; 127; 42; 128; 3] = true.
Proof. vm_compute; reflexivity. Qed.

(** tests/chunks/CMPO/cmpo_03.chunk *)
Example sample_chunk_cmpo_03 : conforms [67; 77; 80; 79] [
    2; 3; 0; 0; 0; 0; 0; 0; 0; 0; 0; 0; 168; 93; 0; 0; 253; 255; 18; 0; 69; 69; 32; 69; 69;
    69; 32; 82; 101; 101; 108; 32; 49; 32; 69; 69; 45; 52; 255; 255; 105; 54; 3; 0; 104; 54;
    3; 0; 0; 0; 0; 0; 1; 1; 72; 0; 0; 0; 0; 2; 8; 0; 184; 49; 0; 0; 0; 0; 0; 0; 50; 0; 0; 0;
    5; 2; 1; 0; 103; 54; 3; 0; 102; 54; 3; 0; 5; 2; 3; 0; 101; 54; 3; 0; 100; 54; 3; 0; 5; 2;
    2; 0; 99; 54; 3; 0; 98; 54; 3; 0; 5; 2; 4; 0; 97; 54; 3; 0; 96; 54; 3; 0; 5; 2; 5; 0; 95;
    54; 3; 0; 94; 54; 3; 0; 5; 2; 6; 0; 93; 54; 3; 0; 92; 54; 3; 0; 5; 2; 7; 0; 91; 54; 3; 0;
    90; 54; 3; 0; 5; 2; 1; 0; 89; 54; 3; 0; 88; 54; 3; 0; 5; 2; 8; 0; 87; 54; 3; 0; 86; 54; 3;
    0; 13; 2; 1; 0; 85; 54; 3; 0; 84; 54; 3; 0; 83; 54; 3; 0; 13; 2; 2; 0; 82; 54; 3; 0; 81;
    54; 3; 0; 80; 54; 3; 0; 13; 2; 3; 0; 79; 54; 3; 0; 78; 54; 3; 0; 77; 54; 3; 0; 13; 2; 4;
    0; 76; 54; 3; 0; 75; 54; 3; 0; 74; 54; 3; 0; 13; 2; 5; 0; 73; 54; 3; 0; 72; 54; 3; 0; 71;
    54; 3; 0; 13; 2; 6; 0; 70; 54; 3; 0; 69; 54; 3; 0; 68; 54; 3; 0; 13; 2; 7; 0; 67; 54; 3;
    0; 66; 54; 3; 0; 65; 54; 3; 0; 13; 2; 8; 0; 64; 54; 3; 0; 63; 54; 3; 0; 62; 54; 3; 0; 13;
    2; 9; 0; 61; 54; 3; 0; 60; 54; 3; 0; 59; 54; 3; 0; 13; 2; 10; 0; 58; 54; 3; 0; 57; 54; 3;
    0; 56; 54; 3; 0; 13; 2; 11; 0; 55; 54; 3; 0; 54; 54; 3; 0; 53; 54; 3; 0; 13; 2; 12; 0; 52;
    54; 3; 0; 51; 54; 3; 0; 50; 54; 3; 0; 13; 2; 13; 0; 49; 54; 3; 0; 48; 54; 3; 0; 47; 54; 3;
    0; 13; 2; 14; 0; 46; 54; 3; 0; 45; 54; 3; 0; 44; 54; 3; 0; 13; 2; 15; 0; 43; 54; 3; 0; 42;
    54; 3; 0; 41; 54; 3; 0; 13; 2; 16; 0; 40; 54; 3; 0; 39; 54; 3; 0; 38; 54; 3; 0; 13; 2; 17;
    0; 37; 54; 3; 0; 36; 54; 3; 0; 35; 54; 3; 0; 13; 2; 18; 0; 34; 54; 3; 0; 33; 54; 3; 0; 32;
    54; 3; 0; 13; 2; 19; 0; 31; 54; 3; 0; 30; 54; 3; 0; 29; 54; 3; 0; 13; 2; 20; 0; 28; 54; 3;
    0; 27; 54; 3; 0; 26; 54; 3; 0; 29; 2; 21; 0; 25; 54; 3; 0; 24; 54; 3; 0; 23; 54; 3; 0; 22;
    54; 3; 0; 13; 2; 22; 0; 21; 54; 3; 0; 20; 54; 3; 0; 19; 54; 3; 0; 13; 2; 23; 0; 18; 54; 3;
    0; 17; 54; 3; 0; 16; 54; 3; 0; 13; 2; 24; 0; 15; 54; 3; 0; 14; 54; 3; 0; 13; 54; 3; 0; 7;
    2; 1; 0; 12; 54; 3; 0; 11; 54; 3; 0; 10; 54; 3; 0; 7; 2; 2; 0; 9; 54; 3; 0; 8; 54; 3; 0;
    7; 54; 3; 0; 7; 2; 3; 0; 6; 54; 3; 0; 5; 54; 3; 0; 4; 54; 3; 0; 7; 2; 4; 0; 3; 54; 3; 0;
    2; 54; 3; 0; 1; 54; 3; 0; 7; 2; 5; 0; 0; 54; 3; 0; 255; 53; 3; 0; 254; 53; 3; 0; 7; 2; 6;
    0; 253; 53; 3; 0; 252; 53; 3; 0; 251; 53; 3; 0; 7; 2; 7; 0; 250; 53; 3; 0; 249; 53; 3; 0;
    248; 53; 3; 0; 7; 2; 8; 0; 247; 53; 3; 0; 246; 53; 3; 0; 245; 53; 3; 0; 7; 2; 9; 0; 244;
    53; 3; 0; 243; 53; 3; 0; 242; 53; 3; 0; 7; 2; 10; 0; 241; 53; 3; 0; 240; 53; 3; 0; 239;
    53; 3; 0; 7; 2; 11; 0; 238; 53; 3; 0; 237; 53; 3; 0; 236; 53; 3; 0; 7; 2; 12; 0; 235; 53;
    3; 0; 234; 53; 3; 0; 233; 53; 3; 0; 7; 2; 13; 0; 232; 53; 3; 0; 231; 53; 3; 0; 230; 53; 3;
    0; 7; 2; 14; 0; 229; 53; 3; 0; 228; 53; 3; 0; 227; 53; 3; 0; 7; 3; 15; 0; 226; 53; 3; 0;
    225; 53; 3; 0; 224; 53; 3; 0; 1; 7; 3; 16; 0; 223; 53; 3; 0; 222; 53; 3; 0; 221; 53; 3; 0;
    1; 13; 0; 1; 0; 220; 53; 3; 0; 219; 53; 3; 0; 1; 1; 69; 0; 0; 69; 0; 0; 69; 0; 0; 69; 0;
    0; 69; 0; 0; 69; 0; 0; 69; 0; 0; 69; 0; 0; 69; 0; 0; 69; 1; 0; 69; 1; 0; 69; 1; 0; 69; 1;
    0; 69; 1; 0; 69; 1; 0; 69; 1; 0; 69; 1; 0; 69; 1; 0; 69; 1; 0; 69; 1; 0; 69; 1; 0; 69; 1;
    0; 69; 1; 0; 69; 1; 0; 69; 1; 0; 69; 1; 0; 69; 1; 0; 69; 1; 0; 69; 1; 0; 69; 1; 0; 69; 1;
    0; 69; 1; 0; 69; 1; 0; 69; 1; 0; 69; 1; 0; 69; 1; 0; 69; 1; 0; 69; 1; 0; 69; 1; 0; 69; 1;
    0; 69; 1; 0; 69; 1; 0; 69; 1; 0; 69; 1; 0; 69; 1; 0; 69; 1; 0; 69; 1; 0; 69; 0; 0; 69; 0;
    0; 69; 0; 0; 2; 2; 246; 95; 75; 92; 55; 10; 69; 0; 119; 192; 112; 92; 1; 0; 0; 0; 0; 0; 0;
    0; 0; 1; 1; 71; 246; 95; 75; 92; 1; 2; 65; 12; 0; 0; 0; 6; 10; 43; 52; 1; 1; 1; 1; 1; 1;
    15; 0; 68; 19; 68; 0; 68; 0; 68; 0; 72; 246; 95; 75; 92; 70; 55; 10; 70; 69; 0; 65; 8; 0;
    0; 0; 6; 14; 43; 52; 127; 127; 42; 128; 3] = true.
Proof. vm_compute; reflexivity. Qed.

(** tests/chunks/CMPO/cmpo_04.chunk *)
Example sample_chunk_cmpo_04 : conforms [67; 77; 80; 79] [
    2; 3; 0; 0; 0; 0; 0; 0; 0; 0; 0; 0; 168; 93; 0; 0; 253; 255; 28; 0; 50; 48; 49; 57; 49;
    49; 50; 51; 65; 95; 82; 45; 70; 108; 97; 116; 46; 69; 120; 112; 111; 114; 116; 101; 100;
    46; 48; 51; 255; 255; 13; 54; 0; 0; 12; 54; 0; 0; 0; 0; 0; 0; 1; 1; 72; 0; 0; 0; 0; 2; 8;
    0; 106; 0; 0; 0; 0; 0; 0; 0; 11; 0; 0; 0; 133; 2; 1; 0; 11; 54; 0; 0; 10; 54; 0; 0; 16; 4;
    0; 0; 133; 2; 3; 0; 9; 54; 0; 0; 8; 54; 0; 0; 16; 4; 0; 0; 133; 2; 2; 0; 7; 54; 0; 0; 6;
    54; 0; 0; 16; 4; 0; 0; 133; 2; 4; 0; 5; 54; 0; 0; 4; 54; 0; 0; 16; 4; 0; 0; 133; 2; 5; 0;
    3; 54; 0; 0; 2; 54; 0; 0; 16; 4; 0; 0; 133; 2; 6; 0; 1; 54; 0; 0; 0; 54; 0; 0; 16; 4; 0;
    0; 133; 2; 7; 0; 255; 53; 0; 0; 254; 53; 0; 0; 16; 4; 0; 0; 133; 2; 1; 0; 253; 53; 0; 0;
    252; 53; 0; 0; 16; 4; 0; 0; 133; 2; 8; 0; 251; 53; 0; 0; 250; 53; 0; 0; 16; 4; 0; 0; 157;
    2; 1; 0; 249; 53; 0; 0; 248; 53; 0; 0; 247; 53; 0; 0; 246; 53; 0; 0; 16; 4; 0; 0; 141; 0;
    1; 0; 245; 53; 0; 0; 244; 53; 0; 0; 16; 4; 0; 0; 1; 1; 69; 0; 0; 69; 0; 0; 69; 0; 0; 69;
    0; 0; 69; 0; 0; 69; 0; 0; 69; 0; 0; 69; 0; 0; 69; 0; 0; 69; 1; 0; 69; 0; 0; 2; 2; 108;
    100; 248; 91; 111; 169; 206; 38; 108; 100; 248; 91; 1; 0; 0; 0; 0; 0; 0; 0; 0; 1; 1; 71;
    108; 100; 248; 91; 1; 2; 65; 12; 0; 0; 0; 6; 10; 43; 52; 1; 1; 1; 1; 1; 1; 15; 0; 68; 19;
    68; 0; 68; 0; 68; 0; 72; 108; 100; 248; 91; 70; 111; 169; 70; 206; 38; 65; 8; 0; 0; 0; 6;
    14; 43; 52; 127; 127; 42; 128; 3] = true.
Proof. vm_compute; reflexivity. Qed.

(** tests/chunks/CMPO/cmpo_05.chunk *)
Example sample_chunk_cmpo_05 : conforms [67; 77; 80; 79] [
    2; 3; 0; 0; 0; 0; 0; 0; 0; 0; 0; 0; 168; 93; 0; 0; 253; 255; 48; 0; 69; 69; 32; 49; 48;
    52; 32; 69; 69; 32; 49; 49; 32; 75; 69; 112; 69; 105; 101; 32; 66; 65; 116; 115; 32; 98;
    97; 75; 75; 101; 80; 32; 78; 101; 119; 32; 57; 57; 32; 86; 79; 32; 74; 97; 110; 32; 53;
    48; 255; 255; 135; 45; 16; 0; 0; 0; 0; 0; 0; 0; 0; 0; 1; 1; 72; 0; 0; 0; 0; 2; 8; 0; 92;
    2; 0; 0; 0; 0; 0; 0; 39; 0; 0; 0; 5; 2; 1; 0; 134; 45; 16; 0; 133; 45; 16; 0; 5; 2; 3; 0;
    132; 45; 16; 0; 131; 45; 16; 0; 5; 2; 2; 0; 130; 45; 16; 0; 129; 45; 16; 0; 5; 2; 4; 0;
    128; 45; 16; 0; 127; 45; 16; 0; 5; 2; 5; 0; 126; 45; 16; 0; 125; 45; 16; 0; 5; 2; 6; 0;
    124; 45; 16; 0; 123; 45; 16; 0; 5; 2; 7; 0; 122; 45; 16; 0; 121; 45; 16; 0; 5; 2; 1; 0;
    120; 45; 16; 0; 119; 45; 16; 0; 5; 2; 8; 0; 118; 45; 16; 0; 117; 45; 16; 0; 13; 0; 1; 0;
    116; 45; 16; 0; 115; 45; 16; 0; 13; 0; 2; 0; 114; 45; 16; 0; 113; 45; 16; 0; 13; 0; 3; 0;
    112; 45; 16; 0; 111; 45; 16; 0; 13; 0; 4; 0; 110; 45; 16; 0; 109; 45; 16; 0; 13; 0; 5; 0;
    108; 45; 16; 0; 107; 45; 16; 0; 13; 0; 6; 0; 106; 45; 16; 0; 105; 45; 16; 0; 13; 0; 7; 0;
    104; 45; 16; 0; 103; 45; 16; 0; 13; 0; 8; 0; 102; 45; 16; 0; 101; 45; 16; 0; 13; 0; 9; 0;
    100; 45; 16; 0; 99; 45; 16; 0; 13; 0; 10; 0; 98; 45; 16; 0; 97; 45; 16; 0; 13; 0; 11; 0;
    96; 45; 16; 0; 95; 45; 16; 0; 13; 2; 12; 0; 94; 45; 16; 0; 93; 45; 16; 0; 92; 45; 16; 0;
    13; 0; 13; 0; 91; 45; 16; 0; 90; 45; 16; 0; 13; 0; 22; 0; 89; 45; 16; 0; 88; 45; 16; 0;
    13; 0; 23; 0; 87; 45; 16; 0; 86; 45; 16; 0; 13; 0; 24; 0; 85; 45; 16; 0; 84; 45; 16; 0; 7;
    2; 1; 0; 83; 45; 16; 0; 82; 45; 16; 0; 81; 45; 16; 0; 7; 2; 2; 0; 80; 45; 16; 0; 79; 45;
    16; 0; 78; 45; 16; 0; 7; 2; 3; 0; 77; 45; 16; 0; 76; 45; 16; 0; 75; 45; 16; 0; 7; 2; 4; 0;
    74; 45; 16; 0; 73; 45; 16; 0; 72; 45; 16; 0; 7; 2; 5; 0; 71; 45; 16; 0; 70; 45; 16; 0; 69;
    45; 16; 0; 7; 2; 6; 0; 68; 45; 16; 0; 67; 45; 16; 0; 66; 45; 16; 0; 7; 2; 7; 0; 65; 45;
    16; 0; 64; 45; 16; 0; 63; 45; 16; 0; 7; 2; 8; 0; 62; 45; 16; 0; 61; 45; 16; 0; 60; 45; 16;
    0; 7; 2; 9; 0; 59; 45; 16; 0; 58; 45; 16; 0; 57; 45; 16; 0; 7; 2; 10; 0; 56; 45; 16; 0;
    55; 45; 16; 0; 54; 45; 16; 0; 7; 0; 11; 0; 53; 45; 16; 0; 52; 45; 16; 0; 7; 0; 12; 0; 51;
    45; 16; 0; 50; 45; 16; 0; 7; 2; 13; 0; 49; 45; 16; 0; 48; 45; 16; 0; 47; 45; 16; 0; 7; 2;
    14; 0; 46; 45; 16; 0; 45; 45; 16; 0; 44; 45; 16; 0; 1; 1; 69; 0; 0; 69; 0; 0; 69; 0; 0;
    69; 0; 0; 69; 0; 0; 69; 0; 0; 69; 0; 0; 69; 0; 0; 69; 0; 0; 69; 0; 0; 69; 0; 0; 69; 0; 0;
    69; 0; 0; 69; 0; 0; 69; 0; 0; 69; 0; 0; 69; 0; 0; 69; 0; 0; 69; 0; 0; 69; 0; 0; 69; 0; 0;
    69; 0; 0; 69; 0; 0; 69; 0; 0; 69; 0; 0; 69; 0; 0; 69; 0; 0; 69; 0; 0; 69; 0; 0; 69; 0; 0;
    69; 0; 0; 69; 0; 0; 69; 0; 0; 69; 0; 0; 69; 0; 0; 69; 0; 0; 69; 0; 0; 69; 0; 0; 69; 0; 0;
    2; 2; 60; 98; 67; 92; 207; 188; 198; 61; 69; 91; 70; 92; 1; 0; 0; 0; 0; 0; 0; 0; 0; 1; 1;
    71; 60; 98; 67; 92; 1; 2; 65; 12; 0; 0; 0; 6; 10; 43; 52; 1; 1; 1; 1; 1; 1; 15; 0; 68; 19;
    68; 0; 68; 0; 68; 0; 72; 60; 98; 67; 92; 70; 207; 188; 70; 198; 61; 65; 8; 0; 0; 0; 6; 14;
    43; 52; 127; 127; 42; 128; 3] = true.
Proof. vm_compute; reflexivity. Qed.

(** tests/chunks/CMPO/cmpo_06.chunk *)
Example sample_chunk_cmpo_06 : conforms [67; 77; 80; 79] [
    2; 3; 0; 0; 0; 0; 0; 0; 0; 0; 0; 0; 168; 93; 0; 0; 253; 255; 35; 0; 69; 69; 32; 69; 48;
    69; 32; 66; 69; 69; 69; 107; 32; 66; 66; 100; 32; 66; 66; 66; 122; 32; 71; 104; 97; 110;
    82; 82; 115; 32; 71; 71; 98; 32; 71; 255; 255; 72; 216; 8; 0; 0; 0; 0; 0; 0; 0; 0; 0; 1;
    1; 72; 0; 0; 0; 0; 2; 8; 0; 20; 4; 0; 0; 0; 0; 0; 0; 50; 0; 0; 0; 5; 2; 1; 0; 71; 216; 8;
    0; 70; 216; 8; 0; 5; 2; 3; 0; 69; 216; 8; 0; 68; 216; 8; 0; 5; 2; 2; 0; 67; 216; 8; 0; 66;
    216; 8; 0; 5; 2; 4; 0; 65; 216; 8; 0; 64; 216; 8; 0; 5; 2; 5; 0; 63; 216; 8; 0; 62; 216;
    8; 0; 5; 2; 6; 0; 61; 216; 8; 0; 60; 216; 8; 0; 5; 2; 7; 0; 59; 216; 8; 0; 58; 216; 8; 0;
    5; 2; 1; 0; 57; 216; 8; 0; 56; 216; 8; 0; 5; 2; 8; 0; 55; 216; 8; 0; 54; 216; 8; 0; 13; 0;
    1; 0; 53; 216; 8; 0; 52; 216; 8; 0; 13; 0; 2; 0; 51; 216; 8; 0; 50; 216; 8; 0; 13; 0; 3;
    0; 49; 216; 8; 0; 48; 216; 8; 0; 13; 0; 4; 0; 47; 216; 8; 0; 46; 216; 8; 0; 13; 0; 5; 0;
    45; 216; 8; 0; 44; 216; 8; 0; 13; 0; 6; 0; 43; 216; 8; 0; 42; 216; 8; 0; 13; 0; 7; 0; 41;
    216; 8; 0; 40; 216; 8; 0; 13; 0; 8; 0; 39; 216; 8; 0; 38; 216; 8; 0; 13; 2; 9; 0; 37; 216;
    8; 0; 36; 216; 8; 0; 35; 216; 8; 0; 13; 0; 10; 0; 34; 216; 8; 0; 33; 216; 8; 0; 13; 0; 11;
    0; 32; 216; 8; 0; 31; 216; 8; 0; 13; 0; 12; 0; 30; 216; 8; 0; 29; 216; 8; 0; 13; 0; 13; 0;
    28; 216; 8; 0; 27; 216; 8; 0; 13; 0; 14; 0; 26; 216; 8; 0; 25; 216; 8; 0; 13; 0; 15; 0;
    24; 216; 8; 0; 23; 216; 8; 0; 13; 0; 16; 0; 22; 216; 8; 0; 21; 216; 8; 0; 13; 0; 17; 0;
    20; 216; 8; 0; 19; 216; 8; 0; 13; 0; 18; 0; 18; 216; 8; 0; 17; 216; 8; 0; 15; 0; 19; 0;
    16; 216; 8; 0; 15; 216; 8; 0; 14; 216; 8; 0; 13; 0; 20; 0; 13; 216; 8; 0; 12; 216; 8; 0;
    13; 0; 21; 0; 11; 216; 8; 0; 10; 216; 8; 0; 13; 0; 22; 0; 9; 216; 8; 0; 8; 216; 8; 0; 13;
    0; 23; 0; 7; 216; 8; 0; 6; 216; 8; 0; 13; 0; 24; 0; 5; 216; 8; 0; 4; 216; 8; 0; 7; 2; 1;
    0; 3; 216; 8; 0; 2; 216; 8; 0; 1; 216; 8; 0; 7; 2; 2; 0; 0; 216; 8; 0; 255; 215; 8; 0;
    254; 215; 8; 0; 7; 2; 3; 0; 253; 215; 8; 0; 252; 215; 8; 0; 251; 215; 8; 0; 7; 2; 4; 0;
    250; 215; 8; 0; 249; 215; 8; 0; 248; 215; 8; 0; 7; 2; 5; 0; 247; 215; 8; 0; 246; 215; 8;
    0; 245; 215; 8; 0; 7; 2; 6; 0; 244; 215; 8; 0; 243; 215; 8; 0; 242; 215; 8; 0; 7; 2; 7; 0;
    241; 215; 8; 0; 240; 215; 8; 0; 239; 215; 8; 0; 7; 2; 8; 0; 238; 215; 8; 0; 237; 215; 8;
    0; 236; 215; 8; 0; 7; 2; 9; 0; 235; 215; 8; 0; 234; 215; 8; 0; 233; 215; 8; 0; 7; 2; 10;
    0; 232; 215; 8; 0; 231; 215; 8; 0; 230; 215; 8; 0; 7; 2; 11; 0; 229; 215; 8; 0; 228; 215;
    8; 0; 227; 215; 8; 0; 7; 2; 12; 0; 226; 215; 8; 0; 225; 215; 8; 0; 224; 215; 8; 0; 7; 2;
    13; 0; 223; 215; 8; 0; 222; 215; 8; 0; 221; 215; 8; 0; 7; 2; 14; 0; 220; 215; 8; 0; 219;
    215; 8; 0; 218; 215; 8; 0; 5; 2; 15; 0; 217; 215; 8; 0; 216; 215; 8; 0; 5; 2; 16; 0; 215;
    215; 8; 0; 214; 215; 8; 0; 5; 2; 17; 0; 213; 215; 8; 0; 212; 215; 8; 0; 1; 1; 69; 0; 0;
    69; 0; 0; 69; 0; 0; 69; 0; 0; 69; 0; 0; 69; 0; 0; 69; 0; 0; 69; 0; 0; 69; 0; 0; 69; 0; 0;
    69; 0; 0; 69; 0; 0; 69; 0; 0; 69; 0; 0; 69; 0; 0; 69; 0; 0; 69; 0; 0; 69; 0; 0; 69; 0; 0;
    69; 0; 0; 69; 0; 0; 69; 0; 0; 69; 0; 0; 69; 0; 0; 69; 0; 0; 69; 0; 0; 69; 0; 0; 69; 0; 0;
    69; 0; 0; 69; 0; 0; 69; 0; 0; 69; 0; 0; 69; 0; 0; 69; 0; 0; 69; 0; 0; 69; 0; 0; 69; 0; 0;
    69; 0; 0; 69; 0; 0; 69; 0; 0; 69; 0; 0; 69; 0; 0; 69; 0; 0; 69; 0; 0; 69; 0; 0; 69; 0; 0;
    69; 0; 0; 69; 0; 0; 69; 0; 0; 69; 0; 0; 2; 2; 126; 0; 90; 92; 60; 163; 230; 5; 207; 9; 90;
    92; 1; 0; 0; 0; 0; 0; 0; 0; 0; 1; 1; 71; 126; 0; 90; 92; 1; 2; 65; 12; 0; 0; 0; 6; 10; 43;
    52; 1; 1; 1; 1; 1; 1; 15; 0; 68; 19; 68; 0; 68; 0; 68; 0; 72; 126; 0; 90; 92; 70; 60; 163;
    70; 230; 5; 65; 8; 0; 0; 0; 6; 14; 43; 52; 127; 127; 42; 128; 3] = true.
Proof. vm_compute; reflexivity. Qed.

(** tests/chunks/CMPO/cmpo_07.chunk *)
Example sample_chunk_cmpo_07 : conforms [67; 77; 80; 79] [
    2; 3; 0; 0; 0; 0; 0; 0; 0; 0; 0; 0; 168; 93; 0; 0; 253; 255; 30; 0; 69; 112; 71; 72; 74;
    32; 107; 113; 119; 108; 32; 121; 95; 121; 101; 98; 49; 112; 46; 108; 108; 112; 111; 114;
    116; 101; 100; 46; 48; 49; 255; 255; 93; 151; 0; 0; 92; 151; 0; 0; 0; 0; 0; 0; 1; 1; 72;
    0; 0; 0; 0; 2; 8; 0; 227; 0; 0; 0; 0; 0; 0; 0; 11; 0; 0; 0; 133; 2; 1; 0; 91; 151; 0; 0;
    90; 151; 0; 0; 119; 22; 0; 0; 133; 2; 3; 0; 89; 151; 0; 0; 88; 151; 0; 0; 119; 22; 0; 0;
    133; 2; 2; 0; 87; 151; 0; 0; 86; 151; 0; 0; 119; 22; 0; 0; 133; 2; 4; 0; 85; 151; 0; 0;
    84; 151; 0; 0; 119; 22; 0; 0; 133; 2; 5; 0; 83; 151; 0; 0; 82; 151; 0; 0; 119; 22; 0; 0;
    133; 2; 6; 0; 81; 151; 0; 0; 80; 151; 0; 0; 119; 22; 0; 0; 133; 2; 7; 0; 79; 151; 0; 0;
    78; 151; 0; 0; 119; 22; 0; 0; 133; 2; 1; 0; 77; 151; 0; 0; 76; 151; 0; 0; 119; 22; 0; 0;
    133; 2; 8; 0; 75; 151; 0; 0; 74; 151; 0; 0; 119; 22; 0; 0; 135; 2; 1; 0; 73; 151; 0; 0;
    72; 151; 0; 0; 71; 151; 0; 0; 119; 22; 0; 0; 141; 0; 1; 0; 70; 151; 0; 0; 69; 151; 0; 0;
    119; 22; 0; 0; 1; 1; 69; 0; 0; 69; 0; 0; 69; 0; 0; 69; 0; 0; 69; 0; 0; 69; 0; 0; 69; 0; 0;
    69; 0; 0; 69; 0; 0; 69; 1; 0; 69; 0; 0; 2; 2; 46; 95; 129; 92; 96; 77; 0; 0; 43; 171; 134;
    92; 1; 0; 0; 0; 0; 0; 0; 0; 0; 1; 1; 71; 46; 95; 129; 92; 1; 2; 65; 12; 0; 0; 0; 6; 10;
    43; 52; 1; 1; 1; 1; 1; 1; 15; 0; 68; 19; 68; 0; 68; 0; 68; 0; 72; 46; 95; 129; 92; 70; 96;
    77; 70; 0; 0; 65; 8; 0; 0; 0; 6; 14; 43; 52; 127; 127; 42; 128; 3] = true.
Proof. vm_compute; reflexivity. Qed.

(** tests/chunks/CTRL/ctrl_01.chunk *)
Example sample_chunk_ctrl_01 : conforms [67; 84; 82; 76] [
    2; 3; 0; 0; 0; 0; 0; 0; 0; 0; 10; 0; 168; 93; 0; 0; 253; 255; 255; 255; 255; 255; 0; 0; 0;
    0; 0; 0; 0; 0; 0; 0; 0; 0; 1; 1; 72; 0; 0; 0; 0; 2; 1; 19; 0; 0; 0; 2; 3; 3; 0; 0; 0; 1;
    0; 0; 0; 244; 255; 255; 255; 1; 0; 0; 0; 1; 0; 0; 0; 1; 0; 0; 0; 32; 1; 0; 0; 0; 0; 0; 3] = true.
Proof. vm_compute; reflexivity. Qed.

(** tests/chunks/DIDP/didp_01.chunk *)
Example sample_chunk_didp_01 : conforms [68; 73; 68; 80] [
    2; 1; 175; 12; 126; 186; 166; 126; 143; 69; 1; 1; 65; 12; 0; 0; 0; 6; 10; 43; 52; 1; 1; 1;
    1; 1; 1; 15; 0; 68; 19; 68; 0; 68; 0; 68; 0; 72; 175; 12; 126; 186; 70; 166; 126; 70; 143;
    69; 65; 8; 0; 0; 0; 6; 14; 43; 52; 127; 127; 42; 128; 2; 1; 171; 4; 0; 0; 58; 0; 0; 0; 1;
    0; 1; 0; 2; 1; 0; 0; 0; 0; 0; 160; 113; 13; 0; 0; 0; 0; 0; 192; 166; 0; 0; 0; 0; 0; 0; 3] = true.
Proof. vm_compute; reflexivity. Qed.

(** tests/chunks/EQMB/eqmb_01.chunk *)
Example sample_chunk_eqmb_01 : conforms [69; 81; 77; 66] [
    2; 3; 0; 0; 0; 0; 0; 0; 0; 0; 2; 0; 168; 93; 0; 0; 253; 255; 255; 255; 14; 0; 69; 70; 70;
    95; 65; 85; 68; 73; 79; 95; 69; 81; 77; 66; 81; 173; 3; 0; 0; 0; 0; 0; 0; 0; 0; 0; 1; 1;
    72; 0; 0; 0; 0; 2; 8; 0; 76; 1; 0; 0; 0; 0; 0; 0; 1; 0; 0; 0; 5; 0; 1; 0; 80; 173; 3; 0;
    1; 1; 69; 0; 0; 2; 6; 15; 0; 0; 0; 15; 0; 0; 0; 2; 0; 0; 0; 0; 0; 0; 0; 0; 0; 1; 0; 1; 0;
    0; 0; 0; 0; 0; 0; 0; 0; 1; 2; 72; 0; 0; 0; 0; 2; 5; 3; 0; 0; 0; 2; 0; 0; 0; 80; 52; 3; 0;
    248; 248; 255; 255; 208; 7; 0; 0; 1; 1; 0; 0; 0; 16; 44; 20; 0; 26; 4; 0; 0; 208; 7; 0; 0;
    1; 3; 0; 0; 0; 112; 191; 97; 0; 102; 249; 255; 255; 208; 7; 0; 0; 1; 1; 16; 0; 84; 101;
    108; 101; 112; 104; 111; 110; 101; 32; 69; 81; 32; 34; 65; 34; 3] = true.
Proof. vm_compute; reflexivity. Qed.

(** tests/chunks/FILE/file_01.chunk *)
Example sample_chunk_file_01 : conforms [70; 73; 76; 69] [
    2; 2; 126; 0; 76; 105; 83; 116; 50; 47; 48; 48; 95; 71; 66; 71; 95; 66; 65; 83; 71; 69;
    82; 83; 47; 68; 75; 47; 48; 49; 95; 70; 84; 82; 95; 68; 69; 76; 73; 86; 69; 82; 89; 47;
    48; 48; 95; 86; 73; 68; 69; 79; 47; 68; 79; 77; 69; 83; 84; 73; 67; 47; 71; 71; 95; 70;
    84; 82; 95; 73; 78; 84; 76; 95; 68; 73; 83; 45; 102; 70; 88; 95; 80; 102; 79; 82; 69; 83;
    72; 81; 95; 49; 48; 56; 48; 80; 50; 51; 57; 56; 45; 49; 55; 56; 95; 69; 78; 45; 53; 49;
    118; 76; 84; 82; 84; 95; 50; 48; 49; 53; 51; 51; 51; 45; 51; 49; 46; 109; 111; 118; 1; 1;
    76; 135; 0; 47; 86; 111; 108; 117; 109; 101; 115; 47; 76; 105; 83; 116; 50; 47; 48; 48;
    95; 71; 66; 71; 95; 66; 65; 83; 71; 69; 82; 83; 47; 68; 75; 47; 48; 49; 95; 70; 84; 82;
    95; 68; 69; 76; 73; 86; 69; 82; 89; 47; 48; 48; 95; 86; 73; 68; 69; 79; 47; 68; 79; 77;
    69; 83; 84; 73; 67; 47; 71; 71; 95; 70; 84; 82; 95; 73; 78; 84; 76; 95; 68; 73; 83; 45;
    102; 70; 88; 95; 80; 102; 79; 82; 69; 83; 72; 81; 95; 49; 48; 56; 48; 80; 50; 51; 57; 56;
    45; 49; 55; 56; 95; 69; 78; 45; 53; 49; 118; 76; 84; 82; 84; 95; 50; 48; 49; 53; 51; 51;
    51; 45; 51; 49; 46; 109; 111; 118; 1; 2; 76; 137; 0; 0; 0; 47; 86; 111; 108; 117; 109;
    101; 115; 47; 76; 105; 83; 116; 50; 47; 48; 48; 95; 71; 66; 71; 95; 66; 65; 83; 71; 69;
    82; 83; 47; 68; 75; 47; 48; 49; 95; 70; 84; 82; 95; 68; 69; 76; 73; 86; 69; 82; 89; 47;
    48; 48; 95; 86; 73; 68; 69; 79; 47; 68; 79; 77; 69; 83; 84; 73; 67; 47; 71; 71; 95; 70;
    84; 82; 95; 73; 78; 84; 76; 95; 68; 73; 83; 45; 102; 70; 88; 95; 80; 102; 79; 82; 69; 83;
    72; 81; 95; 49; 48; 56; 48; 80; 50; 51; 57; 56; 45; 49; 55; 56; 95; 69; 78; 45; 53; 49;
    118; 76; 84; 82; 84; 95; 50; 48; 49; 53; 51; 51; 51; 45; 51; 49; 46; 109; 111; 118; 1; 3;
    76; 155; 0; 0; 0; 92; 92; 113; 117; 117; 117; 117; 107; 107; 104; 101; 115; 104; 101; 114;
    104; 120; 95; 111; 114; 111; 118; 111; 116; 101; 92; 92; 76; 105; 83; 116; 50; 92; 48; 48;
    95; 71; 66; 71; 95; 66; 65; 83; 71; 69; 82; 83; 92; 68; 75; 92; 48; 49; 95; 70; 102; 102;
    95; 68; 69; 76; 73; 86; 69; 82; 89; 92; 48; 48; 95; 86; 73; 68; 69; 79; 92; 68; 79; 77;
    69; 83; 84; 73; 67; 92; 71; 71; 95; 70; 84; 82; 95; 73; 78; 84; 76; 95; 68; 73; 83; 45;
    102; 70; 88; 95; 80; 102; 79; 82; 69; 83; 72; 81; 95; 49; 48; 56; 48; 80; 50; 51; 57; 56;
    45; 49; 55; 56; 95; 69; 78; 45; 53; 49; 118; 76; 84; 82; 84; 95; 50; 48; 49; 53; 51; 51;
    51; 45; 51; 49; 46; 109; 111; 118; 3] = true.
Proof. vm_compute; reflexivity. Qed.

(** tests/chunks/FXPS/fxps_01.chunk *)
Example sample_chunk_fxps_01 : conforms [70; 88; 80; 83] [
    2; 18; 255; 255; 255; 255; 0; 0; 0; 0; 2; 0; 0; 0; 168; 0; 0; 0; 0; 0; 0; 0; 0; 0; 0; 32;
    0; 0; 0; 0; 0; 0; 0; 0; 232; 3; 0; 0; 0; 0; 0; 0; 0; 0; 0; 0; 232; 3; 0; 0; 0; 0; 1; 0; 0;
    0; 1; 0; 0; 0; 0; 0; 0; 0; 0; 0; 0; 0; 0; 0; 0; 0; 0; 0; 0; 0; 12; 254; 0; 0; 244; 1; 0;
    0; 12; 254; 0; 0; 244; 1; 0; 0; 0; 0; 0; 0; 0; 0; 0; 0; 0; 0; 0; 0; 0; 0; 0; 0; 0; 0; 0;
    0; 0; 0; 0; 0; 0; 0; 0; 1; 0; 0; 0; 64; 0; 0; 0; 32; 0; 0; 0; 0; 0; 0; 0; 0; 232; 3; 0; 0;
    0; 0; 0; 0; 0; 0; 0; 0; 232; 3; 0; 0; 0; 0; 1; 0; 0; 0; 1; 0; 0; 0; 0; 0; 0; 0; 0; 0; 0;
    0; 0; 0; 0; 0; 0; 0; 0; 0; 12; 254; 0; 0; 244; 1; 0; 0; 12; 254; 0; 0; 244; 1; 0; 0; 0; 0;
    0; 0; 0; 0; 0; 0; 0; 0; 0; 0; 0; 0; 0; 0; 0; 0; 0; 0; 0; 0; 0; 0; 0; 0; 0; 1; 3] = true.
Proof. vm_compute; reflexivity. Qed.

(** tests/chunks/JPED/jped_01.chunk *)
Example sample_chunk_jped_01 : conforms [74; 80; 69; 68] [
    2; 3; 1; 173; 69; 0; 0; 0; 0; 0; 0; 0; 2; 3; 168; 93; 0; 0; 253; 255; 1; 0; 0; 0; 0; 0; 0;
    0; 32; 0; 2; 2; 240; 1; 0; 0; 208; 2; 0; 0; 240; 1; 0; 0; 208; 2; 0; 0; 0; 0; 0; 0; 0; 0;
    0; 0; 230; 1; 0; 0; 208; 2; 0; 0; 0; 0; 0; 0; 10; 0; 0; 0; 0; 0; 4; 0; 0; 0; 3; 0; 0; 0;
    8; 0; 0; 0; 31; 0; 0; 0; 0; 0; 0; 0; 0; 0; 0; 0; 1; 212; 181; 0; 0; 0; 0; 0; 0; 70; 73;
    70; 74; 103; 0; 0; 0; 0; 0; 0; 0; 1; 1; 69; 73; 73; 1; 2; 71; 0; 0; 0; 0; 1; 3; 71; 0; 0;
    0; 0; 1; 4; 71; 0; 0; 0; 0; 71; 0; 0; 0; 0; 1; 5; 71; 255; 255; 255; 255; 2; 2; 2; 0; 0;
    0; 1; 0; 0; 0; 8; 0; 0; 0; 0; 0; 16; 0; 0; 0; 235; 0; 0; 0; 225; 0; 0; 0; 231; 0; 16; 0;
    0; 0; 0; 0; 1; 1; 72; 0; 0; 0; 0; 2; 1; 0; 0; 0; 0; 0; 0; 0; 0; 0; 0; 0; 0; 0; 0; 0; 0; 1;
    1; 71; 0; 2; 0; 0; 3] = true.
Proof. vm_compute; reflexivity. Qed.

(** tests/chunks/JPED/jped_02.chunk *)
Example sample_chunk_jped_02 : conforms [74; 80; 69; 68] [
    2; 3; 1; 39; 27; 3; 0; 0; 0; 0; 0; 0; 2; 3; 168; 93; 0; 0; 253; 255; 1; 0; 0; 0; 0; 0; 0;
    0; 0; 0; 2; 2; 240; 1; 0; 0; 208; 2; 0; 0; 240; 1; 0; 0; 208; 2; 0; 0; 0; 0; 0; 0; 0; 0;
    0; 0; 230; 1; 0; 0; 208; 2; 0; 0; 0; 0; 0; 0; 10; 0; 0; 0; 0; 0; 4; 0; 0; 0; 3; 0; 0; 0;
    8; 0; 0; 0; 31; 0; 0; 0; 0; 0; 0; 0; 0; 0; 0; 0; 1; 104; 194; 2; 0; 0; 0; 0; 0; 70; 73;
    70; 74; 103; 0; 0; 0; 0; 0; 0; 0; 1; 1; 69; 73; 73; 1; 2; 71; 0; 0; 0; 0; 1; 3; 71; 0; 0;
    0; 0; 1; 4; 71; 0; 0; 0; 0; 71; 0; 0; 0; 0; 1; 5; 71; 255; 255; 255; 255; 1; 8; 71; 168;
    253; 255; 255; 71; 1; 0; 0; 0; 71; 62; 254; 255; 255; 71; 1; 0; 0; 0; 71; 176; 4; 0; 0;
    71; 1; 0; 0; 0; 71; 132; 3; 0; 0; 71; 1; 0; 0; 0; 71; 168; 253; 255; 255; 71; 1; 0; 0; 0;
    71; 62; 254; 255; 255; 71; 1; 0; 0; 0; 71; 176; 4; 0; 0; 71; 1; 0; 0; 0; 71; 132; 3; 0; 0;
    71; 1; 0; 0; 0; 71; 168; 253; 255; 255; 71; 1; 0; 0; 0; 71; 62; 254; 255; 255; 71; 1; 0;
    0; 0; 71; 176; 4; 0; 0; 71; 1; 0; 0; 0; 71; 132; 3; 0; 0; 71; 1; 0; 0; 0; 1; 9; 71; 168;
    253; 255; 255; 71; 1; 0; 0; 0; 71; 62; 254; 255; 255; 71; 1; 0; 0; 0; 71; 176; 4; 0; 0;
    71; 1; 0; 0; 0; 71; 132; 3; 0; 0; 71; 1; 0; 0; 0; 71; 255; 255; 255; 255; 2; 2; 2; 0; 0;
    0; 1; 0; 0; 0; 8; 0; 0; 0; 0; 0; 16; 0; 0; 0; 235; 0; 0; 0; 225; 0; 0; 0; 2; 0; 128; 0; 0;
    0; 0; 0; 1; 1; 72; 0; 0; 0; 0; 2; 1; 0; 0; 0; 0; 0; 0; 0; 0; 0; 0; 0; 0; 8; 0; 0; 0; 0; 0;
    0; 0; 0; 0; 0; 0; 1; 1; 71; 0; 0; 2; 0; 3] = true.
Proof. vm_compute; reflexivity. Qed.

(** tests/chunks/MCBR/mcbr_01.chunk *)
Example sample_chunk_mcbr_01 : conforms [77; 67; 66; 82] [
    2; 1; 175; 212; 186; 91; 78; 20; 91; 22; 5; 0; 109; 111; 118; 105; 101; 1; 1; 76; 7; 0; 0;
    0; 109; 111; 118; 105; 101; 3] = true.
Proof. vm_compute; reflexivity. Qed.

(** tests/chunks/MCMR/mcmr_01.chunk *)
Example sample_chunk_mcmr_01 : conforms [77; 67; 77; 82] [
    2; 1; 44; 175; 176; 88; 234; 85; 12; 1; 153; 1; 0; 0; 1; 1; 65; 12; 0; 0; 0; 6; 10; 43;
    52; 1; 1; 1; 1; 1; 1; 15; 0; 68; 19; 68; 0; 68; 0; 68; 0; 72; 44; 175; 176; 88; 70; 234;
    85; 70; 12; 1; 65; 8; 0; 0; 0; 6; 14; 43; 52; 127; 127; 42; 128; 3] = true.
Proof. vm_compute; reflexivity. Qed.

(** tests/chunks/MDFL/mdfl_01.chunk *)
Example sample_chunk_mdfl_01 : conforms [77; 68; 70; 76] [
    2; 3; 1; 0; 0; 0; 0; 0; 0; 0; 0; 0; 2; 3; 168; 93; 0; 0; 253; 255; 97; 25; 0; 0; 2; 128;
    0; 0; 6; 0; 3] = true.
Proof. vm_compute; reflexivity. Qed.

(** tests/chunks/MDFM/mdfm_01.chunk *)
Example sample_chunk_mdfm_01 : conforms [77; 68; 70; 77] [
    2; 3; 3; 0; 0; 0; 0; 0; 0; 0; 0; 0; 2; 1; 3] = true.
Proof. vm_compute; reflexivity. Qed.

(** tests/chunks/MDNG/mdng_01.chunk *)
Example sample_chunk_mdng_01 : conforms [77; 68; 78; 71] [
    2; 3; 4; 0; 0; 0; 0; 0; 0; 0; 0; 0; 2; 1; 3] = true.
Proof. vm_compute; reflexivity. Qed.

(** tests/chunks/MDTP/mdtp_01.chunk *)
Example sample_chunk_mdtp_01 : conforms [77; 68; 84; 80] [
    2; 3; 2; 0; 0; 0; 0; 0; 0; 0; 0; 0; 2; 2; 0; 0; 3] = true.
Proof. vm_compute; reflexivity. Qed.

(** tests/chunks/MPGA/mpga_01.chunk *)
Example sample_chunk_mpga_01 : conforms [77; 80; 71; 65] [
    2; 3; 1; 172; 222; 7; 0; 0; 171; 222; 7; 0; 1; 1; 65; 16; 0; 0; 0; 77; 88; 160; 135; 250;
    202; 245; 65; 154; 104; 240; 202; 222; 253; 187; 113; 1; 3; 72; 170; 222; 7; 0; 2; 3; 72;
    146; 0; 0; 0; 0; 120; 19; 25; 4; 0; 0; 0; 0; 0; 0; 2; 1; 2; 0; 16; 0; 68; 172; 0; 0; 0; 0;
    0; 236; 255; 2; 0; 0; 0; 27; 0; 0; 0; 0; 0; 0; 0; 0; 0; 1; 1; 77; 136; 5; 0; 0; 0; 0; 0;
    0; 1; 2; 77; 64; 8; 0; 0; 0; 0; 0; 0; 3] = true.
Proof. vm_compute; reflexivity. Qed.

(** tests/chunks/MPGI/mpgi_01.chunk *)
Example sample_chunk_mpgi_01 : conforms [77; 80; 71; 73] [
    2; 3; 1; 191; 0; 0; 0; 0; 0; 0; 0; 0; 2; 3; 181; 11; 0; 0; 254; 255; 139; 0; 0; 0; 0; 0;
    0; 0; 6; 0; 2; 2; 56; 4; 0; 0; 128; 7; 0; 0; 56; 4; 0; 0; 128; 7; 0; 0; 0; 0; 0; 0; 0; 0;
    0; 0; 56; 4; 0; 0; 128; 7; 0; 0; 0; 0; 0; 0; 0; 0; 0; 0; 0; 0; 16; 0; 0; 0; 9; 0; 0; 0; 8;
    0; 0; 0; 21; 0; 0; 0; 0; 0; 0; 0; 0; 0; 0; 0; 0; 0; 0; 0; 0; 0; 0; 0; 0; 50; 71; 80; 77;
    235; 15; 0; 0; 0; 2; 0; 0; 1; 1; 69; 73; 73; 1; 2; 71; 0; 0; 0; 0; 1; 3; 71; 0; 0; 0; 0;
    1; 4; 71; 0; 0; 0; 0; 71; 0; 0; 0; 0; 1; 5; 71; 255; 255; 255; 255; 1; 15; 66; 0; 2; 2; 2;
    0; 0; 0; 1; 0; 0; 0; 8; 0; 0; 0; 6; 14; 16; 0; 0; 0; 235; 0; 0; 0; 225; 0; 0; 0; 231; 0;
    202; 1; 0; 0; 0; 0; 1; 1; 72; 0; 0; 0; 0; 1; 2; 72; 0; 0; 0; 0; 2; 1; 0; 133; 5; 0; 1; 0;
    0; 12; 0; 30; 0; 0; 0; 0; 0; 3] = true.
Proof. vm_compute; reflexivity. Qed.

(** tests/chunks/MPGI/mpgi_02.chunk *)
Example sample_chunk_mpgi_02 : conforms [77; 80; 71; 73] [
    2; 3; 1; 135; 9; 0; 0; 0; 0; 0; 0; 0; 2; 3; 168; 93; 0; 0; 253; 255; 116; 8; 0; 0; 0; 0;
    0; 0; 32; 0; 2; 2; 208; 2; 0; 0; 0; 5; 0; 0; 208; 2; 0; 0; 0; 5; 0; 0; 0; 0; 0; 0; 0; 0;
    0; 0; 208; 2; 0; 0; 0; 5; 0; 0; 0; 0; 0; 0; 0; 0; 0; 0; 0; 0; 16; 0; 0; 0; 9; 0; 0; 0; 8;
    0; 0; 0; 26; 0; 0; 0; 0; 0; 0; 0; 0; 0; 0; 0; 0; 31; 98; 138; 23; 0; 0; 0; 0; 50; 71; 80;
    77; 247; 15; 0; 0; 0; 0; 0; 0; 1; 1; 69; 73; 73; 1; 2; 71; 0; 0; 0; 0; 1; 3; 71; 0; 0; 0;
    0; 1; 4; 71; 0; 0; 0; 0; 71; 0; 0; 0; 0; 1; 5; 71; 255; 255; 255; 255; 2; 2; 2; 0; 0; 0;
    1; 0; 0; 0; 8; 0; 0; 0; 0; 0; 16; 0; 0; 0; 235; 0; 0; 0; 225; 0; 0; 0; 231; 0; 144; 23; 0;
    0; 0; 0; 2; 1; 2; 68; 0; 0; 1; 0; 0; 8; 0; 24; 0; 0; 2; 0; 0; 0; 143; 255; 248; 0; 0; 1;
    181; 143; 255; 247; 93; 128; 0; 0; 1; 181; 56; 64; 128; 128; 152; 128; 152; 176; 176; 176;
    176; 176; 176; 208; 192; 208; 216; 216; 216; 208; 208; 208; 208; 216; 216; 216; 232; 232;
    233; 17; 17; 16; 232; 232; 232; 216; 216; 232; 233; 1; 1; 17; 17; 41; 49; 41; 25; 25; 17;
    25; 49; 49; 65; 65; 65; 129; 129; 113; 113; 193; 193; 210; 42; 42; 156; 64; 68; 68; 72;
    72; 72; 76; 76; 76; 76; 80; 80; 80; 80; 80; 84; 84; 84; 84; 84; 84; 88; 88; 88; 88; 88;
    88; 88; 92; 92; 92; 92; 92; 92; 92; 92; 96; 96; 96; 100; 96; 96; 96; 100; 104; 104; 104;
    104; 100; 108; 108; 108; 108; 108; 112; 112; 112; 112; 120; 120; 120; 124; 124; 132; 0; 0;
    1; 178; 0; 1; 3; 2; 0; 128; 0; 64; 0; 32; 0; 16; 0; 0; 1; 1; 11; 252; 232; 8; 0; 0; 0; 0;
    0; 0; 0; 0; 0; 0; 0; 0; 0; 0; 0; 0; 0; 0; 0; 0; 0; 0; 0; 0; 0; 0; 0; 0; 0; 0; 0; 0; 0; 0;
    0; 0; 0; 0; 0; 0; 0; 0; 0; 0; 0; 0; 0; 0; 0; 0; 0; 0; 0; 0; 0; 0; 0; 0; 0; 0; 0; 0; 0; 0;
    0; 0; 0; 0; 0; 0; 0; 0; 0; 0; 0; 0; 0; 0; 0; 0; 0; 0; 0; 0; 0; 0; 0; 0; 0; 0; 0; 0; 0; 0;
    0; 0; 0; 0; 0; 0; 0; 0; 0; 0; 0; 0; 0; 0; 0; 0; 0; 0; 0; 0; 0; 0; 0; 0; 0; 0; 0; 0; 0; 0;
    0; 0; 0; 0; 0; 0; 0; 0; 0; 0; 0; 0; 0; 0; 0; 0; 0; 0; 0; 0; 0; 0; 0; 0; 0; 0; 0; 0; 0; 0;
    0; 0; 0; 0; 0; 0; 0; 0; 0; 0; 0; 0; 0; 0; 0; 0; 0; 0; 0; 0; 0; 0; 0; 0; 0; 0; 0; 0; 0; 0;
    0; 0; 0; 0; 0; 0; 0; 0; 0; 0; 0; 0; 0; 0; 0; 0; 0; 0; 0; 0; 0; 0; 0; 0; 0; 0; 0; 0; 0; 0;
    0; 0; 0; 0; 0; 0; 0; 0; 0; 0; 0; 0; 0; 0; 0; 0; 0; 0; 0; 0; 0; 0; 0; 0; 0; 0; 0; 0; 0; 0;
    0; 0; 0; 0; 0; 0; 0; 0; 0; 0; 0; 0; 0; 0; 0; 0; 0; 0; 0; 0; 0; 0; 0; 0; 0; 0; 0; 0; 0; 0;
    0; 0; 0; 0; 0; 0; 0; 0; 0; 0; 0; 0; 0; 0; 0; 0; 0; 0; 0; 0; 0; 0; 0; 0; 0; 0; 0; 0; 0; 0;
    0; 0; 0; 0; 0; 0; 0; 0; 0; 0; 0; 0; 0; 0; 0; 0; 0; 0; 0; 0; 0; 0; 0; 0; 0; 0; 0; 0; 0; 0;
    0; 0; 0; 0; 255; 255; 255; 255; 3] = true.
Proof. vm_compute; reflexivity. Qed.

(** tests/chunks/MPGP/mpgp_01.chunk *)
Example sample_chunk_mpgp_01 : conforms [77; 80; 71; 80] [
    2; 1; 23; 94; 73; 74; 31; 162; 13; 2; 1; 1; 65; 12; 0; 0; 0; 6; 10; 43; 52; 1; 1; 1; 1; 1;
    1; 15; 0; 68; 19; 68; 0; 68; 0; 68; 0; 72; 23; 94; 73; 74; 70; 31; 162; 70; 13; 2; 65; 8;
    0; 0; 0; 6; 14; 43; 52; 127; 127; 42; 128; 2; 1; 5; 0; 0; 0; 16; 0; 0; 0; 1; 0; 1; 0; 2;
    1; 0; 0; 0; 0; 0; 0; 32; 0; 0; 0; 0; 0; 46; 253; 61; 0; 0; 0; 0; 0; 0; 2; 1; 0; 0; 0; 6;
    0; 12; 0; 0; 147; 115; 6; 0; 48; 120; 15; 3; 0; 48; 106; 207; 2; 0; 32; 22; 140; 6; 0; 48;
    249; 47; 1; 0; 48; 47; 68; 1; 0; 3] = true.
Proof. vm_compute; reflexivity. Qed.

(** tests/chunks/MPGP/mpgp_02.chunk *)
Example sample_chunk_mpgp_02 : conforms [77; 80; 71; 80] [
    2; 1; 80; 129; 29; 5; 51; 134; 5; 130; 1; 1; 65; 12; 0; 0; 0; 6; 10; 43; 52; 1; 1; 1; 5;
    1; 1; 15; 16; 68; 19; 68; 0; 68; 0; 68; 0; 72; 80; 129; 29; 5; 70; 51; 134; 70; 5; 130;
    65; 8; 0; 0; 0; 124; 124; 0; 62; 225; 197; 52; 248; 2; 1; 0; 0; 0; 0; 49; 0; 0; 0; 1; 0;
    1; 0; 2; 1; 0; 0; 0; 0; 0; 0; 128; 0; 0; 0; 0; 0; 207; 128; 182; 0; 0; 0; 0; 0; 0; 2; 1;
    0; 0; 0; 0; 0; 3] = true.
Proof. vm_compute; reflexivity. Qed.

(** tests/chunks/MSML/msml_01.chunk *)
Example sample_chunk_msml_01 : conforms [77; 83; 77; 76] [
    2; 2; 240; 223; 188; 58; 254; 48; 77; 234; 0; 0; 1; 1; 71; 0; 0; 0; 0; 1; 2; 65; 12; 0; 0;
    0; 6; 10; 43; 52; 1; 1; 1; 1; 1; 1; 15; 0; 68; 19; 68; 177; 68; 0; 68; 0; 72; 240; 223;
    188; 58; 70; 254; 48; 70; 77; 234; 65; 8; 0; 0; 0; 241; 31; 84; 88; 159; 100; 29; 197; 3] = true.
Proof. vm_compute; reflexivity. Qed.

(** tests/chunks/MULD/muld_01.chunk *)
Example sample_chunk_muld_01 : conforms [77; 85; 76; 68] [
    2; 3; 1; 215; 172; 6; 0; 0; 214; 172; 6; 0; 1; 1; 65; 16; 0; 0; 0; 183; 132; 31; 120; 137;
    185; 52; 69; 138; 7; 197; 149; 203; 154; 111; 184; 2; 3; 168; 93; 0; 0; 253; 255; 0; 0; 0;
    0; 0; 0; 0; 0; 0; 0; 2; 1; 2; 0; 0; 0; 213; 172; 6; 0; 212; 172; 6; 0; 3] = true.
Proof. vm_compute; reflexivity. Qed.

(** tests/chunks/MULD/muld_02.chunk *)
Example sample_chunk_muld_02 : conforms [77; 85; 76; 68] [
    2; 3; 1; 60; 32; 15; 0; 0; 59; 32; 15; 0; 1; 1; 65; 16; 0; 0; 0; 183; 132; 31; 120; 137;
    185; 52; 69; 138; 7; 197; 149; 203; 154; 111; 184; 1; 2; 65; 0; 2; 0; 0; 91; 0; 65; 0;
    118; 0; 105; 0; 100; 0; 32; 0; 84; 0; 101; 0; 99; 0; 104; 0; 110; 0; 111; 0; 108; 0; 111;
    0; 103; 0; 121; 0; 44; 0; 32; 0; 73; 0; 110; 0; 99; 0; 46; 0; 93; 0; 91; 0; 81; 0; 117; 0;
    105; 0; 99; 0; 107; 0; 84; 0; 105; 0; 109; 0; 101; 0; 32; 0; 80; 0; 108; 0; 117; 0; 103;
    0; 45; 0; 73; 0; 110; 0; 93; 0; 91; 0; 49; 0; 46; 0; 52; 0; 46; 0; 48; 0; 46; 0; 56; 0;
    54; 0; 57; 0; 48; 0; 93; 0; 91; 0; 81; 0; 117; 0; 105; 0; 99; 0; 107; 0; 84; 0; 105; 0;
    109; 0; 101; 0; 77; 0; 101; 0; 100; 0; 105; 0; 97; 0; 67; 0; 111; 0; 110; 0; 116; 0; 97;
    0; 105; 0; 110; 0; 101; 0; 114; 0; 93; 0; 0; 0; 0; 0; 0; 0; 0; 0; 0; 0; 0; 0; 0; 0; 0; 0;
    0; 0; 0; 0; 0; 0; 0; 0; 0; 0; 0; 0; 0; 0; 0; 0; 0; 0; 0; 0; 0; 0; 0; 0; 0; 0; 0; 0; 0; 0;
    0; 0; 0; 0; 0; 0; 0; 0; 0; 0; 0; 0; 0; 0; 0; 0; 0; 0; 0; 0; 0; 0; 0; 0; 0; 0; 0; 0; 0; 0;
    0; 0; 0; 0; 0; 0; 0; 0; 0; 0; 0; 0; 0; 0; 0; 0; 0; 0; 0; 0; 0; 0; 0; 0; 0; 0; 0; 0; 0; 0;
    0; 0; 0; 0; 0; 0; 0; 0; 0; 0; 0; 0; 0; 0; 0; 0; 0; 0; 0; 0; 0; 0; 0; 0; 0; 0; 0; 0; 0; 0;
    0; 0; 0; 0; 0; 0; 0; 0; 0; 0; 0; 0; 0; 0; 0; 0; 0; 0; 0; 0; 0; 0; 0; 0; 0; 0; 0; 0; 0; 0;
    0; 0; 0; 0; 0; 0; 0; 0; 0; 0; 0; 0; 0; 0; 0; 0; 0; 0; 0; 0; 0; 0; 0; 0; 0; 0; 0; 0; 0; 0;
    0; 0; 0; 0; 0; 0; 0; 0; 0; 0; 0; 0; 0; 0; 0; 0; 0; 0; 0; 0; 0; 0; 0; 0; 0; 0; 0; 0; 0; 0;
    0; 0; 0; 0; 0; 0; 0; 0; 0; 0; 0; 0; 0; 0; 0; 0; 0; 0; 0; 0; 0; 0; 0; 0; 0; 0; 0; 0; 0; 0;
    0; 0; 0; 0; 0; 0; 0; 0; 0; 0; 0; 0; 0; 0; 0; 0; 0; 0; 0; 0; 0; 0; 0; 0; 0; 0; 0; 0; 0; 0;
    0; 0; 0; 0; 0; 0; 0; 0; 0; 0; 0; 0; 0; 0; 0; 0; 0; 0; 0; 0; 0; 0; 0; 0; 0; 0; 0; 0; 0; 0;
    0; 0; 0; 0; 0; 0; 0; 0; 0; 0; 0; 0; 0; 0; 0; 0; 0; 0; 0; 0; 0; 0; 0; 0; 0; 0; 0; 0; 0; 0;
    0; 0; 0; 0; 0; 0; 0; 0; 2; 3; 168; 93; 0; 0; 253; 255; 0; 0; 0; 0; 0; 0; 0; 0; 0; 0; 2; 1;
    2; 0; 0; 0; 58; 32; 15; 0; 57; 32; 15; 0; 3] = true.
Proof. vm_compute; reflexivity. Qed.

(** tests/chunks/PCMA/pcma_01.chunk *)
Example sample_chunk_pcma_01 : conforms [80; 67; 77; 65] [
    2; 3; 1; 83; 20; 0; 0; 0; 0; 0; 0; 0; 2; 3; 128; 187; 0; 0; 0; 0; 182; 53; 121; 0; 0; 0;
    0; 16; 4; 0; 2; 1; 1; 0; 16; 0; 128; 187; 0; 0; 0; 0; 0; 236; 255; 2; 0; 0; 0; 27; 0; 1;
    0; 0; 0; 2; 0; 0; 0; 0; 0; 0; 119; 1; 0; 0; 0; 0; 0; 0; 0; 0; 0; 0; 0; 0; 0; 0; 0; 0; 0;
    0; 0; 0; 0; 0; 0; 0; 0; 0; 255; 255; 255; 255; 255; 255; 255; 255; 0; 0; 0; 0; 1; 1; 77;
    36; 240; 35; 198; 0; 0; 0; 0; 3] = true.
Proof. vm_compute; reflexivity. Qed.

(** tests/chunks/PCMA/pcma_02.chunk *)
Example sample_chunk_pcma_02 : conforms [80; 67; 77; 65] [
    2; 3; 1; 44; 42; 2; 0; 0; 43; 42; 2; 0; 1; 1; 65; 16; 0; 0; 0; 204; 211; 17; 55; 208; 98;
    215; 73; 176; 174; 193; 24; 16; 29; 26; 22; 1; 2; 65; 0; 2; 0; 0; 91; 0; 65; 0; 118; 0;
    105; 0; 100; 0; 32; 0; 84; 0; 101; 0; 99; 0; 104; 0; 110; 0; 111; 0; 108; 0; 111; 0; 103;
    0; 121; 0; 44; 0; 32; 0; 73; 0; 110; 0; 99; 0; 46; 0; 93; 0; 91; 0; 87; 0; 97; 0; 118; 0;
    101; 0; 65; 0; 105; 0; 102; 0; 102; 0; 32; 0; 80; 0; 108; 0; 117; 0; 103; 0; 45; 0; 73; 0;
    110; 0; 93; 0; 91; 0; 49; 0; 46; 0; 51; 0; 46; 0; 48; 0; 46; 0; 56; 0; 52; 0; 48; 0; 53;
    0; 93; 0; 91; 0; 87; 0; 97; 0; 118; 0; 101; 0; 65; 0; 105; 0; 102; 0; 102; 0; 82; 0; 101;
    0; 97; 0; 100; 0; 101; 0; 114; 0; 77; 0; 111; 0; 118; 0; 77; 0; 101; 0; 100; 0; 105; 0;
    97; 0; 67; 0; 111; 0; 110; 0; 116; 0; 97; 0; 105; 0; 110; 0; 101; 0; 114; 0; 93; 0; 0; 0;
    0; 0; 0; 0; 0; 0; 0; 0; 0; 0; 0; 0; 0; 0; 0; 0; 0; 0; 0; 0; 0; 0; 0; 0; 0; 0; 0; 0; 0; 0;
    0; 0; 0; 0; 0; 0; 0; 0; 0; 0; 0; 0; 0; 0; 0; 0; 0; 0; 0; 0; 0; 0; 0; 0; 0; 0; 0; 0; 0; 0;
    0; 0; 0; 0; 0; 0; 0; 0; 0; 0; 0; 0; 0; 0; 0; 0; 0; 0; 0; 0; 0; 0; 0; 0; 0; 0; 0; 0; 0; 0;
    0; 0; 0; 0; 0; 0; 0; 0; 0; 0; 0; 0; 0; 0; 0; 0; 0; 0; 0; 0; 0; 0; 0; 0; 0; 0; 0; 0; 0; 0;
    0; 0; 0; 0; 0; 0; 0; 0; 0; 0; 0; 0; 0; 0; 0; 0; 0; 0; 0; 0; 0; 0; 0; 0; 0; 0; 0; 0; 0; 0;
    0; 0; 0; 0; 0; 0; 0; 0; 0; 0; 0; 0; 0; 0; 0; 0; 0; 0; 0; 0; 0; 0; 0; 0; 0; 0; 0; 0; 0; 0;
    0; 0; 0; 0; 0; 0; 0; 0; 0; 0; 0; 0; 0; 0; 0; 0; 0; 0; 0; 0; 0; 0; 0; 0; 0; 0; 0; 0; 0; 0;
    0; 0; 0; 0; 0; 0; 0; 0; 0; 0; 0; 0; 0; 0; 0; 0; 0; 0; 0; 0; 0; 0; 0; 0; 0; 0; 0; 0; 0; 0;
    0; 0; 0; 0; 0; 0; 0; 0; 0; 0; 0; 0; 0; 0; 0; 0; 0; 0; 0; 0; 0; 0; 0; 0; 0; 0; 0; 0; 0; 0;
    0; 0; 0; 0; 0; 0; 0; 0; 0; 0; 0; 0; 0; 0; 0; 0; 0; 0; 0; 0; 0; 0; 0; 0; 0; 0; 0; 0; 0; 0;
    0; 0; 0; 0; 0; 0; 0; 0; 0; 0; 0; 0; 0; 0; 0; 0; 0; 0; 0; 0; 0; 0; 0; 0; 0; 0; 0; 0; 0; 0;
    0; 0; 0; 0; 0; 0; 0; 0; 2; 3; 128; 187; 0; 0; 0; 0; 6; 113; 79; 0; 0; 0; 0; 0; 0; 0; 2; 1;
    2; 0; 24; 0; 128; 187; 0; 0; 0; 0; 0; 236; 255; 2; 0; 0; 0; 27; 0; 1; 0; 0; 0; 6; 0; 0; 0;
    0; 0; 0; 101; 4; 0; 0; 0; 0; 0; 0; 0; 0; 0; 0; 0; 0; 0; 0; 0; 0; 0; 0; 0; 0; 0; 0; 0; 0;
    0; 0; 255; 255; 255; 255; 255; 255; 255; 255; 0; 0; 0; 0; 1; 1; 77; 32; 6; 72; 10; 0; 0;
    0; 0; 1; 3; 76; 2; 0; 50; 51; 3] = true.
Proof. vm_compute; reflexivity. Qed.

(** tests/chunks/PRCL/prcl_01.chunk *)
Example sample_chunk_prcl_01 : conforms [80; 82; 67; 76] [
    2; 3; 0; 0; 0; 0; 0; 0; 0; 0; 10; 0; 168; 93; 0; 0; 253; 255; 255; 255; 255; 255; 0; 0; 0;
    0; 0; 0; 0; 0; 0; 0; 0; 0; 1; 1; 72; 0; 0; 0; 0; 2; 1; 6; 1; 0; 0; 2; 1; 2; 0; 0; 0; 1; 0;
    1; 0; 0; 0; 0; 0; 0; 0; 1; 0; 0; 0; 1; 0; 0; 0; 0; 0; 0; 0; 0; 0; 1; 1; 71; 1; 0; 0; 0; 1;
    2; 71; 1; 0; 0; 0; 3] = true.
Proof. vm_compute; reflexivity. Qed.

(** tests/chunks/PRCL/prcl_02.chunk *)
Example sample_chunk_prcl_02 : conforms [80; 82; 67; 76] [
    2; 3; 0; 0; 0; 0; 0; 0; 0; 0; 10; 0; 168; 93; 0; 0; 253; 255; 255; 255; 255; 255; 0; 0; 0;
    0; 0; 0; 0; 0; 0; 0; 0; 0; 1; 1; 72; 0; 0; 0; 0; 2; 1; 38; 0; 0; 0; 2; 1; 3; 0; 0; 0; 4;
    0; 0; 0; 0; 0; 1; 1; 71; 2; 0; 0; 0; 1; 2; 71; 1; 0; 0; 0; 3] = true.
Proof. vm_compute; reflexivity. Qed.

(** tests/chunks/PRCL/prcl_03.chunk *)
Example sample_chunk_prcl_03 : conforms [80; 82; 67; 76] [
    2; 3; 0; 0; 0; 0; 0; 0; 0; 0; 10; 0; 168; 93; 0; 0; 253; 255; 255; 255; 255; 255; 0; 0; 0;
    0; 0; 0; 0; 0; 0; 0; 0; 0; 1; 1; 72; 0; 0; 0; 0; 2; 1; 145; 0; 0; 0; 2; 1; 3; 0; 0; 0; 4;
    0; 1; 0; 0; 0; 21; 0; 0; 0; 1; 0; 0; 0; 1; 0; 0; 0; 173; 254; 0; 0; 0; 0; 1; 1; 71; 2; 0;
    0; 0; 1; 2; 71; 1; 0; 0; 0; 3] = true.
Proof. vm_compute; reflexivity. Qed.

(** tests/chunks/PRIT/prit_01.chunk *)
Example sample_chunk_prit_01 : conforms [80; 82; 73; 84] [
    2; 2; 220; 165; 247; 138; 123; 54; 25; 73; 175; 199; 92; 160; 10; 91; 213; 88; 1; 0; 1; 0;
    0; 0; 255; 255; 1; 0; 0; 0; 0; 1; 1; 66; 0; 3] = true.
Proof. vm_compute; reflexivity. Qed.

(** tests/chunks/PRIT/prit_02.chunk *)
Example sample_chunk_prit_02 : conforms [80; 82; 73; 84] [
    2; 2; 125; 130; 86; 141; 126; 132; 213; 17; 147; 90; 80; 248; 87; 193; 0; 0; 2; 0; 0; 0;
    0; 0; 0; 0; 0; 0; 255; 255; 1; 110; 1; 0; 0; 1; 1; 66; 1; 3] = true.
Proof. vm_compute; reflexivity. Qed.

(** tests/chunks/PRIT/prit_03.chunk *)
Example sample_chunk_prit_03 : conforms [80; 82; 73; 84] [
    2; 2; 216; 92; 127; 189; 253; 21; 78; 66; 163; 77; 17; 100; 47; 187; 184; 103; 4; 0; 5; 0;
    0; 0; 255; 255; 1; 0; 0; 0; 0; 1; 1; 66; 1; 3] = true.
Proof. vm_compute; reflexivity. Qed.

(** tests/chunks/PVOL/pvol_01.chunk *)
Example sample_chunk_pvol_01 : conforms [80; 86; 79; 76] [
    2; 3; 0; 0; 0; 0; 0; 0; 0; 0; 2; 0; 168; 93; 0; 0; 253; 255; 255; 255; 16; 0; 65; 117;
    100; 105; 111; 32; 80; 97; 110; 32; 86; 111; 108; 117; 109; 101; 0; 0; 0; 0; 0; 0; 0; 0;
    0; 0; 0; 0; 1; 1; 72; 0; 0; 0; 0; 2; 8; 0; 186; 18; 0; 0; 0; 0; 0; 0; 2; 0; 0; 0; 5; 0; 1;
    0; 207; 0; 0; 0; 36; 0; 206; 0; 0; 0; 232; 3; 1; 1; 69; 0; 0; 69; 0; 0; 2; 6; 15; 0; 0; 0;
    15; 0; 0; 0; 2; 0; 0; 0; 0; 0; 0; 0; 0; 0; 1; 0; 1; 0; 0; 0; 0; 0; 0; 0; 0; 0; 1; 2; 72;
    0; 0; 0; 0; 2; 5; 0; 0; 0; 32; 0; 64; 0; 0; 0; 0; 0; 1; 1; 71; 1; 0; 0; 0; 1; 2; 71; 0; 0;
    0; 0; 3] = true.
Proof. vm_compute; reflexivity. Qed.

(** tests/chunks/PVOL/pvol_02.chunk *)
Example sample_chunk_pvol_02 : conforms [80; 86; 79; 76] [
    2; 3; 0; 0; 0; 0; 0; 0; 0; 0; 2; 0; 160; 118; 1; 0; 253; 255; 255; 255; 16; 0; 65; 117;
    100; 105; 111; 32; 80; 97; 110; 32; 86; 111; 108; 117; 109; 101; 203; 86; 10; 0; 0; 0; 0;
    0; 0; 0; 0; 0; 1; 1; 72; 0; 0; 0; 0; 2; 8; 0; 176; 20; 0; 0; 0; 0; 0; 0; 10; 0; 0; 0; 5;
    0; 1; 0; 202; 86; 10; 0; 36; 0; 201; 86; 10; 0; 208; 7; 100; 0; 200; 86; 10; 0; 208; 7; 1;
    0; 100; 0; 199; 86; 10; 0; 208; 7; 2; 0; 100; 0; 198; 86; 10; 0; 208; 7; 3; 0; 100; 0;
    197; 86; 10; 0; 208; 7; 4; 0; 100; 0; 196; 86; 10; 0; 208; 7; 5; 0; 100; 0; 195; 86; 10;
    0; 208; 7; 6; 0; 100; 0; 194; 86; 10; 0; 208; 7; 7; 0; 100; 0; 193; 86; 10; 0; 208; 7; 99;
    0; 1; 1; 69; 0; 0; 69; 0; 0; 69; 0; 0; 69; 0; 0; 69; 0; 0; 69; 0; 0; 69; 0; 0; 69; 0; 0;
    69; 0; 0; 69; 0; 0; 2; 6; 15; 0; 0; 0; 15; 0; 0; 0; 2; 0; 0; 0; 0; 0; 0; 0; 0; 0; 1; 0; 1;
    0; 0; 0; 0; 0; 0; 0; 0; 0; 1; 2; 72; 0; 0; 0; 0; 2; 5; 213; 132; 98; 6; 0; 64; 0; 0; 0; 1;
    0; 1; 1; 71; 1; 0; 0; 0; 1; 2; 71; 0; 0; 0; 0; 3] = true.
Proof. vm_compute; reflexivity. Qed.

(** tests/chunks/REPT/rept_01.chunk *)
Example sample_chunk_rept_01 : conforms [82; 69; 80; 84] [
    2; 3; 0; 0; 0; 0; 0; 0; 0; 0; 1; 0; 168; 93; 0; 0; 253; 255; 255; 255; 19; 0; 69; 70; 70;
    95; 84; 73; 77; 69; 87; 65; 82; 80; 46; 82; 69; 80; 69; 65; 84; 93; 217; 9; 0; 0; 0; 0; 0;
    0; 0; 0; 0; 1; 1; 72; 0; 0; 0; 0; 2; 8; 0; 224; 1; 0; 0; 0; 0; 0; 0; 1; 0; 0; 0; 5; 0; 1;
    0; 92; 217; 9; 0; 1; 1; 69; 0; 0; 2; 2; 0; 0; 0; 0; 2; 1; 3] = true.
Proof. vm_compute; reflexivity. Qed.

(** tests/chunks/RGBA/rgba_01.chunk *)
Example sample_chunk_rgba_01 : conforms [82; 71; 66; 65] [
    2; 3; 1; 41; 131; 9; 0; 0; 40; 131; 9; 0; 1; 3; 72; 39; 131; 9; 0; 2; 3; 168; 93; 0; 0;
    253; 255; 1; 0; 0; 0; 0; 0; 0; 0; 6; 0; 2; 2; 56; 4; 0; 0; 128; 7; 0; 0; 56; 4; 0; 0; 128;
    7; 0; 0; 0; 0; 0; 0; 0; 0; 0; 0; 56; 4; 0; 0; 128; 7; 0; 0; 0; 0; 0; 0; 0; 0; 0; 0; 0; 0;
    16; 0; 0; 0; 9; 0; 0; 0; 8; 0; 0; 0; 42; 0; 0; 0; 0; 0; 0; 0; 0; 0; 0; 0; 1; 0; 192; 31;
    0; 0; 0; 0; 0; 69; 78; 79; 78; 81; 8; 0; 0; 0; 32; 0; 0; 1; 1; 69; 73; 73; 1; 2; 71; 0;
    192; 31; 0; 1; 3; 71; 0; 0; 0; 0; 1; 4; 71; 0; 0; 0; 0; 71; 0; 0; 0; 0; 1; 5; 71; 255;
    255; 255; 255; 1; 8; 71; 224; 252; 255; 255; 71; 1; 0; 0; 0; 71; 62; 254; 255; 255; 71; 1;
    0; 0; 0; 71; 64; 6; 0; 0; 71; 1; 0; 0; 0; 71; 132; 3; 0; 0; 71; 1; 0; 0; 0; 71; 224; 252;
    255; 255; 71; 1; 0; 0; 0; 71; 62; 254; 255; 255; 71; 1; 0; 0; 0; 71; 64; 6; 0; 0; 71; 1;
    0; 0; 0; 71; 132; 3; 0; 0; 71; 1; 0; 0; 0; 71; 224; 252; 255; 255; 71; 1; 0; 0; 0; 71; 62;
    254; 255; 255; 71; 1; 0; 0; 0; 71; 64; 6; 0; 0; 71; 1; 0; 0; 0; 71; 132; 3; 0; 0; 71; 1;
    0; 0; 0; 1; 10; 80; 1; 1; 1; 4; 2; 1; 0; 0; 6; 14; 43; 52; 4; 1; 1; 1; 1; 11; 80; 1; 1; 1;
    4; 3; 3; 0; 0; 6; 14; 43; 52; 4; 1; 1; 6; 80; 1; 1; 1; 4; 2; 2; 0; 0; 6; 14; 43; 52; 4; 1;
    1; 1; 1; 15; 66; 0; 2; 1; 2; 0; 0; 0; 65; 0; 2; 0; 0; 0; 8; 0; 0; 0; 0; 0; 0; 0; 0; 0; 0;
    0; 0; 0; 1; 1; 77; 231; 0; 32; 0; 0; 0; 0; 0; 1; 2; 66; 1; 72; 16; 0; 0; 0; 66; 1; 72;
    235; 0; 0; 0; 1; 3; 72; 0; 0; 0; 0; 72; 0; 0; 0; 0; 3] = true.
Proof. vm_compute; reflexivity. Qed.

(** tests/chunks/RGBA/rgba_02.chunk *)
Example sample_chunk_rgba_02 : conforms [82; 71; 66; 65] [
    2; 3; 1; 250; 1; 0; 0; 0; 249; 1; 0; 0; 1; 3; 72; 248; 1; 0; 0; 2; 3; 168; 93; 0; 0; 253;
    255; 1; 0; 0; 0; 0; 0; 0; 0; 6; 0; 2; 2; 56; 4; 0; 0; 128; 7; 0; 0; 56; 4; 0; 0; 128; 7;
    0; 0; 0; 0; 0; 0; 0; 0; 0; 0; 56; 4; 0; 0; 128; 7; 0; 0; 0; 0; 0; 0; 0; 0; 0; 0; 0; 0; 16;
    0; 0; 0; 9; 0; 0; 0; 8; 0; 0; 0; 42; 0; 0; 0; 0; 0; 0; 0; 0; 0; 0; 0; 1; 0; 192; 31; 0; 0;
    0; 0; 0; 69; 78; 79; 78; 81; 8; 0; 0; 0; 32; 0; 0; 1; 1; 69; 73; 73; 1; 2; 71; 0; 192; 31;
    0; 1; 3; 71; 0; 0; 0; 0; 1; 4; 71; 0; 0; 0; 0; 71; 0; 0; 0; 0; 1; 5; 71; 255; 255; 255;
    255; 1; 8; 71; 224; 252; 255; 255; 71; 1; 0; 0; 0; 71; 62; 254; 255; 255; 71; 1; 0; 0; 0;
    71; 64; 6; 0; 0; 71; 1; 0; 0; 0; 71; 132; 3; 0; 0; 71; 1; 0; 0; 0; 71; 224; 252; 255; 255;
    71; 1; 0; 0; 0; 71; 62; 254; 255; 255; 71; 1; 0; 0; 0; 71; 64; 6; 0; 0; 71; 1; 0; 0; 0;
    71; 132; 3; 0; 0; 71; 1; 0; 0; 0; 71; 224; 252; 255; 255; 71; 1; 0; 0; 0; 71; 62; 254;
    255; 255; 71; 1; 0; 0; 0; 71; 64; 6; 0; 0; 71; 1; 0; 0; 0; 71; 132; 3; 0; 0; 71; 1; 0; 0;
    0; 1; 15; 66; 0; 2; 1; 2; 0; 0; 0; 65; 0; 2; 0; 0; 0; 8; 0; 0; 0; 0; 0; 0; 0; 0; 0; 0; 0;
    0; 0; 1; 3; 72; 0; 0; 0; 0; 72; 0; 0; 0; 0; 3] = true.
Proof. vm_compute; reflexivity. Qed.

(** tests/chunks/RGBA/rgba_03.chunk *)
Example sample_chunk_rgba_03 : conforms [82; 71; 66; 65] [
    2; 3; 1; 78; 114; 9; 0; 0; 77; 114; 9; 0; 1; 3; 72; 76; 114; 9; 0; 2; 3; 168; 93; 0; 0;
    253; 255; 76; 0; 0; 0; 0; 0; 0; 0; 6; 0; 2; 2; 56; 4; 0; 0; 128; 7; 0; 0; 56; 4; 0; 0;
    128; 7; 0; 0; 0; 0; 0; 0; 0; 0; 0; 0; 56; 4; 0; 0; 128; 7; 0; 0; 0; 0; 0; 0; 0; 0; 0; 0;
    0; 0; 16; 0; 0; 0; 9; 0; 0; 0; 8; 0; 0; 0; 42; 0; 0; 0; 0; 0; 0; 0; 0; 0; 0; 0; 0; 0; 0;
    109; 9; 0; 0; 0; 0; 69; 78; 79; 78; 81; 8; 0; 0; 0; 32; 0; 0; 1; 1; 69; 73; 73; 1; 2; 71;
    0; 192; 31; 0; 1; 3; 71; 0; 0; 0; 0; 1; 4; 71; 0; 0; 0; 0; 71; 0; 0; 0; 0; 1; 5; 71; 255;
    255; 255; 255; 1; 8; 71; 224; 252; 255; 255; 71; 1; 0; 0; 0; 71; 62; 254; 255; 255; 71; 1;
    0; 0; 0; 71; 64; 6; 0; 0; 71; 1; 0; 0; 0; 71; 132; 3; 0; 0; 71; 1; 0; 0; 0; 71; 224; 252;
    255; 255; 71; 1; 0; 0; 0; 71; 62; 254; 255; 255; 71; 1; 0; 0; 0; 71; 64; 6; 0; 0; 71; 1;
    0; 0; 0; 71; 132; 3; 0; 0; 71; 1; 0; 0; 0; 71; 224; 252; 255; 255; 71; 1; 0; 0; 0; 71; 62;
    254; 255; 255; 71; 1; 0; 0; 0; 71; 64; 6; 0; 0; 71; 1; 0; 0; 0; 71; 132; 3; 0; 0; 71; 1;
    0; 0; 0; 1; 11; 80; 0; 0; 0; 0; 0; 0; 0; 0; 0; 0; 0; 0; 0; 0; 0; 0; 80; 1; 1; 1; 4; 2; 2;
    0; 0; 6; 14; 43; 52; 4; 1; 1; 1; 1; 15; 66; 0; 2; 1; 2; 0; 0; 0; 65; 0; 2; 0; 0; 0; 8; 0;
    0; 0; 0; 0; 0; 0; 0; 0; 0; 0; 0; 0; 1; 1; 77; 231; 0; 110; 9; 0; 0; 0; 0; 1; 3; 72; 0; 0;
    0; 0; 72; 0; 0; 0; 0; 3] = true.
Proof. vm_compute; reflexivity. Qed.

(** tests/chunks/RGBA/rgba_04.chunk *)
Example sample_chunk_rgba_04 : conforms [82; 71; 66; 65] [
    2; 3; 1; 82; 199; 0; 0; 0; 0; 0; 0; 0; 2; 3; 168; 93; 0; 0; 253; 255; 1; 0; 0; 0; 0; 0; 0;
    0; 6; 0; 2; 2; 56; 4; 0; 0; 128; 7; 0; 0; 56; 4; 0; 0; 128; 7; 0; 0; 0; 0; 0; 0; 0; 0; 0;
    0; 56; 4; 0; 0; 128; 7; 0; 0; 0; 0; 0; 0; 0; 0; 0; 0; 0; 0; 16; 0; 0; 0; 9; 0; 0; 0; 8; 0;
    0; 0; 42; 0; 0; 0; 0; 0; 0; 0; 0; 0; 0; 0; 1; 0; 192; 31; 0; 0; 0; 0; 0; 69; 78; 79; 78;
    81; 8; 0; 0; 0; 32; 0; 0; 1; 1; 69; 73; 73; 1; 2; 71; 0; 192; 31; 0; 1; 3; 71; 0; 0; 0; 0;
    1; 4; 71; 0; 0; 0; 0; 71; 0; 0; 0; 0; 1; 5; 71; 255; 255; 255; 255; 1; 8; 71; 224; 252;
    255; 255; 71; 1; 0; 0; 0; 71; 62; 254; 255; 255; 71; 1; 0; 0; 0; 71; 64; 6; 0; 0; 71; 1;
    0; 0; 0; 71; 132; 3; 0; 0; 71; 1; 0; 0; 0; 71; 224; 252; 255; 255; 71; 1; 0; 0; 0; 71; 62;
    254; 255; 255; 71; 1; 0; 0; 0; 71; 64; 6; 0; 0; 71; 1; 0; 0; 0; 71; 132; 3; 0; 0; 71; 1;
    0; 0; 0; 71; 224; 252; 255; 255; 71; 1; 0; 0; 0; 71; 62; 254; 255; 255; 71; 1; 0; 0; 0;
    71; 64; 6; 0; 0; 71; 1; 0; 0; 0; 71; 132; 3; 0; 0; 71; 1; 0; 0; 0; 1; 10; 80; 1; 1; 1; 4;
    2; 1; 0; 0; 6; 14; 43; 52; 4; 1; 1; 1; 1; 11; 80; 1; 1; 1; 4; 3; 3; 0; 0; 6; 14; 43; 52;
    4; 1; 1; 6; 80; 1; 1; 1; 4; 2; 2; 0; 0; 6; 14; 43; 52; 4; 1; 1; 1; 2; 1; 1; 0; 0; 0; 65;
    1; 0; 0; 0; 8; 0; 0; 0; 0; 0; 0; 0; 0; 0; 0; 0; 0; 1; 1; 77; 231; 0; 32; 0; 0; 0; 0; 0; 1;
    2; 66; 1; 72; 16; 0; 0; 0; 66; 1; 72; 235; 0; 0; 0; 1; 3; 72; 0; 0; 0; 0; 72; 0; 0; 0; 0;
    3] = true.
Proof. vm_compute; reflexivity. Qed.

(** tests/chunks/RGBA/rgba_05.chunk *)
Example sample_chunk_rgba_05 : conforms [82; 71; 66; 65] [
    2; 3; 1; 53; 0; 0; 0; 0; 52; 0; 0; 0; 1; 1; 65; 16; 0; 0; 0; 33; 137; 235; 96; 2; 42; 6;
    68; 137; 28; 217; 182; 166; 174; 6; 69; 1; 2; 65; 0; 2; 0; 0; 91; 0; 65; 0; 118; 0; 105;
    0; 100; 0; 32; 0; 84; 0; 101; 0; 99; 0; 104; 0; 110; 0; 111; 0; 108; 0; 111; 0; 103; 0;
    121; 0; 44; 0; 32; 0; 73; 0; 110; 0; 99; 0; 46; 0; 93; 0; 91; 0; 77; 0; 83; 0; 80; 0; 95;
    0; 77; 0; 88; 0; 70; 0; 32; 0; 80; 0; 108; 0; 117; 0; 103; 0; 45; 0; 73; 0; 110; 0; 93; 0;
    91; 0; 49; 0; 46; 0; 49; 0; 49; 0; 46; 0; 48; 0; 46; 0; 56; 0; 54; 0; 57; 0; 48; 0; 93; 0;
    91; 0; 71; 0; 101; 0; 110; 0; 101; 0; 114; 0; 105; 0; 99; 0; 77; 0; 88; 0; 70; 0; 77; 0;
    101; 0; 100; 0; 105; 0; 97; 0; 67; 0; 111; 0; 110; 0; 116; 0; 97; 0; 105; 0; 110; 0; 101;
    0; 114; 0; 93; 0; 0; 0; 0; 0; 0; 0; 0; 0; 0; 0; 0; 0; 0; 0; 0; 0; 0; 0; 0; 0; 0; 0; 0; 0;
    0; 0; 0; 0; 0; 0; 0; 0; 0; 0; 0; 0; 0; 0; 0; 0; 0; 0; 0; 0; 0; 0; 0; 0; 0; 0; 0; 0; 0; 0;
    0; 0; 0; 0; 0; 0; 0; 0; 0; 0; 0; 0; 0; 0; 0; 0; 0; 0; 0; 0; 0; 0; 0; 0; 0; 0; 0; 0; 0; 0;
    0; 0; 0; 0; 0; 0; 0; 0; 0; 0; 0; 0; 0; 0; 0; 0; 0; 0; 0; 0; 0; 0; 0; 0; 0; 0; 0; 0; 0; 0;
    0; 0; 0; 0; 0; 0; 0; 0; 0; 0; 0; 0; 0; 0; 0; 0; 0; 0; 0; 0; 0; 0; 0; 0; 0; 0; 0; 0; 0; 0;
    0; 0; 0; 0; 0; 0; 0; 0; 0; 0; 0; 0; 0; 0; 0; 0; 0; 0; 0; 0; 0; 0; 0; 0; 0; 0; 0; 0; 0; 0;
    0; 0; 0; 0; 0; 0; 0; 0; 0; 0; 0; 0; 0; 0; 0; 0; 0; 0; 0; 0; 0; 0; 0; 0; 0; 0; 0; 0; 0; 0;
    0; 0; 0; 0; 0; 0; 0; 0; 0; 0; 0; 0; 0; 0; 0; 0; 0; 0; 0; 0; 0; 0; 0; 0; 0; 0; 0; 0; 0; 0;
    0; 0; 0; 0; 0; 0; 0; 0; 0; 0; 0; 0; 0; 0; 0; 0; 0; 0; 0; 0; 0; 0; 0; 0; 0; 0; 0; 0; 0; 0;
    0; 0; 0; 0; 0; 0; 0; 0; 0; 0; 0; 0; 0; 0; 0; 0; 0; 0; 0; 0; 0; 0; 0; 0; 0; 0; 0; 0; 0; 0;
    0; 0; 0; 0; 0; 0; 0; 0; 0; 0; 0; 0; 0; 0; 0; 0; 0; 0; 0; 0; 0; 0; 0; 0; 0; 0; 0; 0; 0; 0;
    0; 0; 0; 0; 0; 0; 0; 0; 0; 0; 0; 0; 0; 0; 0; 0; 0; 0; 0; 0; 0; 0; 0; 0; 0; 0; 0; 0; 0; 0;
    1; 3; 72; 51; 0; 0; 0; 2; 3; 168; 93; 0; 0; 253; 255; 56; 73; 0; 0; 0; 0; 0; 0; 0; 0; 2;
    2; 64; 4; 0; 0; 128; 7; 0; 0; 56; 4; 0; 0; 128; 7; 0; 0; 0; 0; 0; 0; 0; 0; 0; 0; 56; 4; 0;
    0; 128; 7; 0; 0; 0; 0; 0; 0; 0; 0; 0; 0; 0; 0; 16; 0; 0; 0; 9; 0; 0; 0; 8; 0; 0; 0; 42; 0;
    0; 0; 0; 0; 0; 0; 0; 0; 0; 0; 0; 0; 0; 0; 0; 0; 0; 0; 0; 48; 48; 73; 82; 0; 0; 0; 0; 0; 0;
    0; 0; 1; 1; 69; 73; 73; 1; 2; 71; 0; 0; 0; 0; 1; 3; 71; 0; 0; 0; 0; 1; 4; 71; 0; 0; 0; 0;
    71; 0; 0; 0; 0; 1; 5; 71; 255; 255; 255; 255; 1; 8; 71; 224; 252; 255; 255; 71; 1; 0; 0;
    0; 71; 62; 254; 255; 255; 71; 1; 0; 0; 0; 71; 64; 6; 0; 0; 71; 1; 0; 0; 0; 71; 132; 3; 0;
    0; 71; 1; 0; 0; 0; 71; 224; 252; 255; 255; 71; 1; 0; 0; 0; 71; 62; 254; 255; 255; 71; 1;
    0; 0; 0; 71; 64; 6; 0; 0; 71; 1; 0; 0; 0; 71; 132; 3; 0; 0; 71; 1; 0; 0; 0; 71; 224; 252;
    255; 255; 71; 1; 0; 0; 0; 71; 62; 254; 255; 255; 71; 1; 0; 0; 0; 71; 64; 6; 0; 0; 71; 1;
    0; 0; 0; 71; 132; 3; 0; 0; 71; 1; 0; 0; 0; 1; 10; 80; 1; 0; 21; 14; 0; 2; 0; 0; 6; 14; 43;
    52; 4; 1; 1; 13; 1; 11; 80; 2; 0; 21; 14; 0; 2; 0; 0; 6; 14; 43; 52; 4; 1; 1; 13; 80; 0;
    0; 0; 0; 0; 0; 0; 0; 0; 0; 0; 0; 0; 0; 0; 0; 1; 12; 80; 2; 2; 1; 4; 50; 1; 1; 80; 6; 14;
    43; 52; 4; 1; 1; 13; 1; 14; 68; 2; 2; 1; 4; 0; 0; 0; 71; 66; 82; 0; 4; 0; 0; 0; 12; 12;
    12; 0; 0; 0; 0; 0; 0; 0; 0; 0; 0; 0; 0; 0; 1; 2; 66; 1; 72; 0; 0; 0; 0; 66; 1; 72; 255;
    15; 0; 0; 1; 3; 72; 0; 0; 0; 0; 72; 0; 0; 0; 0; 3] = true.
Proof. vm_compute; reflexivity. Qed.

(** tests/chunks/RSET/rset_01.chunk *)
Example sample_chunk_rset_01 : conforms [82; 83; 69; 84] [
    2; 3; 0; 0; 0; 0; 0; 0; 0; 0; 1; 0; 168; 93; 0; 0; 253; 255; 255; 255; 255; 255; 10; 2; 0;
    0; 0; 0; 0; 0; 0; 0; 0; 0; 1; 1; 72; 0; 0; 0; 0; 2; 8; 0; 61; 11; 0; 0; 0; 0; 0; 0; 1; 0;
    0; 0; 5; 0; 1; 0; 9; 2; 0; 0; 1; 1; 69; 0; 0; 2; 1; 1; 1; 71; 1; 0; 0; 0; 3] = true.
Proof. vm_compute; reflexivity. Qed.

(** tests/chunks/SHLP/shlp_01.chunk *)
Example sample_chunk_shlp_01 : conforms [83; 72; 76; 80] [
    2; 1; 90; 1; 0; 0; 88; 70; 90; 66; 0; 0; 0; 0; 1; 0; 0; 0; 4; 0; 0; 0; 159; 58; 0; 0; 0;
    0; 0; 0; 0; 0; 0; 0; 0; 1; 1; 4; 0; 0; 0; 0; 0; 0; 0; 0; 0; 89; 64; 0; 0; 0; 0; 0; 0; 20;
    64; 0; 0; 0; 0; 0; 0; 20; 64; 1; 0; 50; 0; 0; 0; 36; 0; 0; 0; 0; 0; 0; 0; 0; 0; 0; 0; 0;
    0; 0; 0; 0; 0; 0; 0; 0; 0; 0; 0; 0; 0; 0; 0; 0; 0; 0; 0; 0; 0; 0; 0; 0; 0; 0; 0; 0; 224;
    96; 64; 0; 0; 0; 0; 0; 0; 64; 64; 0; 0; 0; 0; 0; 0; 0; 0; 0; 0; 0; 0; 0; 0; 0; 235; 0; 0;
    0; 16; 0; 0; 0; 0; 0; 0; 0; 0; 235; 0; 0; 0; 16; 0; 0; 0; 0; 0; 0; 0; 0; 0; 0; 0; 0; 0; 0;
    0; 0; 0; 0; 0; 0; 0; 0; 0; 100; 0; 0; 0; 100; 0; 0; 0; 100; 0; 0; 0; 0; 1; 16; 0; 0; 0;
    16; 0; 0; 0; 16; 0; 0; 0; 16; 0; 0; 0; 16; 0; 0; 0; 16; 0; 0; 0; 255; 0; 0; 0; 255; 0; 0;
    0; 255; 0; 0; 0; 0; 255; 0; 0; 0; 255; 0; 0; 0; 127; 0; 0; 0; 32; 0; 0; 0; 32; 0; 0; 0; 0;
    0; 0; 0; 0; 0; 240; 63; 0; 0; 0; 0; 0; 0; 240; 63; 0; 0; 0; 0; 0; 0; 0; 0; 0; 0; 0; 0; 0;
    0; 0; 0; 0; 0; 0; 0; 1; 0; 0; 0; 0; 0; 0; 0; 161; 58; 0; 0; 1; 0; 1; 0; 0; 0; 109; 225;
    152; 3; 238; 89; 78; 192; 204; 204; 204; 204; 204; 24; 76; 64; 0; 0; 0; 0; 0; 0; 0; 0; 0;
    0; 0; 0; 0; 0; 0; 0; 0; 0; 0; 0; 0; 0; 0; 0; 0; 0; 0; 0; 0; 0; 0; 0; 3] = true.
Proof. vm_compute; reflexivity. Qed.

(** tests/chunks/SLCT/slct_01.chunk *)
Example sample_chunk_slct_01 : conforms [83; 76; 67; 84] [
    2; 3; 0; 0; 0; 0; 0; 0; 0; 0; 1; 0; 168; 93; 0; 0; 253; 255; 255; 255; 255; 255; 182; 160;
    6; 0; 0; 0; 0; 0; 0; 0; 0; 0; 1; 1; 72; 0; 0; 0; 0; 2; 8; 0; 172; 1; 0; 0; 0; 0; 0; 0; 2;
    0; 0; 0; 12; 0; 181; 160; 6; 0; 180; 160; 6; 0; 4; 0; 179; 160; 6; 0; 1; 1; 69; 0; 0; 69;
    0; 0; 2; 1; 1; 0; 0; 3] = true.
Proof. vm_compute; reflexivity. Qed.

(** tests/chunks/STRB/strb_01.chunk *)
Example sample_chunk_strb_01 : conforms [83; 84; 82; 66] [
    2; 3; 0; 0; 0; 0; 0; 0; 0; 0; 1; 0; 168; 93; 0; 0; 253; 255; 255; 255; 19; 0; 69; 70; 70;
    95; 84; 73; 77; 69; 87; 65; 82; 80; 46; 83; 84; 82; 79; 66; 69; 35; 28; 0; 0; 0; 0; 0; 0;
    34; 28; 0; 0; 1; 1; 72; 0; 0; 0; 0; 2; 8; 0; 72; 0; 0; 0; 0; 0; 0; 0; 1; 0; 0; 0; 5; 0; 1;
    0; 33; 28; 0; 0; 1; 1; 69; 0; 0; 2; 2; 0; 0; 0; 0; 2; 1; 5; 0; 0; 0; 3] = true.
Proof. vm_compute; reflexivity. Qed.

(** tests/chunks/TKDA/tkda_01.chunk *)
Example sample_chunk_tkda_01 : conforms [84; 75; 68; 65] [
    2; 1; 56; 0; 73; 73; 1; 0; 0; 0; 0; 0; 0; 0; 4; 0; 0; 0; 128; 7; 56; 4; 7; 0; 80; 111;
    105; 110; 116; 32; 65; 2; 0; 0; 0; 0; 255; 0; 246; 0; 105; 1; 1; 1; 255; 255; 255; 255;
    255; 255; 255; 255; 5; 0; 1; 254; 0; 0; 0; 0; 0; 0; 1; 0; 11; 0; 105; 13; 0; 0; 104; 13;
    0; 0; 103; 13; 0; 0; 102; 13; 0; 0; 101; 13; 0; 0; 100; 13; 0; 0; 99; 13; 0; 0; 98; 13; 0;
    0; 97; 13; 0; 0; 96; 13; 0; 0; 95; 13; 0; 0; 1; 1; 72; 1; 0; 0; 0; 1; 2; 72; 0; 0; 0; 0;
    1; 3; 72; 0; 0; 0; 0; 1; 4; 75; 0; 0; 0; 0; 0; 0; 224; 63; 1; 5; 72; 94; 13; 0; 0; 1; 6;
    72; 93; 13; 0; 0; 3] = true.
Proof. vm_compute; reflexivity. Qed.

(** tests/chunks/TKDS/tkds_01.chunk *)
Example sample_chunk_tkds_01 : conforms [84; 75; 68; 83] [
    2; 1; 1; 0; 0; 0; 159; 0; 0; 0; 1; 1; 66; 1; 3] = true.
Proof. vm_compute; reflexivity. Qed.

(** tests/chunks/TKPA/tkpa_01.chunk *)
Example sample_chunk_tkpa_01 : conforms [84; 75; 80; 65] [
    2; 1; 96; 0; 73; 73; 1; 0; 0; 0; 1; 0; 0; 0; 139; 0; 0; 0; 1; 0; 0; 0; 2; 0; 0; 0; 1; 0;
    0; 0; 1; 0; 0; 0; 0; 0; 0; 0; 0; 0; 0; 0; 1; 0; 0; 0; 0; 0; 0; 0; 0; 0; 0; 0; 0; 0; 0; 0;
    8; 0; 1; 0; 0; 0; 0; 0; 255; 255; 255; 255; 0; 255; 255; 255; 255; 0; 255; 255; 255; 255;
    0; 255; 255; 255; 255; 0; 255; 255; 255; 255; 0; 255; 255; 255; 255; 0; 255; 255; 255;
    255; 3] = true.
Proof. vm_compute; reflexivity. Qed.

(** tests/chunks/TKPS/tkps_01.chunk *)
Example sample_chunk_tkps_01 : conforms [84; 75; 80; 83] [
    2; 1; 34; 0; 73; 73; 1; 0; 0; 0; 0; 0; 0; 0; 0; 0; 0; 0; 46; 0; 0; 0; 255; 255; 255; 0; 0;
    0; 0; 0; 0; 0; 0; 0; 0; 0; 0; 0; 2; 0; 0; 0; 226; 28; 0; 0; 225; 28; 0; 0; 3] = true.
Proof. vm_compute; reflexivity. Qed.

(** tests/chunks/TMBC/tmbc_01.chunk *)
Example sample_chunk_tmbc_01 : conforms [84; 77; 66; 67] [
    2; 1; 0; 0; 0; 0; 0; 0; 0; 0; 0; 0; 0; 0; 1; 1; 65; 12; 0; 0; 0; 0; 0; 0; 0; 0; 0; 0; 0;
    0; 0; 0; 0; 68; 0; 68; 0; 68; 0; 68; 0; 72; 0; 0; 0; 0; 70; 0; 0; 70; 0; 0; 65; 8; 0; 0;
    0; 0; 0; 0; 0; 0; 0; 0; 0; 2; 3; 7; 0; 0; 0; 222; 3; 0; 0; 1; 0; 255; 161; 102; 47; 164;
    25; 1; 1; 66; 1; 3] = true.
Proof. vm_compute; reflexivity. Qed.

(** tests/chunks/TNFX/tnfx_01.chunk *)
Example sample_chunk_tnfx_01 : conforms [84; 78; 70; 88] [
    2; 3; 16; 154; 3; 0; 0; 0; 0; 0; 1; 0; 168; 93; 0; 0; 253; 255; 255; 255; 19; 0; 69; 70;
    70; 50; 95; 66; 76; 69; 78; 68; 95; 68; 73; 83; 83; 79; 76; 86; 69; 0; 0; 0; 0; 0; 0; 0;
    0; 15; 154; 3; 0; 1; 1; 72; 14; 154; 3; 0; 2; 8; 1; 4; 0; 0; 0; 0; 0; 0; 0; 2; 0; 0; 0; 0;
    0; 16; 0; 13; 154; 3; 0; 1; 1; 69; 0; 0; 69; 0; 0; 2; 1; 0; 0; 0; 0; 2; 5; 15; 0; 0; 0;
    15; 0; 0; 0; 2; 0; 0; 0; 0; 0; 0; 0; 0; 0; 1; 0; 1; 0; 0; 1; 12; 154; 3; 0; 0; 0; 1; 1;
    72; 0; 0; 0; 0; 3] = true.
Proof. vm_compute; reflexivity. Qed.

(** tests/chunks/TNFX/tnfx_02.chunk *)
Example sample_chunk_tnfx_02 : conforms [84; 78; 70; 88] [
    2; 3; 82; 175; 3; 0; 0; 0; 0; 0; 1; 0; 168; 93; 0; 0; 253; 255; 255; 255; 19; 0; 69; 70;
    70; 50; 95; 66; 76; 69; 78; 68; 95; 68; 73; 83; 83; 79; 76; 86; 69; 0; 0; 0; 0; 0; 0; 0;
    0; 81; 175; 3; 0; 1; 1; 72; 80; 175; 3; 0; 2; 8; 1; 24; 0; 0; 0; 0; 0; 0; 0; 2; 0; 0; 0;
    0; 0; 0; 0; 1; 1; 69; 0; 0; 69; 0; 0; 2; 1; 0; 0; 0; 0; 2; 5; 15; 0; 0; 0; 15; 0; 0; 0; 2;
    0; 0; 0; 0; 0; 0; 0; 0; 0; 1; 0; 1; 0; 0; 1; 79; 175; 3; 0; 0; 0; 1; 1; 72; 0; 0; 0; 0; 3] = true.
Proof. vm_compute; reflexivity. Qed.

(** tests/chunks/TNFX/tnfx_03.chunk *)
Example sample_chunk_tnfx_03 : conforms [84; 78; 70; 88] [
    2; 3; 193; 152; 3; 0; 0; 0; 0; 0; 1; 0; 168; 93; 0; 0; 253; 255; 255; 255; 19; 0; 69; 70;
    70; 50; 95; 66; 76; 69; 78; 68; 95; 68; 73; 83; 83; 79; 76; 86; 69; 0; 0; 0; 0; 0; 0; 0;
    0; 192; 152; 3; 0; 1; 1; 72; 191; 152; 3; 0; 2; 8; 1; 4; 0; 0; 0; 0; 0; 0; 0; 2; 0; 0; 0;
    16; 0; 190; 152; 3; 0; 16; 0; 189; 152; 3; 0; 1; 1; 69; 0; 0; 69; 0; 0; 2; 1; 0; 0; 0; 0;
    2; 5; 15; 0; 0; 0; 15; 0; 0; 0; 2; 0; 0; 0; 0; 0; 0; 0; 0; 0; 1; 0; 1; 0; 0; 1; 188; 152;
    3; 0; 0; 0; 1; 1; 72; 0; 0; 0; 0; 3] = true.
Proof. vm_compute; reflexivity. Qed.

(** tests/chunks/URLL/urll_01.chunk *)
Example sample_chunk_urll_01 : conforms [85; 82; 76; 76] [
    3] = true.
Proof. vm_compute; reflexivity. Qed.

(** tests/chunks/WINF/winf_01.chunk *)
Example sample_chunk_winf_01 : conforms [87; 73; 78; 70] [
    2; 2; 22; 0; 69; 47; 47; 68; 101; 115; 107; 116; 111; 112; 47; 99; 108; 105; 102; 102; 95;
    50; 46; 106; 112; 103; 1; 2; 76; 24; 0; 0; 0; 69; 47; 47; 68; 101; 115; 107; 116; 111;
    112; 47; 99; 108; 105; 102; 102; 95; 50; 46; 106; 112; 103; 3] = true.
Proof. vm_compute; reflexivity. Qed.
