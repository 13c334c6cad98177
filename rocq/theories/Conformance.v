(* GENERATED by tools/gen_conformance.py: the test vectors of /repo's own tests, which
   the model reproduces in both build modes.  These are tests of the model (the code
   itself cannot be run here), not proofs about it; no theorem depends on this file. *)
From Coq Require Import String Ascii.
From Verif Require Import Base HuffTables HuffAsset HuffModel HuffSpec HpackStatic HpackModel HpackSpec HpackApi ProtosModel ProtosSpec ProtosApi.
Open Scope list_scope. Open Scope N_scope.

Definition pair_eqb (a b : list N * list N) : bool := list_eqb (fst a) (fst b) && list_eqb (snd a) (snd b).
Definition is_okb {E A} (o : outcome E A) : bool := match o with Ok _ => true | _ => false end.
Definition modes : list mode := [Debug; Release].
Definition hexdigit (c : ascii) : N := let n := N_of_ascii c in if n <? 58 then n - 48 else n - 87.
Fixpoint unhex (s : string) : list N :=
  match s with
  | String a (String b s') => (16 * hexdigit a + hexdigit b) :: unhex s'
  | _ => []
  end.

(* huffman/src/decoder/mod.rs:126-384, valid_characters *)
Definition valid_characters : list (list N * list N) := [
  ([0], [255; 199]);
  ([1], [255; 255; 177]);
  ([2], [255; 255; 254; 47]);
  ([3], [255; 255; 254; 63]);
  ([4], [255; 255; 254; 79]);
  ([5], [255; 255; 254; 95]);
  ([6], [255; 255; 254; 111]);
  ([7], [255; 255; 254; 127]);
  ([8], [255; 255; 254; 143]);
  ([9], [255; 255; 234]);
  ([10], [255; 255; 255; 243]);
  ([11], [255; 255; 254; 159]);
  ([12], [255; 255; 254; 175]);
  ([13], [255; 255; 255; 247]);
  ([14], [255; 255; 254; 191]);
  ([15], [255; 255; 254; 207]);
  ([16], [255; 255; 254; 223]);
  ([17], [255; 255; 254; 239]);
  ([18], [255; 255; 254; 255]);
  ([19], [255; 255; 255; 15]);
  ([20], [255; 255; 255; 31]);
  ([21], [255; 255; 255; 47]);
  ([22], [255; 255; 255; 251]);
  ([23], [255; 255; 255; 63]);
  ([24], [255; 255; 255; 79]);
  ([25], [255; 255; 255; 95]);
  ([26], [255; 255; 255; 111]);
  ([27], [255; 255; 255; 127]);
  ([28], [255; 255; 255; 143]);
  ([29], [255; 255; 255; 159]);
  ([30], [255; 255; 255; 175]);
  ([31], [255; 255; 255; 191]);
  ([32], [83]);
  ([33], [254; 63]);
  ([34], [254; 127]);
  ([35], [255; 175]);
  ([36], [255; 207]);
  ([37], [87]);
  ([38], [248]);
  ([39], [255; 95]);
  ([40], [254; 191]);
  ([41], [254; 255]);
  ([42], [249]);
  ([43], [255; 127]);
  ([44], [250]);
  ([45], [91]);
  ([46], [95]);
  ([47], [99]);
  ([48], [7]);
  ([49], [15]);
  ([50], [23]);
  ([51], [103]);
  ([52], [107]);
  ([53], [111]);
  ([54], [115]);
  ([55], [119]);
  ([56], [123]);
  ([57], [127]);
  ([58], [185]);
  ([59], [251]);
  ([60], [255; 249]);
  ([61], [131]);
  ([62], [255; 191]);
  ([63], [255; 63]);
  ([64], [255; 215]);
  ([65], [135]);
  ([66], [187]);
  ([67], [189]);
  ([68], [191]);
  ([69], [193]);
  ([70], [195]);
  ([71], [197]);
  ([72], [199]);
  ([73], [201]);
  ([74], [203]);
  ([75], [205]);
  ([76], [207]);
  ([77], [209]);
  ([78], [211]);
  ([79], [213]);
  ([80], [215]);
  ([81], [217]);
  ([82], [219]);
  ([83], [221]);
  ([84], [223]);
  ([85], [225]);
  ([86], [227]);
  ([87], [229]);
  ([88], [252]);
  ([89], [231]);
  ([90], [253]);
  ([91], [255; 223]);
  ([92], [255; 254; 31]);
  ([93], [255; 231]);
  ([94], [255; 243]);
  ([95], [139]);
  ([96], [255; 251]);
  ([97], [31]);
  ([98], [143]);
  ([99], [39]);
  ([100], [147]);
  ([101], [47]);
  ([102], [151]);
  ([103], [155]);
  ([104], [159]);
  ([105], [55]);
  ([106], [233]);
  ([107], [235]);
  ([108], [163]);
  ([109], [167]);
  ([110], [171]);
  ([111], [63]);
  ([112], [175]);
  ([113], [237]);
  ([114], [179]);
  ([115], [71]);
  ([116], [79]);
  ([117], [183]);
  ([118], [239]);
  ([119], [241]);
  ([120], [243]);
  ([121], [245]);
  ([122], [247]);
  ([123], [255; 253]);
  ([124], [255; 159]);
  ([125], [255; 247]);
  ([126], [255; 239]);
  ([127], [255; 255; 255; 207]);
  ([128], [255; 254; 111]);
  ([129], [255; 255; 75]);
  ([130], [255; 254; 127]);
  ([131], [255; 254; 143]);
  ([132], [255; 255; 79]);
  ([133], [255; 255; 83]);
  ([134], [255; 255; 87]);
  ([135], [255; 255; 179]);
  ([136], [255; 255; 91]);
  ([137], [255; 255; 181]);
  ([138], [255; 255; 183]);
  ([139], [255; 255; 185]);
  ([140], [255; 255; 187]);
  ([141], [255; 255; 189]);
  ([142], [255; 255; 235]);
  ([143], [255; 255; 191]);
  ([144], [255; 255; 236]);
  ([145], [255; 255; 237]);
  ([146], [255; 255; 95]);
  ([147], [255; 255; 193]);
  ([148], [255; 255; 238]);
  ([149], [255; 255; 195]);
  ([150], [255; 255; 197]);
  ([151], [255; 255; 199]);
  ([152], [255; 255; 201]);
  ([153], [255; 254; 231]);
  ([154], [255; 255; 99]);
  ([155], [255; 255; 203]);
  ([156], [255; 255; 103]);
  ([157], [255; 255; 205]);
  ([158], [255; 255; 207]);
  ([159], [255; 255; 239]);
  ([160], [255; 255; 107]);
  ([161], [255; 254; 239]);
  ([162], [255; 254; 159]);
  ([163], [255; 255; 111]);
  ([164], [255; 255; 115]);
  ([165], [255; 255; 209]);
  ([166], [255; 255; 211]);
  ([167], [255; 254; 247]);
  ([168], [255; 255; 213]);
  ([169], [255; 255; 119]);
  ([170], [255; 255; 123]);
  ([171], [255; 255; 240]);
  ([172], [255; 254; 255]);
  ([173], [255; 255; 127]);
  ([174], [255; 255; 215]);
  ([175], [255; 255; 217]);
  ([176], [255; 255; 7]);
  ([177], [255; 255; 15]);
  ([178], [255; 255; 131]);
  ([179], [255; 255; 23]);
  ([180], [255; 255; 219]);
  ([181], [255; 255; 135]);
  ([182], [255; 255; 221]);
  ([183], [255; 255; 223]);
  ([184], [255; 254; 175]);
  ([185], [255; 255; 139]);
  ([186], [255; 255; 143]);
  ([187], [255; 255; 147]);
  ([188], [255; 255; 225]);
  ([189], [255; 255; 151]);
  ([190], [255; 255; 155]);
  ([191], [255; 255; 227]);
  ([192], [255; 255; 248; 63]);
  ([193], [255; 255; 248; 127]);
  ([194], [255; 254; 191]);
  ([195], [255; 254; 63]);
  ([196], [255; 255; 159]);
  ([197], [255; 255; 229]);
  ([198], [255; 255; 163]);
  ([199], [255; 255; 246; 127]);
  ([200], [255; 255; 248; 191]);
  ([201], [255; 255; 248; 255]);
  ([202], [255; 255; 249; 63]);
  ([203], [255; 255; 251; 223]);
  ([204], [255; 255; 251; 255]);
  ([205], [255; 255; 249; 127]);
  ([206], [255; 255; 241]);
  ([207], [255; 255; 246; 255]);
  ([208], [255; 254; 95]);
  ([209], [255; 255; 31]);
  ([210], [255; 255; 249; 191]);
  ([211], [255; 255; 252; 31]);
  ([212], [255; 255; 252; 63]);
  ([213], [255; 255; 249; 255]);
  ([214], [255; 255; 252; 95]);
  ([215], [255; 255; 242]);
  ([216], [255; 255; 39]);
  ([217], [255; 255; 47]);
  ([218], [255; 255; 250; 63]);
  ([219], [255; 255; 250; 127]);
  ([220], [255; 255; 255; 223]);
  ([221], [255; 255; 252; 127]);
  ([222], [255; 255; 252; 159]);
  ([223], [255; 255; 252; 191]);
  ([224], [255; 254; 207]);
  ([225], [255; 255; 243]);
  ([226], [255; 254; 223]);
  ([227], [255; 255; 55]);
  ([228], [255; 255; 167]);
  ([229], [255; 255; 63]);
  ([230], [255; 255; 71]);
  ([231], [255; 255; 231]);
  ([232], [255; 255; 171]);
  ([233], [255; 255; 175]);
  ([234], [255; 255; 247; 127]);
  ([235], [255; 255; 247; 255]);
  ([236], [255; 255; 244]);
  ([237], [255; 255; 245]);
  ([238], [255; 255; 250; 191]);
  ([239], [255; 255; 233]);
  ([240], [255; 255; 250; 255]);
  ([241], [255; 255; 252; 223]);
  ([242], [255; 255; 251; 63]);
  ([243], [255; 255; 251; 127]);
  ([244], [255; 255; 252; 255]);
  ([245], [255; 255; 253; 31]);
  ([246], [255; 255; 253; 63]);
  ([247], [255; 255; 253; 95]);
  ([248], [255; 255; 253; 127]);
  ([249], [255; 255; 255; 239]);
  ([250], [255; 255; 253; 159]);
  ([251], [255; 255; 253; 191]);
  ([252], [255; 255; 253; 223]);
  ([253], [255; 255; 253; 255]);
  ([254], [255; 255; 254; 31]);
  ([255], [255; 255; 251; 191])].
(* huffman/src/decoder/mod.rs:386-455, valid_literals *)
Definition valid_literals : list (list N * list N) := [
  ([58; 109; 101; 116; 104; 111; 100], [185; 73; 83; 57; 228]);
  ([58; 115; 99; 104; 101; 109; 101], [184; 130; 78; 90; 75]);
  ([58; 97; 117; 116; 104; 111; 114; 105; 116; 121], [184; 59; 83; 57; 236; 50; 125; 127]);
  ([110; 105; 98; 98; 115; 116; 97; 99; 107; 46; 99; 111; 109], [168; 209; 198; 132; 140; 157; 87; 33; 233]);
  ([71; 69; 84], [197; 131; 127]);
  ([104; 116; 116; 112], [157; 41; 175]);
  ([58; 112; 97; 116; 104], [185; 88; 211; 63]);
  ([47; 105; 109; 97; 103; 101; 115; 47; 116; 111; 112; 47; 115; 112; 50; 47; 99; 109; 110; 47; 108; 111; 103; 111; 45; 110; 115; 45; 49; 51; 48; 53; 50; 56; 46; 112; 110; 103], [96; 212; 142; 98; 161; 132; 158; 182; 17; 88; 152; 37; 53; 49; 65; 230; 58; 213; 33; 96; 178; 6; 196; 242; 245; 213; 55]);
  ([104; 112; 97; 99; 107; 45; 116; 101; 115; 116], [158; 177; 147; 170; 201; 42; 19]);
  ([120; 120; 120; 120; 120; 120; 120; 49], [243; 231; 207; 159; 62; 124; 135]);
  ([77; 111; 122; 105; 108; 108; 97; 47; 53; 46; 48; 32; 40; 77; 97; 99; 105; 110; 116; 111; 115; 104; 59; 32; 73; 110; 116; 101; 108; 32; 77; 97; 99; 32; 79; 83; 32; 88; 32; 49; 48; 46; 56; 59; 32; 114; 118; 58; 49; 54; 46; 48; 41; 32; 71; 101; 99; 107; 111; 47; 50; 48; 49; 48; 48; 49; 48; 49; 32; 70; 105; 114; 101; 102; 111; 120; 47; 49; 54; 46; 48], [208; 127; 102; 162; 129; 176; 218; 224; 83; 250; 208; 50; 26; 164; 157; 19; 253; 169; 146; 164; 150; 133; 52; 12; 138; 106; 220; 167; 226; 129; 2; 239; 125; 169; 103; 123; 129; 113; 112; 127; 106; 98; 41; 58; 157; 129; 0; 32; 0; 64; 21; 48; 154; 194; 202; 127; 44; 5; 197; 193]);
  ([97; 99; 99; 101; 112; 116], [25; 8; 90; 211]);
  ([65; 99; 99; 101; 112; 116], [132; 132; 45; 105]);
  ([116; 101; 120; 116; 47; 104; 116; 109; 108; 44; 97; 112; 112; 108; 105; 99; 97; 116; 105; 111; 110; 47; 120; 104; 116; 109; 108; 43; 120; 109; 108; 44; 97; 112; 112; 108; 105; 99; 97; 116; 105; 111; 110; 47; 120; 109; 108; 59; 113; 61; 48; 46; 57; 44; 42; 47; 42; 59; 113; 61; 48; 46; 56], [73; 124; 165; 137; 211; 77; 31; 67; 174; 186; 12; 65; 164; 199; 169; 143; 51; 166; 154; 63; 223; 154; 104; 250; 29; 117; 208; 98; 13; 38; 61; 76; 121; 166; 143; 190; 208; 1; 119; 254; 190; 88; 249; 251; 237; 0; 23; 123]);
  ([99; 111; 111; 107; 105; 101], [33; 207; 212; 197]);
  ([66; 61; 49; 49; 50; 51; 49; 50; 53; 50; 122; 100; 102; 38; 98; 61; 51; 38; 115; 61; 48; 98], [187; 0; 66; 38; 66; 38; 197; 238; 73; 126; 35; 129; 159; 132; 64; 8; 255]);
  ([84; 69], [223; 131]);
  ([76; 111; 114; 101; 109; 32; 105; 112; 115; 117; 109; 32; 100; 111; 108; 111; 114; 32; 115; 105; 116; 32; 97; 109; 101; 116; 44; 32; 99; 111; 110; 115; 101; 99; 116; 101; 116; 117; 114; 32; 97; 100; 105; 112; 105; 115; 99; 105; 110; 103; 32; 101; 108; 105; 116; 46; 32; 77; 111; 114; 98; 105; 32; 110; 111; 110; 32; 98; 105; 98; 101; 110; 100; 117; 109; 32; 108; 105; 98; 101; 114; 111; 46; 32; 69; 116; 105; 97; 109; 32; 117; 108; 116; 114; 105; 99; 101; 115; 32; 108; 111; 114; 101; 109; 32; 117; 116; 46], [206; 123; 11; 74; 134; 173; 22; 210; 164; 135; 160; 246; 40; 131; 37; 65; 210; 84; 253; 40; 67; 212; 130; 145; 37; 77; 182; 40; 57; 13; 89; 144; 67; 85; 50; 133; 160; 201; 93; 77; 7; 178; 51; 41; 81; 234; 82; 51; 70; 90; 164; 182; 149; 40; 52; 101; 176; 235; 169; 129; 38; 29; 42; 91; 66; 108; 49; 10; 133; 40; 61; 133; 165; 75; 82; 191]);
  ([33; 36; 37; 38; 65], [254; 63; 242; 175; 196; 63]);
  ([0; 0; 0], [255; 199; 254; 63; 241]);
  ([0; 1; 2; 3; 4; 5], [255; 199; 255; 253; 143; 255; 255; 226; 255; 255; 254; 63; 255; 255; 228; 255; 255; 254; 95]);
  ([255; 248], [255; 255; 251; 191; 255; 255; 95])].
(* huffman/src/decoder/mod.rs:457-469, invalid_encodings *)
Definition invalid_encodings : list (list N) := [
  [0; 23; 122];
  [73; 124; 165; 137; 211; 77; 31; 67; 174; 186; 12; 65; 164; 199; 169; 143; 51; 166; 154; 63; 223; 154; 104; 250; 29; 117; 208; 98; 13; 38; 61; 76; 121; 166; 143; 190; 208; 1; 119; 254; 190; 88; 249; 251; 237; 0; 23; 122];
  [255; 255];
  [31; 255; 255; 255; 224];
  [255; 159; 255; 255; 255; 128];
  [255; 63; 255; 255; 255];
  [255; 255; 255; 252];
  [255; 63; 255; 255; 255; 0];
  [255; 255; 255; 252; 0]].

(* huffman/src/decoder/mod.rs, decodes_characters and decodes_literals *)
Example decodes_valid : forallb (fun m => forallb (fun s => forallb (fun dc =>
    match decode m s (snd dc) [] with (d, Ok _) => list_eqb d (fst dc) | _ => false end)
    (valid_characters ++ valid_literals)) known_speeds) modes = true.
Proof. vm_compute. reflexivity. Qed.
Example decodes_invalid : forallb (fun m => forallb (fun s => forallb (fun c =>
    match decode m s c [] with (_, Err InvalidInput) => true | _ => false end)
    invalid_encodings) known_speeds) modes = true.
Proof. vm_compute. reflexivity. Qed.
(* The same vectors are what encode writes. *)
Example encodes_valid : forallb (fun m => forallb (fun dc =>
    match encode m (fst dc) [] with (d, Ok _) => list_eqb d (snd dc) | _ => false end)
    (valid_characters ++ valid_literals)) modes = true.
Proof. vm_compute. reflexivity. Qed.

(* huffman/src/encoder/mod.rs:154-271, encodes_bytes: one call per character, one buffer *)
Definition encode_all (m : mode) (l : list (list N)) : list N :=
  fold_left (fun dst s => fst (encode m s dst)) l [].
Example encodes_bytes : forall m, encode_all m [[32]; [33]; [34]; [35]; [36]; [37]; [38]; [39]; [40]; [41]; [42]; [43]; [44]; [45]; [46]; [47]; [48]; [49]; [50]; [51]; [52]; [53]; [54]; [55]; [56]; [57]; [58]; [59]; [60]; [61]; [62]; [63]; [64]; [65]; [66]; [67]; [68]; [69]; [70]; [71]; [72]; [73]; [74]; [75]; [76]; [77]; [78]; [79]; [80]; [81]; [82]; [83]; [84]; [85]; [86]; [87]; [88]; [89]; [90]; [91]; [92]; [93]; [94]; [95]; [96]; [97]; [98]; [99]; [100]; [101]; [102]; [103]; [104]; [105]; [106]; [107]; [108]; [109]; [110]; [111]; [112]; [113]; [114]; [115]; [116]; [117]; [118]; [119]; [120]; [121]; [122]; [123]; [124]; [125]; [126]]
  = [83; 254; 63; 254; 127; 255; 175; 255; 207; 87; 248; 255; 95; 254; 191; 254; 255; 249; 255; 127; 250; 91; 95; 99; 7; 15; 23; 103; 107; 111; 115; 119; 123; 127; 185; 251; 255; 249; 131; 255; 191; 255; 63; 255; 215; 135; 187; 189; 191; 193; 195; 197; 199; 201; 203; 205; 207; 209; 211; 213; 215; 217; 219; 221; 223; 225; 227; 229; 252; 231; 253; 255; 223; 255; 254; 31; 255; 231; 255; 243; 139; 255; 251; 31; 143; 39; 147; 47; 151; 155; 159; 55; 233; 235; 163; 167; 171; 63; 175; 237; 179; 71; 79; 183; 239; 241; 243; 245; 247; 255; 253; 255; 159; 255; 247; 255; 239].
Proof. intros []; vm_compute; reflexivity. Qed.
Example encodes_hello : forall m, encode m [72; 101; 108; 108; 111; 32; 119; 111; 114; 108; 100; 33] [] = ([198; 90; 40; 58; 158; 15; 101; 18; 127; 31], Ok tt).
Proof. intros []; vm_compute; reflexivity. Qed.

(* huffman/src/flattener/mod.rs:240-337 *)
Definition sample_encoding_table : list (N * N) :=
  [(13, 0x1ff8); (23, 0x7fffd8); (28, 0xfffffe2); (28, 0xfffffe3); (28, 0xfffffe4);
   (28, 0xfffffe5); (28, 0xfffffe6); (28, 0xfffffe7); (28, 0xfffffe8)].
Definition flat_is (s : speed) (len row col : nat) (c : cell) : Prop := forall m,
  match flatten m sample_encoding_table s with
  | Ok t => List.length t = len /\ nth_error (nth row t []) col = Some c
  | _ => False
  end.
Example flattens_1bits : flat_is OneBit 41 2 1 (Some 3, None, 0).
Proof. intros []; vm_compute; split; reflexivity. Qed.
Example flattens_2bits : flat_is TwoBits 20 1 3 (Some 2, None, 0).
Proof. intros []; vm_compute; split; reflexivity. Qed.
Example flattens_3bits : flat_is ThreeBits 16 1 7 (Some 2, None, 0).
Proof. intros []; vm_compute; split; reflexivity. Qed.
Example flattens_4bits : flat_is FourBits 9 1 15 (Some 2, None, 0).
Proof. intros []; vm_compute; split; reflexivity. Qed.
Example flattens_5bits : flat_is FiveBits 8 1 31 (Some 2, None, 0).
Proof. intros []; vm_compute; split; reflexivity. Qed.
Example generates_coding_paths : forall m,
  generate_coding_paths m (14, 12345) 4 = Ok [[12; 0; 14; 4]; [12; 0; 14; 5]; [12; 0; 14; 6]; [12; 0; 14; 7]] /\
  generate_coding_paths m (13, 2616) 4 = Ok [[5; 1; 12; 0]; [5; 1; 12; 1]; [5; 1; 12; 2]; [5; 1; 12; 3];
    [5; 1; 12; 4]; [5; 1; 12; 5]; [5; 1; 12; 6]; [5; 1; 12; 7]].
Proof. intros []; vm_compute; split; reflexivity. Qed.

(* huffman/src/parser/mod.rs:73-92 *)
Example parses_huffman_table : forall old,
  match parse old asset_text with
  | Ok t => List.length t = 257%nat /\ nth_error t 10 = Some (30, 0x3ffffffc) /\
      nth_error t 32 = Some (6, 0x14) /\ nth_error t 256 = Some (30, 0x3fffffff)
  | _ => False
  end.
Proof. intros []; vm_compute; repeat split. Qed.

(* ------------------------------------------------------------------ *)
(* hpack/src/encoder/primitives.rs:114-162 *)
Example encodes_integer : forallb (fun x => let '(v, f, p, r) := x in
    match encode_integer v f p [] with (d, Ok _) => list_eqb d r | _ => false end)
  [(10, 0, 5, [10]); (1337, 0, 5, [31; 154; 10]); (42, 0, 8, [42]); (127, 0, 7, [127; 0]);
   (255, 0, 8, [255; 0]); (254, 0, 8, [254]); (1, 0, 8, [1]); (0, 0, 8, [0]); (255, 0, 7, [127; 128; 1]);
   (10, 128, 5, [138]); (10, 64, 5, [74]); (10, 16, 5, [10]); (1337, 64, 5, [95; 154; 10])] = true.
Proof. vm_compute. reflexivity. Qed.
Example encodes_string : forall m,
  encode_string m (octets "foo") false [] = ([3; 102; 111; 111], Ok tt) /\
  encode_string m (octets "foo") true [] = ([130; 148; 231], Ok tt).
Proof. intros []; vm_compute; split; reflexivity. Qed.
(* hpack/src/decoder/primitives.rs:128-175 *)
Example decodes_integer : forallb (fun x => let '(b, p, r, n) := x in
    match decode_integer b p with Ok (v, k) => (v =? r) && (k =? n) | _ => false end)
  [([10], 5, 10, 1); ([31; 154; 10], 5, 1337, 3); ([63; 154; 10], 5, 1337, 3); ([95; 154; 10], 5, 1337, 3);
   ([31; 154; 10; 111; 22], 5, 1337, 3); ([42], 8, 42, 1); ([127; 0], 7, 127, 2); ([255; 0], 7, 127, 2);
   ([254], 8, 254, 1); ([1], 8, 1, 1); ([0], 8, 0, 1); ([127; 128; 1], 7, 255, 3);
   ([255; 255; 255; 255; 127], 8, 268435710, 5)] = true.
Proof. vm_compute. reflexivity. Qed.
Example decodes_string : forall m,
  decode_string m FourBits [3; 102; 111; 111] = Ok (octets "foo", 4) /\
  decode_string m FourBits [130; 148; 231] = Ok (octets "foo", 3).
Proof. intros []; vm_compute; split; reflexivity. Qed.

(* hpack/src/table/dynamic.rs:110-170, hpack/src/table/mod.rs:197-274 *)
Definition ins (m : mode) (t : table) (n v : string) : table :=
  match @table_insert enc_error m t (octets n) (octets v) with Ok t' => t' | _ => table_with_size 0 end.
Example inserts_new_headers : forall m,
  let t0 := table_default in let t1 := ins m t0 "a0" "b0" in let t2 := ins m t1 "a1" "b1" in
  (table_len t0, table_dynamic_len t0, table_dynamic_size t0) = (61, 0, 0) /\
  (table_len t1, table_dynamic_len t1, table_dynamic_size t1) = (62, 1, 36) /\
  (table_len t2, table_dynamic_len t2, table_dynamic_size t2) = (63, 2, 72) /\
  table_get t2 62 = Some (octets "a1", octets "b1") /\ table_get t2 63 = Some (octets "a0", octets "b0").
Proof. intros []; vm_compute; repeat split. Qed.
Example evicts_headers_on_insert : forall m,
  let t1 := ins m (table_with_size 36) "a0" "b0" in let t2 := ins m t1 "a1" "b1" in let t3 := ins m t2 "big" "big" in
  (table_dynamic_len t1, table_dynamic_size t1) = (1, 36) /\ (table_dynamic_len t2, table_dynamic_size t2) = (1, 36) /\
  (table_dynamic_len t3, table_dynamic_size t3) = (0, 0).
Proof. intros []; vm_compute; repeat split. Qed.
Example evicts_headers_on_size_update : forall m,
  let t := ins m (ins m (ins m (table_with_size 108) "a0" "b0") "a1" "b1") "a2" "b2" in
  (table_dynamic_len t, table_dynamic_size t) = (3, 108) /\
  @table_update_max enc_error m t 40 = Ok (mkDyn [(octets "a2", octets "b2")] 36 40).
Proof. intros []; vm_compute; repeat split. Qed.
Example iters_through_all_headers : forall m,
  match @table_iter enc_error m (ins m table_default "a0" "b0") with
  | Ok l => List.length l = 62%nat /\ last l ([], []) = (octets "a0", octets "b0")
  | _ => False
  end.
Proof. intros []; vm_compute; split; reflexivity. Qed.
Example find_header_by_index : forall m, let t := ins m table_default "a0" "b0" in
  table_get t 0 = None /\ table_get t 1 = Some (octets ":authority", []) /\
  table_get t 2 = Some (octets ":method", octets "GET") /\
  table_get t 61 = Some (octets "www-authenticate", []) /\ table_get t 62 = Some (octets "a0", octets "b0").
Proof. intros []; vm_compute; repeat split. Qed.
Example find_header_match : forall m, let t := ins m (ins m table_default "a" "b") "a" "c" in
  let find n v := @table_find enc_error m t (octets n) (octets v) in
  find ":method" "POST" = Ok (Some (3, true)) /\ find "a" "b" = Ok (Some (63, true)) /\
  find ":method" "DELETE" = Ok (Some (2, false)) /\ find "a" "x" = Ok (Some (62, false)) /\
  find "x" "x" = Ok None.
Proof. intros []; vm_compute; repeat split. Qed.

(* hpack/src/encoder/mod.rs:411-583 *)
Example encodes_indexed : forall m, let t := ins m encoder_default "name62" "value62" in
  forallb (fun i => match hencode m t (Indexed i) [] with ((_, d), Ok _) => list_eqb d [128 + i] | _ => false end)
    [2; 3; 14; 62] = true.
Proof. intros []; vm_compute; reflexivity. Qed.
Example encodes_indexed_name_with_indexing : forall m,
  match hencode m encoder_default (IndexedName 2 (octets "PATCH") 6) [] with
  | ((t, d), Ok _) => N.land (nth 0 d 0) 64 = 64 /\ N.land (nth 1 d 0) 128 = 128 /\
      skipn 2 d = [215; 14; 251; 216; 255] /\ table_len t = 62 /\
      table_get t 62 = Some (octets ":method", octets "PATCH")
  | _ => False
  end.
Proof. intros []; vm_compute; repeat split. Qed.
Example encodes_literal_with_indexing : forall m,
  match hencode m encoder_default (Literal (octets "foo") (octets "bar") 7) [] with
  | ((t, d), Ok _) => d = [64; 130; 148; 231; 131; 140; 118; 127] /\ table_len t = 62 /\
      table_get t 62 = Some (octets "foo", octets "bar")
  | _ => False
  end.
Proof. intros []; vm_compute; repeat split. Qed.
Example encodes_other_literals : forall m,
  hencode m encoder_default (IndexedName 13 (octets "PATCH") 0) [] =
    ((encoder_default, [13; 5; 80; 65; 84; 67; 72]), Ok tt) /\
  hencode m encoder_default (Literal (octets "foo") (octets "bar") 1) [] =
    ((encoder_default, [0; 130; 148; 231; 3; 98; 97; 114]), Ok tt) /\
  hencode m encoder_default (IndexedName 13 (octets "PATCH") 8) [] =
    ((encoder_default, [29; 5; 80; 65; 84; 67; 72]), Ok tt) /\
  hencode m encoder_default (Literal (octets "foo") (octets "bar") 8) [] =
    ((encoder_default, [16; 3; 102; 111; 111; 3; 98; 97; 114]), Ok tt).
Proof. intros []; vm_compute; repeat split. Qed.
Example encodes_literal_automatically : forall m,
  let '(t, d, rs) := run_ops m encoder_default [] [Send (Literal (octets ":method") (octets "GET") 16);
    Send (Literal (octets ":method") (octets "DELETE") 20); Send (Literal (octets "a") (octets "b") 17)] in
  d = [130] ++ [66; 6; 68; 69; 76; 69; 84; 69] ++ [0; 129; 31; 1; 98] /\ table_len t = 62 /\ rs = [Ok tt; Ok tt; Ok tt].
Proof. intros []; vm_compute; repeat split. Qed.
Example updates_max_dynamic_size : forall m,
  let t := ins m (ins m (encoder_with_dynamic_size 70) "a" "a") "b" "b" in
  match encoder_update_max m t 50 [] with
  | ((t', d), Ok _) => d = [63; 19] /\ table_dynamic_len t' = 1
  | _ => False
  end.
Proof. intros []; vm_compute; repeat split. Qed.

(* hpack/src/decoder/mod.rs:401-594 *)
Definition decoded (m : mode) (buf : list N) (hs : list (string * string * N)) (len : N) : Prop :=
  match hdecode m decoder_default buf [] with
  | ((d, rest, dst), Ok _) => rest = [] /\ table_len (dtable d) = len /\
      dst = map (fun h => (octets (fst (fst h)), octets (snd (fst h)), snd h)) hs
  | _ => False
  end.
Example decodes_representations : forall m,
  decoded m [130; 142] [(":method", "GET", 0); (":status", "500", 0)]%string 61 /\
  decoded m [66; 133; 215; 14; 251; 216; 255; 78; 130; 108; 1]
    [(":method", "PATCH", 4); (":status", "501", 4)]%string 63 /\
  decoded m [64; 131; 148; 231; 7; 131; 148; 231; 15; 64; 131; 140; 118; 3; 131; 140; 118; 7]
    [("foo0", "foo1", 4); ("bar0", "bar1", 4)]%string 63 /\
  decoded m [2; 5; 80; 65; 84; 67; 72; 14; 130; 108; 1]
    [(":method", "PATCH", 0); (":status", "501", 0)]%string 61 /\
  decoded m [0; 4; 102; 111; 111; 48; 4; 98; 97; 114; 48; 0; 131; 148; 231; 15; 131; 140; 118; 7]
    [("foo0", "bar0", 0); ("foo1", "bar1", 0)]%string 61 /\
  decoded m [18; 5; 80; 65; 84; 67; 72; 30; 130; 108; 1]
    [(":method", "PATCH", 8); (":status", "501", 8)]%string 61 /\
  decoded m [16; 4; 102; 111; 111; 48; 4; 98; 97; 114; 48; 16; 4; 102; 111; 111; 49; 4; 98; 97; 114; 49]
    [("foo0", "bar0", 8); ("foo1", "bar1", 8)]%string 61.
Proof. intros []; vm_compute; repeat split. Qed.
Example decodes_exact : forall m,
  match hdecode_exact m 1 decoder_default [130; 142] [] with
  | ((_, _, dst), Ok _) => List.length dst = 1%nat
  | _ => False
  end.
Proof. intros []; vm_compute; reflexivity. Qed.
Example decodes_max_dynamic_size : forall m,
  let t := ins m (ins m (table_with_size 70) "a" "a") "b" "b" in
  match hdecode m (set_table (decoder_with_dynamic_size 70) t) [63; 19] [] with
  | ((d, _, dst), Ok _) => dst = [] /\ decoder_max_dynamic_size d = 50 /\ table_dynamic_len (dtable d) = 1
  | _ => False
  end.
Proof. intros []; vm_compute; repeat split. Qed.
Example decodes_incomplete_block : forall m,
  match hdecode m decoder_default [16; 4; 102; 111; 111; 48; 4; 98; 97; 114; 48; 16; 4; 102; 111; 111] [] with
  | ((_, rest, dst), Err _) => List.length dst = 1%nat /\ rest = [16; 4; 102; 111; 111]
  | _ => False
  end.
Proof. intros []; vm_compute; split; reflexivity. Qed.

(* hpack/tests/specs.rs: RFC 7541 C.3 to C.6.  A session is a list of blocks (fields, wire). *)
Fixpoint session (m : mode) (t : table) (d : decoder) (blocks : list (list (list N * list N * N) * list N)) : bool :=
  match blocks with
  | [] => true
  | (fields, wire) :: more =>
      let '(t', out, rs) := run_ops m t [] (map (fun h => Send (Literal (fst (fst h)) (snd (fst h)) (snd h))) fields) in
      match hdecode m d wire [] with
      | ((d', [], hs), Ok _) =>
          list_eqb out wire && forallb is_okb rs && Nat.eqb (List.length hs) (List.length fields) &&
          forallb (fun x => pair_eqb (fst (fst x)) (fst (snd x))) (combine hs fields) && session m t' d' more
      | _ => false
      end
  end.

Definition spec3 : list (list (list N * list N * N) * list N) := [
  ([([58; 109; 101; 116; 104; 111; 100], [71; 69; 84], 20); ([58; 115; 99; 104; 101; 109; 101], [104; 116; 116; 112], 20); ([58; 112; 97; 116; 104], [47], 20); ([58; 97; 117; 116; 104; 111; 114; 105; 116; 121], [119; 119; 119; 46; 101; 120; 97; 109; 112; 108; 101; 46; 99; 111; 109], 20)],
   [130; 134; 132; 65; 15; 119; 119; 119; 46; 101; 120; 97; 109; 112; 108; 101; 46; 99; 111; 109]);
  ([([58; 109; 101; 116; 104; 111; 100], [71; 69; 84], 20); ([58; 115; 99; 104; 101; 109; 101], [104; 116; 116; 112], 20); ([58; 112; 97; 116; 104], [47], 20); ([58; 97; 117; 116; 104; 111; 114; 105; 116; 121], [119; 119; 119; 46; 101; 120; 97; 109; 112; 108; 101; 46; 99; 111; 109], 20); ([99; 97; 99; 104; 101; 45; 99; 111; 110; 116; 114; 111; 108], [110; 111; 45; 99; 97; 99; 104; 101], 20)],
   [130; 134; 132; 190; 88; 8; 110; 111; 45; 99; 97; 99; 104; 101]);
  ([([58; 109; 101; 116; 104; 111; 100], [71; 69; 84], 20); ([58; 115; 99; 104; 101; 109; 101], [104; 116; 116; 112; 115], 20); ([58; 112; 97; 116; 104], [47; 105; 110; 100; 101; 120; 46; 104; 116; 109; 108], 20); ([58; 97; 117; 116; 104; 111; 114; 105; 116; 121], [119; 119; 119; 46; 101; 120; 97; 109; 112; 108; 101; 46; 99; 111; 109], 20); ([99; 117; 115; 116; 111; 109; 45; 107; 101; 121], [99; 117; 115; 116; 111; 109; 45; 118; 97; 108; 117; 101], 20)],
   [130; 135; 133; 191; 64; 10; 99; 117; 115; 116; 111; 109; 45; 107; 101; 121; 12; 99; 117; 115; 116; 111; 109; 45; 118; 97; 108; 117; 101])].
Definition spec4 : list (list (list N * list N * N) * list N) := [
  ([([58; 109; 101; 116; 104; 111; 100], [71; 69; 84], 23); ([58; 115; 99; 104; 101; 109; 101], [104; 116; 116; 112], 23); ([58; 112; 97; 116; 104], [47], 23); ([58; 97; 117; 116; 104; 111; 114; 105; 116; 121], [119; 119; 119; 46; 101; 120; 97; 109; 112; 108; 101; 46; 99; 111; 109], 23)],
   [130; 134; 132; 65; 140; 241; 227; 194; 229; 242; 58; 107; 160; 171; 144; 244; 255]);
  ([([58; 109; 101; 116; 104; 111; 100], [71; 69; 84], 23); ([58; 115; 99; 104; 101; 109; 101], [104; 116; 116; 112], 23); ([58; 112; 97; 116; 104], [47], 23); ([58; 97; 117; 116; 104; 111; 114; 105; 116; 121], [119; 119; 119; 46; 101; 120; 97; 109; 112; 108; 101; 46; 99; 111; 109], 23); ([99; 97; 99; 104; 101; 45; 99; 111; 110; 116; 114; 111; 108], [110; 111; 45; 99; 97; 99; 104; 101], 23)],
   [130; 134; 132; 190; 88; 134; 168; 235; 16; 100; 156; 191]);
  ([([58; 109; 101; 116; 104; 111; 100], [71; 69; 84], 23); ([58; 115; 99; 104; 101; 109; 101], [104; 116; 116; 112; 115], 23); ([58; 112; 97; 116; 104], [47; 105; 110; 100; 101; 120; 46; 104; 116; 109; 108], 23); ([58; 97; 117; 116; 104; 111; 114; 105; 116; 121], [119; 119; 119; 46; 101; 120; 97; 109; 112; 108; 101; 46; 99; 111; 109], 23); ([99; 117; 115; 116; 111; 109; 45; 107; 101; 121], [99; 117; 115; 116; 111; 109; 45; 118; 97; 108; 117; 101], 23)],
   [130; 135; 133; 191; 64; 136; 37; 168; 73; 233; 91; 169; 125; 127; 137; 37; 168; 73; 233; 91; 184; 232; 180; 191])].
Definition spec5 : list (list (list N * list N * N) * list N) := [
  ([([58; 115; 116; 97; 116; 117; 115], [51; 48; 50], 20); ([99; 97; 99; 104; 101; 45; 99; 111; 110; 116; 114; 111; 108], [112; 114; 105; 118; 97; 116; 101], 20); ([100; 97; 116; 101], [77; 111; 110; 44; 32; 50; 49; 32; 79; 99; 116; 32; 50; 48; 49; 51; 32; 50; 48; 58; 49; 51; 58; 50; 49; 32; 71; 77; 84], 20); ([108; 111; 99; 97; 116; 105; 111; 110], [104; 116; 116; 112; 115; 58; 47; 47; 119; 119; 119; 46; 101; 120; 97; 109; 112; 108; 101; 46; 99; 111; 109], 20)],
   [72; 3; 51; 48; 50; 88; 7; 112; 114; 105; 118; 97; 116; 101; 97; 29; 77; 111; 110; 44; 32; 50; 49; 32; 79; 99; 116; 32; 50; 48; 49; 51; 32; 50; 48; 58; 49; 51; 58; 50; 49; 32; 71; 77; 84; 110; 23; 104; 116; 116; 112; 115; 58; 47; 47; 119; 119; 119; 46; 101; 120; 97; 109; 112; 108; 101; 46; 99; 111; 109]);
  ([([58; 115; 116; 97; 116; 117; 115], [51; 48; 55], 20); ([99; 97; 99; 104; 101; 45; 99; 111; 110; 116; 114; 111; 108], [112; 114; 105; 118; 97; 116; 101], 20); ([100; 97; 116; 101], [77; 111; 110; 44; 32; 50; 49; 32; 79; 99; 116; 32; 50; 48; 49; 51; 32; 50; 48; 58; 49; 51; 58; 50; 49; 32; 71; 77; 84], 20); ([108; 111; 99; 97; 116; 105; 111; 110], [104; 116; 116; 112; 115; 58; 47; 47; 119; 119; 119; 46; 101; 120; 97; 109; 112; 108; 101; 46; 99; 111; 109], 20)],
   [72; 3; 51; 48; 55; 193; 192; 191]);
  ([([58; 115; 116; 97; 116; 117; 115], [50; 48; 48], 20); ([99; 97; 99; 104; 101; 45; 99; 111; 110; 116; 114; 111; 108], [112; 114; 105; 118; 97; 116; 101], 20); ([100; 97; 116; 101], [77; 111; 110; 44; 32; 50; 49; 32; 79; 99; 116; 32; 50; 48; 49; 51; 32; 50; 48; 58; 49; 51; 58; 50; 50; 32; 71; 77; 84], 20); ([108; 111; 99; 97; 116; 105; 111; 110], [104; 116; 116; 112; 115; 58; 47; 47; 119; 119; 119; 46; 101; 120; 97; 109; 112; 108; 101; 46; 99; 111; 109], 20); ([99; 111; 110; 116; 101; 110; 116; 45; 101; 110; 99; 111; 100; 105; 110; 103], [103; 122; 105; 112], 20); ([115; 101; 116; 45; 99; 111; 111; 107; 105; 101], [102; 111; 111; 61; 65; 83; 68; 74; 75; 72; 81; 75; 66; 90; 88; 79; 81; 87; 69; 79; 80; 73; 85; 65; 88; 81; 87; 69; 79; 73; 85; 59; 32; 109; 97; 120; 45; 97; 103; 101; 61; 51; 54; 48; 48; 59; 32; 118; 101; 114; 115; 105; 111; 110; 61; 49], 20)],
   [136; 193; 97; 29; 77; 111; 110; 44; 32; 50; 49; 32; 79; 99; 116; 32; 50; 48; 49; 51; 32; 50; 48; 58; 49; 51; 58; 50; 50; 32; 71; 77; 84; 192; 90; 4; 103; 122; 105; 112; 119; 56; 102; 111; 111; 61; 65; 83; 68; 74; 75; 72; 81; 75; 66; 90; 88; 79; 81; 87; 69; 79; 80; 73; 85; 65; 88; 81; 87; 69; 79; 73; 85; 59; 32; 109; 97; 120; 45; 97; 103; 101; 61; 51; 54; 48; 48; 59; 32; 118; 101; 114; 115; 105; 111; 110; 61; 49])].
Definition spec6 : list (list (list N * list N * N) * list N) := [
  ([([58; 115; 116; 97; 116; 117; 115], [51; 48; 50], 23); ([99; 97; 99; 104; 101; 45; 99; 111; 110; 116; 114; 111; 108], [112; 114; 105; 118; 97; 116; 101], 23); ([100; 97; 116; 101], [77; 111; 110; 44; 32; 50; 49; 32; 79; 99; 116; 32; 50; 48; 49; 51; 32; 50; 48; 58; 49; 51; 58; 50; 49; 32; 71; 77; 84], 23); ([108; 111; 99; 97; 116; 105; 111; 110], [104; 116; 116; 112; 115; 58; 47; 47; 119; 119; 119; 46; 101; 120; 97; 109; 112; 108; 101; 46; 99; 111; 109], 23)],
   [72; 130; 100; 2; 88; 133; 174; 195; 119; 26; 75; 97; 150; 208; 122; 190; 148; 16; 84; 212; 68; 168; 32; 5; 149; 4; 11; 129; 102; 224; 130; 166; 45; 27; 255; 110; 145; 157; 41; 173; 23; 24; 99; 199; 143; 11; 151; 200; 233; 174; 130; 174; 67; 211]);
  ([([58; 115; 116; 97; 116; 117; 115], [51; 48; 55], 23); ([99; 97; 99; 104; 101; 45; 99; 111; 110; 116; 114; 111; 108], [112; 114; 105; 118; 97; 116; 101], 23); ([100; 97; 116; 101], [77; 111; 110; 44; 32; 50; 49; 32; 79; 99; 116; 32; 50; 48; 49; 51; 32; 50; 48; 58; 49; 51; 58; 50; 49; 32; 71; 77; 84], 23); ([108; 111; 99; 97; 116; 105; 111; 110], [104; 116; 116; 112; 115; 58; 47; 47; 119; 119; 119; 46; 101; 120; 97; 109; 112; 108; 101; 46; 99; 111; 109], 23)],
   [72; 131; 100; 14; 255; 193; 192; 191]);
  ([([58; 115; 116; 97; 116; 117; 115], [50; 48; 48], 23); ([99; 97; 99; 104; 101; 45; 99; 111; 110; 116; 114; 111; 108], [112; 114; 105; 118; 97; 116; 101], 23); ([100; 97; 116; 101], [77; 111; 110; 44; 32; 50; 49; 32; 79; 99; 116; 32; 50; 48; 49; 51; 32; 50; 48; 58; 49; 51; 58; 50; 50; 32; 71; 77; 84], 23); ([108; 111; 99; 97; 116; 105; 111; 110], [104; 116; 116; 112; 115; 58; 47; 47; 119; 119; 119; 46; 101; 120; 97; 109; 112; 108; 101; 46; 99; 111; 109], 23); ([99; 111; 110; 116; 101; 110; 116; 45; 101; 110; 99; 111; 100; 105; 110; 103], [103; 122; 105; 112], 23); ([115; 101; 116; 45; 99; 111; 111; 107; 105; 101], [102; 111; 111; 61; 65; 83; 68; 74; 75; 72; 81; 75; 66; 90; 88; 79; 81; 87; 69; 79; 80; 73; 85; 65; 88; 81; 87; 69; 79; 73; 85; 59; 32; 109; 97; 120; 45; 97; 103; 101; 61; 51; 54; 48; 48; 59; 32; 118; 101; 114; 115; 105; 111; 110; 61; 49], 23)],
   [136; 193; 97; 150; 208; 122; 190; 148; 16; 84; 212; 68; 168; 32; 5; 149; 4; 11; 129; 102; 224; 132; 166; 45; 27; 255; 192; 90; 131; 155; 217; 171; 119; 173; 148; 231; 130; 29; 215; 242; 230; 199; 179; 53; 223; 223; 205; 91; 57; 96; 213; 175; 39; 8; 127; 54; 114; 193; 171; 39; 15; 181; 41; 31; 149; 135; 49; 96; 101; 192; 3; 237; 78; 229; 177; 6; 61; 80; 7])].
Example encodes_and_decodes_requests :
  forallb (fun m => forallb (session m encoder_default decoder_default) [spec3; spec4; spec5; spec6]) modes = true.
Proof. vm_compute. reflexivity. Qed.

(* hpack/tests/http2jp.rs: stories 00 to 02 of every encoder in hpack/fixtures, one decoder
   per story, every header compared.  (tools/run_fixtures.py does the same for all 47142
   blocks, on the extracted model.) *)
Fixpoint story (m : mode) (d : decoder) (blocks : list (string * list (string * string))) : bool :=
  match blocks with
  | [] => true
  | (wire, fields) :: more =>
      match hdecode m d (unhex wire) [] with
      | ((d', [], hs), Ok _) =>
          Nat.eqb (List.length hs) (List.length fields) &&
          forallb (fun x => pair_eqb (fst (fst x)) (unhex (fst (snd x)), unhex (snd (snd x)))) (combine hs fields) && story m d' more
      | _ => false
      end
  end.

(* hpack/fixtures/go-hpack/story_00.json *)
Definition story_0_0 : list (string * list (string * string)) := [
  ("0085b9495339e483c5837f0085b8824e5a4b839d29af0088b83b5339ec327d7f88f439ce75c875fa570084b958d33f8163", [("3a6d6574686f64", "474554"); ("3a736368656d65", "68747470"); ("3a617574686f72697479", "7961686f6f2e636f2e6a70"); ("3a70617468", "2f")]);
  ("0085b9495339e483c5837f0085b8824e5a4b839d29af0088b83b5339ec327d7f8cf1e3c2fe8739ceb90ebf4aff0084b958d33f8163", [("3a6d6574686f64", "474554"); ("3a736368656d65", "68747470"); ("3a617574686f72697479", "7777772e7961686f6f2e636f2e6a70"); ("3a70617468", "2f")]);
  ("0085b9495339e483c5837f0085b8824e5a4b839d29af0088b83b5339ec327d7f87eabfa35332fd2b0084b958d33f9b60d48e62a1849eb611589825353141e63ad52160b206c4f2f5d537", [("3a6d6574686f64", "474554"); ("3a736368656d65", "68747470"); ("3a617574686f72697479", "6b2e79696d672e6a70"); ("3a70617468", "2f696d616765732f746f702f7370322f636d6e2f6c6f676f2d6e732d3133303532382e706e67")])]%string.
(* hpack/fixtures/go-hpack/story_01.json *)
Definition story_0_1 : list (string * list (string * string)) := [
  ("0085b8824e5a4b849d29ad1f0088b83b5339ec327d7f882f91d35d055c87a70084b958d33f81630085b9495339e483c5837f0087b505b161cc5a93879eb193aac92a13008421cfd4c587f3e7cf9f3e7c870086f2b4e5a283ff84f07b2893", [("3a736368656d65", "6874747073"); ("3a617574686f72697479", "6578616d706c652e636f6d"); ("3a70617468", "2f"); ("3a6d6574686f64", "474554"); ("757365722d6167656e74", "687061636b2d74657374"); ("636f6f6b6965", "7878787878787831"); ("782d68656c6c6f", "776f726c64")]);
  ("0085b8824e5a4b849d29ad1f0088b83b5339ec327d7f882f91d35d055c87a70084b958d33f81630085b9495339e483c5837f0087b505b161cc5a93879eb193aac92a13008421cfd4c587f3e7cf9f3e7c8b", [("3a736368656d65", "6874747073"); ("3a617574686f72697479", "6578616d706c652e636f6d"); ("3a70617468", "2f"); ("3a6d6574686f64", "474554"); ("757365722d6167656e74", "687061636b2d74657374"); ("636f6f6b6965", "7878787878787832")])]%string.
(* hpack/fixtures/go-hpack/story_02.json *)
Definition story_0_2 : list (string * list (string * string)) := [
  ("0085b9495339e483c5837f0085b8824e5a4b839d29af0088b83b5339ec327d7f871d23f67a9721e90084b958d33f81630087b505b161cc5a93bcd07f66a281b0dae053fad0321aa49d13fda992a49685340c8a6adca7e28102ef7da9677b8171707f6a62293a9d810020004015309ac2ca7f2c05c5c1008419085ad3b0497ca589d34d1f43aeba0c41a4c7a98f33a69a3fdf9a68fa1d75d0620d263d4c79a68fbed00177febe58f9fbed00177b008b19085ad2b503aa6b47317f8b2d4b70ddf45abefb4005db008b19085ad2b16a21e435537f8a9bd9abfa5242cb40d25f008721eaa8a4498f5788ea52d6b0e83772ff", [("3a6d6574686f64", "474554"); ("3a736368656d65", "68747470"); ("3a617574686f72697479", "616d617a6f6e2e636f6d"); ("3a70617468", "2f"); ("757365722d6167656e74", "4d6f7a696c6c612f352e3020284d6163696e746f73683b20496e74656c204d6163204f5320582031302e383b2072763a31362e3029204765636b6f2f32303130303130312046697265666f782f31362e30"); ("616363657074", "746578742f68746d6c2c6170706c69636174696f6e2f7868746d6c2b786d6c2c6170706c69636174696f6e2f786d6c3b713d302e392c2a2f2a3b713d302e38"); ("6163636570742d6c616e6775616765", "656e2d55532c656e3b713d302e35"); ("6163636570742d656e636f64696e67", "677a69702c206465666c617465"); ("636f6e6e656374696f6e", "6b6565702d616c697665")]);
  ("0085b9495339e483c5837f0085b8824e5a4b839d29af0088b83b5339ec327d7f91996293cae6a473150b0e91fb3d4b90f4ff0084b958d33fab60d48e62a18c4c002c4d51d88ca321ea62e94643d5babb0c92adc372c00af17168017c0cb6cb712f5d537f0087b505b161cc5a93bcd07f66a281b0dae053fad0321aa49d13fda992a49685340c8a6adca7e28102ef7da9677b8171707f6a62293a9d810020004015309ac2ca7f2c05c5c1008419085ad39a352398ac5754df46a473158f9fbed00177bebe58f9fbed00176f008b19085ad2b503aa6b47317f8b2d4b70ddf45abefb4005db008b19085ad2b16a21e435537f8a9bd9abfa5242cb40d25f008721eaa8a4498f5788ea52d6b0e83772ff0085b0b296c2d9919d29aee30c78f1e171d23f67a9721e963f", [("3a6d6574686f64", "474554"); ("3a736368656d65", "68747470"); ("3a617574686f72697479", "672d6563782e696d616765732d616d617a6f6e2e636f6d"); ("3a70617468", "2f696d616765732f472f30312f676e6f2f626561636f6e2f426561636f6e5370726974652d55532d30312e5f563430313930333533355f2e706e67"); ("757365722d6167656e74", "4d6f7a696c6c612f352e3020284d6163696e746f73683b20496e74656c204d6163204f5320582031302e383b2072763a31362e3029204765636b6f2f32303130303130312046697265666f782f31362e30"); ("616363657074", "696d6167652f706e672c696d6167652f2a3b713d302e382c2a2f2a3b713d302e35"); ("6163636570742d6c616e6775616765", "656e2d55532c656e3b713d302e35"); ("6163636570742d656e636f64696e67", "677a69702c206465666c617465"); ("636f6e6e656374696f6e", "6b6565702d616c697665"); ("72656665726572", "687474703a2f2f7777772e616d617a6f6e2e636f6d2f")]);
  ("0085b9495339e483c5837f0085b8824e5a4b839d29af0088b83b5339ec327d7f91996293cae6a473150b0e91fb3d4b90f4ff0084b958d33fad60d48e62a18c4c002c795a83907415821e9a4f5309b07522b1d85a92b566f25a178b8b2f38fb4269c6a25e634b0087b505b161cc5a93bcd07f66a281b0dae053fad0321aa49d13fda992a49685340c8a6adca7e28102ef7da9677b8171707f6a62293a9d810020004015309ac2ca7f2c05c5c1008419085ad39a352398ac5754df46a473158f9fbed00177bebe58f9fbed00176f008b19085ad2b503aa6b47317f8b2d4b70ddf45abefb4005db008b19085ad2b16a21e435537f8a9bd9abfa5242cb40d25f008721eaa8a4498f5788ea52d6b0e83772ff0085b0b296c2d9919d29aee30c78f1e171d23f67a9721e963f", [("3a6d6574686f64", "474554"); ("3a736368656d65", "68747470"); ("3a617574686f72697479", "672d6563782e696d616765732d616d617a6f6e2e636f6d"); ("3a70617468", "2f696d616765732f472f30312f782d6c6f63616c652f636f6d6d6f6e2f7472616e73706172656e742d706978656c2e5f563338363934323436345f2e676966"); ("757365722d6167656e74", "4d6f7a696c6c612f352e3020284d6163696e746f73683b20496e74656c204d6163204f5320582031302e383b2072763a31362e3029204765636b6f2f32303130303130312046697265666f782f31362e30"); ("616363657074", "696d6167652f706e672c696d6167652f2a3b713d302e382c2a2f2a3b713d302e35"); ("6163636570742d6c616e6775616765", "656e2d55532c656e3b713d302e35"); ("6163636570742d656e636f64696e67", "677a69702c206465666c617465"); ("636f6e6e656374696f6e", "6b6565702d616c697665"); ("72656665726572", "687474703a2f2f7777772e616d617a6f6e2e636f6d2f")]);
  ("0085b9495339e483c5837f0085b8824e5a4b839d29af0088b83b5339ec327d7f91996293cae6a473150b0e91fb3d4b90f4ff0084b958d33fbf60d48e62a18c4c002c1a9982260e99cb63121903424b62d61683165619001621e8b69a9840ea93d2d61683165899003cbadaf171680071e7da7c312f5d537f0087b505b161cc5a93bcd07f66a281b0dae053fad0321aa49d13fda992a49685340c8a6adca7e28102ef7da9677b8171707f6a62293a9d810020004015309ac2ca7f2c05c5c1008419085ad39a352398ac5754df46a473158f9fbed00177bebe58f9fbed00176f008b19085ad2b503aa6b47317f8b2d4b70ddf45abefb4005db008b19085ad2b16a21e435537f8a9bd9abfa5242cb40d25f008721eaa8a4498f5788ea52d6b0e83772ff0085b0b296c2d9919d29aee30c78f1e171d23f67a9721e963f", [("3a6d6574686f64", "474554"); ("3a736368656d65", "68747470"); ("3a617574686f72697479", "672d6563782e696d616765732d616d617a6f6e2e636f6d"); ("3a70617468", "2f696d616765732f472f30312f696d6731322f6f746865722f64697361737465722d72656c6965662f3330302d636f6c756d6e2f73616e64792d72656c6965665f3330307837352e5f563430303638393439315f2e706e67"); ("757365722d6167656e74", "4d6f7a696c6c612f352e3020284d6163696e746f73683b20496e74656c204d6163204f5320582031302e383b2072763a31362e3029204765636b6f2f32303130303130312046697265666f782f31362e30"); ("616363657074", "696d6167652f706e672c696d6167652f2a3b713d302e382c2a2f2a3b713d302e35"); ("6163636570742d6c616e6775616765", "656e2d55532c656e3b713d302e35"); ("6163636570742d656e636f64696e67", "677a69702c206465666c617465"); ("636f6e6e656374696f6e", "6b6565702d616c697665"); ("72656665726572", "687474703a2f2f7777772e616d617a6f6e2e636f6d2f")]);
  ("0085b9495339e483c5837f0085b8824e5a4b839d29af0088b83b5339ec327d7f8bf1e3c2e3a47ecf52e43d3f0084b958d33f81630087b505b161cc5a93bcd07f66a281b0dae053fad0321aa49d13fda992a49685340c8a6adca7e28102ef7da9677b8171707f6a62293a9d810020004015309ac2ca7f2c05c5c1008419085ad3b0497ca589d34d1f43aeba0c41a4c7a98f33a69a3fdf9a68fa1d75d0620d263d4c79a68fbed00177febe58f9fbed00177b008b19085ad2b503aa6b47317f8b2d4b70ddf45abefb4005db008b19085ad2b16a21e435537f8a9bd9abfa5242cb40d25f008721eaa8a4498f5788ea52d6b0e83772ff", [("3a6d6574686f64", "474554"); ("3a736368656d65", "68747470"); ("3a617574686f72697479", "7777772e616d617a6f6e2e636f6d"); ("3a70617468", "2f"); ("757365722d6167656e74", "4d6f7a696c6c612f352e3020284d6163696e746f73683b20496e74656c204d6163204f5320582031302e383b2072763a31362e3029204765636b6f2f32303130303130312046697265666f782f31362e30"); ("616363657074", "746578742f68746d6c2c6170706c69636174696f6e2f7868746d6c2b786d6c2c6170706c69636174696f6e2f786d6c3b713d302e392c2a2f2a3b713d302e38"); ("6163636570742d6c616e6775616765", "656e2d55532c656e3b713d302e35"); ("6163636570742d656e636f64696e67", "677a69702c206465666c617465"); ("636f6e6e656374696f6e", "6b6565702d616c697665")]);
  ("0085b9495339e483c5837f0085b8824e5a4b839d29af0088b83b5339ec327d7f91996293cae6a473150b0e91fb3d4b90f4ff0084b958d33fad60d48e62a18c4c002c795a83907415821e9a4f5309b07522b1d85a92b566f25a178b885f109969c75b89798d2f0087b505b161cc5a93bcd07f66a281b0dae053fad0321aa49d13fda992a49685340c8a6adca7e28102ef7da9677b8171707f6a62293a9d810020004015309ac2ca7f2c05c5c1008419085ad39a352398ac5754df46a473158f9fbed00177bebe58f9fbed00176f008b19085ad2b503aa6b47317f8b2d4b70ddf45abefb4005db008b19085ad2b16a21e435537f8a9bd9abfa5242cb40d25f008721eaa8a4498f5788ea52d6b0e83772ff0085b0b296c2d9919d29aee30c78f1e171d23f67a9721e963f", [("3a6d6574686f64", "474554"); ("3a736368656d65", "68747470"); ("3a617574686f72697479", "672d6563782e696d616765732d616d617a6f6e2e636f6d"); ("3a70617468", "2f696d616765732f472f30312f782d6c6f63616c652f636f6d6d6f6e2f7472616e73706172656e742d706978656c2e5f563139323233343637355f2e676966"); ("757365722d6167656e74", "4d6f7a696c6c612f352e3020284d6163696e746f73683b20496e74656c204d6163204f5320582031302e383b2072763a31362e3029204765636b6f2f32303130303130312046697265666f782f31362e30"); ("616363657074", "696d6167652f706e672c696d6167652f2a3b713d302e382c2a2f2a3b713d302e35"); ("6163636570742d6c616e6775616765", "656e2d55532c656e3b713d302e35"); ("6163636570742d656e636f64696e67", "677a69702c206465666c617465"); ("636f6e6e656374696f6e", "6b6565702d616c697665"); ("72656665726572", "687474703a2f2f7777772e616d617a6f6e2e636f6d2f")]);
  ("0085b9495339e483c5837f0085b8824e5a4b839d29af0088b83b5339ec327d7f91996293cae6a473150b0e91fb3d4b90f4ff0084b958d33fc160d48e62a18c4c002c1a9982261139ca86103a0a888bdcb5250c0431547eec040c82284842a107b0c546bdbab46a8b172b0d34e95e2e2d000e09c7db044bcc697f0087b505b161cc5a93bcd07f66a281b0dae053fad0321aa49d13fda992a49685340c8a6adca7e28102ef7da9677b8171707f6a62293a9d810020004015309ac2ca7f2c05c5c1008419085ad39a352398ac5754df46a473158f9fbed00177bebe58f9fbed00176f008b19085ad2b503aa6b47317f8b2d4b70ddf45abefb4005db008b19085ad2b16a21e435537f8a9bd9abfa5242cb40d25f008721eaa8a4498f5788ea52d6b0e83772ff0085b0b296c2d9919d29aee30c78f1e171d23f67a9721e963f", [("3a6d6574686f64", "474554"); ("3a736368656d65", "68747470"); ("3a617574686f72697479", "672d6563782e696d616765732d616d617a6f6e2e636f6d"); ("3a70617468", "2f696d616765732f472f30312f696d6731322f73686f65732f73616c65735f6576656e74732f31315f6e6f762f313033305f4163636573736f7269657350524f4d4f5f475772696768742e5f563430303632363935305f2e676966"); ("757365722d6167656e74", "4d6f7a696c6c612f352e3020284d6163696e746f73683b20496e74656c204d6163204f5320582031302e383b2072763a31362e3029204765636b6f2f32303130303130312046697265666f782f31362e30"); ("616363657074", "696d6167652f706e672c696d6167652f2a3b713d302e382c2a2f2a3b713d302e35"); ("6163636570742d6c616e6775616765", "656e2d55532c656e3b713d302e35"); ("6163636570742d656e636f64696e67", "677a69702c206465666c617465"); ("636f6e6e656374696f6e", "6b6565702d616c697665"); ("72656665726572", "687474703a2f2f7777772e616d617a6f6e2e636f6d2f")]);
  ("0085b9495339e483c5837f0085b8824e5a4b839d29af0088b83b5339ec327d7f91996293cae6a473150b0e91fb3d4b90f4ff0084b958d33fac60d48e62a18c4c002c436a4f49d26ee562c3a4e862fdb60c85a287000882202f1710be2101a75c6a25fa57370087b505b161cc5a93bcd07f66a281b0dae053fad0321aa49d13fda992a49685340c8a6adca7e28102ef7da9677b8171707f6a62293a9d810020004015309ac2ca7f2c05c5c1008419085ad39a352398ac5754df46a473158f9fbed00177bebe58f9fbed00176f008b19085ad2b503aa6b47317f8b2d4b70ddf45abefb4005db008b19085ad2b16a21e435537f8a9bd9abfa5242cb40d25f008721eaa8a4498f5788ea52d6b0e83772ff0085b0b296c2d9919d29aee30c78f1e171d23f67a9721e963f", [("3a6d6574686f64", "474554"); ("3a736368656d65", "68747470"); ("3a617574686f72697479", "672d6563782e696d616765732d616d617a6f6e2e636f6d"); ("3a70617468", "2f696d616765732f472f30312f4175746f6d6f746976652f726f746f732f4475726163656c6c3630305f3132302e5f563139323230343736345f2e6a7067"); ("757365722d6167656e74", "4d6f7a696c6c612f352e3020284d6163696e746f73683b20496e74656c204d6163204f5320582031302e383b2072763a31362e3029204765636b6f2f32303130303130312046697265666f782f31362e30"); ("616363657074", "696d6167652f706e672c696d6167652f2a3b713d302e382c2a2f2a3b713d302e35"); ("6163636570742d6c616e6775616765", "656e2d55532c656e3b713d302e35"); ("6163636570742d656e636f64696e67", "677a69702c206465666c617465"); ("636f6e6e656374696f6e", "6b6565702d616c697665"); ("72656665726572", "687474703a2f2f7777772e616d617a6f6e2e636f6d2f")]);
  ("0085b9495339e483c5837f0085b8824e5a4b839d29af0088b83b5339ec327d7f91996293cae6a473150b0e91fb3d4b90f4ff0084b958d33fb060d48e62a18c4c002c5a662838e4c9548620d27b10c5071c992a90c41a4f62d40ec98abc5c42f882fb6d3c089798d2ff0087b505b161cc5a93bcd07f66a281b0dae053fad0321aa49d13fda992a49685340c8a6adca7e28102ef7da9677b8171707f6a62293a9d810020004015309ac2ca7f2c05c5c1008419085ad39a352398ac5754df46a473158f9fbed00177bebe58f9fbed00176f008b19085ad2b503aa6b47317f8b2d4b70ddf45abefb4005db008b19085ad2b16a21e435537f8a9bd9abfa5242cb40d25f008721eaa8a4498f5788ea52d6b0e83772ff0085b0b296c2d9919d29aee30c78f1e171d23f67a9721e963f", [("3a6d6574686f64", "474554"); ("3a736368656d65", "68747470"); ("3a617574686f72697479", "672d6563782e696d616765732d616d617a6f6e2e636f6d"); ("3a70617468", "2f696d616765732f472f30312f75692f6c6f6164496e64696361746f72732f6c6f6164496e64696361746f722d6c617267652e5f563139323139353438305f2e676966"); ("757365722d6167656e74", "4d6f7a696c6c612f352e3020284d6163696e746f73683b20496e74656c204d6163204f5320582031302e383b2072763a31362e3029204765636b6f2f32303130303130312046697265666f782f31362e30"); ("616363657074", "696d6167652f706e672c696d6167652f2a3b713d302e382c2a2f2a3b713d302e35"); ("6163636570742d6c616e6775616765", "656e2d55532c656e3b713d302e35"); ("6163636570742d656e636f64696e67", "677a69702c206465666c617465"); ("636f6e6e656374696f6e", "6b6565702d616c697665"); ("72656665726572", "687474703a2f2f7777772e616d617a6f6e2e636f6d2f")]);
  ("0085b9495339e483c5837f0085b8824e5a4b839d29af0088b83b5339ec327d7f8f293cae6a473150b0e91fb3d4b90f4f0084b958d33f9a60d48e62a18c8c341c7fab69beb6ee19d78b7670b2dc4bf4ae6f0087b505b161cc5a93bcd07f66a281b0dae053fad0321aa49d13fda992a49685340c8a6adca7e28102ef7da9677b8171707f6a62293a9d810020004015309ac2ca7f2c05c5c1008419085ad39a352398ac5754df46a473158f9fbed00177bebe58f9fbed00176f008b19085ad2b503aa6b47317f8b2d4b70ddf45abefb4005db008b19085ad2b16a21e435537f8a9bd9abfa5242cb40d25f008721eaa8a4498f5788ea52d6b0e83772ff0085b0b296c2d9919d29aee30c78f1e171d23f67a9721e963f", [("3a6d6574686f64", "474554"); ("3a736368656d65", "68747470"); ("3a617574686f72697479", "6563782e696d616765732d616d617a6f6e2e636f6d"); ("3a70617468", "2f696d616765732f492f3431485a2d4e442d53554c2e5f534c3133355f2e6a7067"); ("757365722d6167656e74", "4d6f7a696c6c612f352e3020284d6163696e746f73683b20496e74656c204d6163204f5320582031302e383b2072763a31362e3029204765636b6f2f32303130303130312046697265666f782f31362e30"); ("616363657074", "696d6167652f706e672c696d6167652f2a3b713d302e382c2a2f2a3b713d302e35"); ("6163636570742d6c616e6775616765", "656e2d55532c656e3b713d302e35"); ("6163636570742d656e636f64696e67", "677a69702c206465666c617465"); ("636f6e6e656374696f6e", "6b6565702d616c697665"); ("72656665726572", "687474703a2f2f7777772e616d617a6f6e2e636f6d2f")])]%string.
(* hpack/fixtures/haskell-http2-linear-huffman/story_00.json *)
Definition story_1_0 : list (string * list (string * string)) := [
  ("82864188f439ce75c875fa5784", [("3a6d6574686f64", "474554"); ("3a736368656d65", "68747470"); ("3a617574686f72697479", "7961686f6f2e636f2e6a70"); ("3a70617468", "2f")]);
  ("8286418cf1e3c2fe8739ceb90ebf4aff84", [("3a6d6574686f64", "474554"); ("3a736368656d65", "68747470"); ("3a617574686f72697479", "7777772e7961686f6f2e636f2e6a70"); ("3a70617468", "2f")]);
  ("82864187eabfa35332fd2b049b60d48e62a1849eb611589825353141e63ad52160b206c4f2f5d537", [("3a6d6574686f64", "474554"); ("3a736368656d65", "68747470"); ("3a617574686f72697479", "6b2e79696d672e6a70"); ("3a70617468", "2f696d616765732f746f702f7370322f636d6e2f6c6f676f2d6e732d3133303532382e706e67")])]%string.
(* hpack/fixtures/haskell-http2-linear-huffman/story_01.json *)
Definition story_1_1 : list (string * list (string * string)) := [
  ("8741882f91d35d055c87a784827a879eb193aac92a136087f3e7cf9f3e7c874086f2b4e5a283ff84f07b2893", [("3a736368656d65", "6874747073"); ("3a617574686f72697479", "6578616d706c652e636f6d"); ("3a70617468", "2f"); ("3a6d6574686f64", "474554"); ("757365722d6167656e74", "687061636b2d74657374"); ("636f6f6b6965", "7878787878787831"); ("782d68656c6c6f", "776f726c64")]);
  ("87c18482c06087f3e7cf9f3e7c8b", [("3a736368656d65", "6874747073"); ("3a617574686f72697479", "6578616d706c652e636f6d"); ("3a70617468", "2f"); ("3a6d6574686f64", "474554"); ("757365722d6167656e74", "687061636b2d74657374"); ("636f6f6b6965", "7878787878787832")])]%string.
(* hpack/fixtures/haskell-http2-linear-huffman/story_02.json *)
Definition story_1_2 : list (string * list (string * string)) := [
  ("828641871d23f67a9721e9847abcd07f66a281b0dae053fad0321aa49d13fda992a49685340c8a6adca7e28102ef7da9677b8171707f6a62293a9d810020004015309ac2ca7f2c05c5c153b0497ca589d34d1f43aeba0c41a4c7a98f33a69a3fdf9a68fa1d75d0620d263d4c79a68fbed00177febe58f9fbed00177b518b2d4b70ddf45abefb4005db90408721eaa8a4498f5788ea52d6b0e83772ff", [("3a6d6574686f64", "474554"); ("3a736368656d65", "68747470"); ("3a617574686f72697479", "616d617a6f6e2e636f6d"); ("3a70617468", "2f"); ("757365722d6167656e74", "4d6f7a696c6c612f352e3020284d6163696e746f73683b20496e74656c204d6163204f5320582031302e383b2072763a31362e3029204765636b6f2f32303130303130312046697265666f782f31362e30"); ("616363657074", "746578742f68746d6c2c6170706c69636174696f6e2f7868746d6c2b786d6c2c6170706c69636174696f6e2f786d6c3b713d302e392c2a2f2a3b713d302e38"); ("6163636570742d6c616e6775616765", "656e2d55532c656e3b713d302e35"); ("6163636570742d656e636f64696e67", "677a69702c206465666c617465"); ("636f6e6e656374696f6e", "6b6565702d616c697665")]);
  ("82864191996293cae6a473150b0e91fb3d4b90f4ff04ab60d48e62a18c4c002c4d51d88ca321ea62e94643d5babb0c92adc372c00af17168017c0cb6cb712f5d537fc2539a352398ac5754df46a473158f9fbed00177bebe58f9fbed00176fc190c073919d29aee30c78f1e171d23f67a9721e963f", [("3a6d6574686f64", "474554"); ("3a736368656d65", "68747470"); ("3a617574686f72697479", "672d6563782e696d616765732d616d617a6f6e2e636f6d"); ("3a70617468", "2f696d616765732f472f30312f676e6f2f626561636f6e2f426561636f6e5370726974652d55532d30312e5f563430313930333533355f2e706e67"); ("757365722d6167656e74", "4d6f7a696c6c612f352e3020284d6163696e746f73683b20496e74656c204d6163204f5320582031302e383b2072763a31362e3029204765636b6f2f32303130303130312046697265666f782f31362e30"); ("616363657074", "696d6167652f706e672c696d6167652f2a3b713d302e382c2a2f2a3b713d302e35"); ("6163636570742d6c616e6775616765", "656e2d55532c656e3b713d302e35"); ("6163636570742d656e636f64696e67", "677a69702c206465666c617465"); ("636f6e6e656374696f6e", "6b6565702d616c697665"); ("72656665726572", "687474703a2f2f7777772e616d617a6f6e2e636f6d2f")]);
  ("8286c004ad60d48e62a18c4c002c795a83907415821e9a4f5309b07522b1d85a92b566f25a178b8b2f38fb4269c6a25e634bc4bfc290c1be", [("3a6d6574686f64", "474554"); ("3a736368656d65", "68747470"); ("3a617574686f72697479", "672d6563782e696d616765732d616d617a6f6e2e636f6d"); ("3a70617468", "2f696d616765732f472f30312f782d6c6f63616c652f636f6d6d6f6e2f7472616e73706172656e742d706978656c2e5f563338363934323436345f2e676966"); ("757365722d6167656e74", "4d6f7a696c6c612f352e3020284d6163696e746f73683b20496e74656c204d6163204f5320582031302e383b2072763a31362e3029204765636b6f2f32303130303130312046697265666f782f31362e30"); ("616363657074", "696d6167652f706e672c696d6167652f2a3b713d302e382c2a2f2a3b713d302e35"); ("6163636570742d6c616e6775616765", "656e2d55532c656e3b713d302e35"); ("6163636570742d656e636f64696e67", "677a69702c206465666c617465"); ("636f6e6e656374696f6e", "6b6565702d616c697665"); ("72656665726572", "687474703a2f2f7777772e616d617a6f6e2e636f6d2f")]);
  ("8286c004bf60d48e62a18c4c002c1a9982260e99cb63121903424b62d61683165619001621e8b69a9840ea93d2d61683165899003cbadaf171680071e7da7c312f5d537fc4bfc290c1be", [("3a6d6574686f64", "474554"); ("3a736368656d65", "68747470"); ("3a617574686f72697479", "672d6563782e696d616765732d616d617a6f6e2e636f6d"); ("3a70617468", "2f696d616765732f472f30312f696d6731322f6f746865722f64697361737465722d72656c6965662f3330302d636f6c756d6e2f73616e64792d72656c6965665f3330307837352e5f563430303638393439315f2e706e67"); ("757365722d6167656e74", "4d6f7a696c6c612f352e3020284d6163696e746f73683b20496e74656c204d6163204f5320582031302e383b2072763a31362e3029204765636b6f2f32303130303130312046697265666f782f31362e30"); ("616363657074", "696d6167652f706e672c696d6167652f2a3b713d302e382c2a2f2a3b713d302e35"); ("6163636570742d6c616e6775616765", "656e2d55532c656e3b713d302e35"); ("6163636570742d656e636f64696e67", "677a69702c206465666c617465"); ("636f6e6e656374696f6e", "6b6565702d616c697665"); ("72656665726572", "687474703a2f2f7777772e616d617a6f6e2e636f6d2f")]);
  ("8286418bf1e3c2e3a47ecf52e43d3f84c5c4c390c2", [("3a6d6574686f64", "474554"); ("3a736368656d65", "68747470"); ("3a617574686f72697479", "7777772e616d617a6f6e2e636f6d"); ("3a70617468", "2f"); ("757365722d6167656e74", "4d6f7a696c6c612f352e3020284d6163696e746f73683b20496e74656c204d6163204f5320582031302e383b2072763a31362e3029204765636b6f2f32303130303130312046697265666f782f31362e30"); ("616363657074", "746578742f68746d6c2c6170706c69636174696f6e2f7868746d6c2b786d6c2c6170706c69636174696f6e2f786d6c3b713d302e392c2a2f2a3b713d302e38"); ("6163636570742d6c616e6775616765", "656e2d55532c656e3b713d302e35"); ("6163636570742d656e636f64696e67", "677a69702c206465666c617465"); ("636f6e6e656374696f6e", "6b6565702d616c697665")]);
  ("8286c104ad60d48e62a18c4c002c795a83907415821e9a4f5309b07522b1d85a92b566f25a178b885f109969c75b89798d2fc5c0c390c2bf", [("3a6d6574686f64", "474554"); ("3a736368656d65", "68747470"); ("3a617574686f72697479", "672d6563782e696d616765732d616d617a6f6e2e636f6d"); ("3a70617468", "2f696d616765732f472f30312f782d6c6f63616c652f636f6d6d6f6e2f7472616e73706172656e742d706978656c2e5f563139323233343637355f2e676966"); ("757365722d6167656e74", "4d6f7a696c6c612f352e3020284d6163696e746f73683b20496e74656c204d6163204f5320582031302e383b2072763a31362e3029204765636b6f2f32303130303130312046697265666f782f31362e30"); ("616363657074", "696d6167652f706e672c696d6167652f2a3b713d302e382c2a2f2a3b713d302e35"); ("6163636570742d6c616e6775616765", "656e2d55532c656e3b713d302e35"); ("6163636570742d656e636f64696e67", "677a69702c206465666c617465"); ("636f6e6e656374696f6e", "6b6565702d616c697665"); ("72656665726572", "687474703a2f2f7777772e616d617a6f6e2e636f6d2f")]);
  ("8286c104c160d48e62a18c4c002c1a9982261139ca86103a0a888bdcb5250c0431547eec040c82284842a107b0c546bdbab46a8b172b0d34e95e2e2d000e09c7db044bcc697fc5c0c390c2bf", [("3a6d6574686f64", "474554"); ("3a736368656d65", "68747470"); ("3a617574686f72697479", "672d6563782e696d616765732d616d617a6f6e2e636f6d"); ("3a70617468", "2f696d616765732f472f30312f696d6731322f73686f65732f73616c65735f6576656e74732f31315f6e6f762f313033305f4163636573736f7269657350524f4d4f5f475772696768742e5f563430303632363935305f2e676966"); ("757365722d6167656e74", "4d6f7a696c6c612f352e3020284d6163696e746f73683b20496e74656c204d6163204f5320582031302e383b2072763a31362e3029204765636b6f2f32303130303130312046697265666f782f31362e30"); ("616363657074", "696d6167652f706e672c696d6167652f2a3b713d302e382c2a2f2a3b713d302e35"); ("6163636570742d6c616e6775616765", "656e2d55532c656e3b713d302e35"); ("6163636570742d656e636f64696e67", "677a69702c206465666c617465"); ("636f6e6e656374696f6e", "6b6565702d616c697665"); ("72656665726572", "687474703a2f2f7777772e616d617a6f6e2e636f6d2f")]);
  ("8286c104ac60d48e62a18c4c002c436a4f49d26ee562c3a4e862fdb60c85a287000882202f1710be2101a75c6a25fa5737c5c0c390c2bf", [("3a6d6574686f64", "474554"); ("3a736368656d65", "68747470"); ("3a617574686f72697479", "672d6563782e696d616765732d616d617a6f6e2e636f6d"); ("3a70617468", "2f696d616765732f472f30312f4175746f6d6f746976652f726f746f732f4475726163656c6c3630305f3132302e5f563139323230343736345f2e6a7067"); ("757365722d6167656e74", "4d6f7a696c6c612f352e3020284d6163696e746f73683b20496e74656c204d6163204f5320582031302e383b2072763a31362e3029204765636b6f2f32303130303130312046697265666f782f31362e30"); ("616363657074", "696d6167652f706e672c696d6167652f2a3b713d302e382c2a2f2a3b713d302e35"); ("6163636570742d6c616e6775616765", "656e2d55532c656e3b713d302e35"); ("6163636570742d656e636f64696e67", "677a69702c206465666c617465"); ("636f6e6e656374696f6e", "6b6565702d616c697665"); ("72656665726572", "687474703a2f2f7777772e616d617a6f6e2e636f6d2f")]);
  ("8286c104b060d48e62a18c4c002c5a662838e4c9548620d27b10c5071c992a90c41a4f62d40ec98abc5c42f882fb6d3c089798d2ffc5c0c390c2bf", [("3a6d6574686f64", "474554"); ("3a736368656d65", "68747470"); ("3a617574686f72697479", "672d6563782e696d616765732d616d617a6f6e2e636f6d"); ("3a70617468", "2f696d616765732f472f30312f75692f6c6f6164496e64696361746f72732f6c6f6164496e64696361746f722d6c617267652e5f563139323139353438305f2e676966"); ("757365722d6167656e74", "4d6f7a696c6c612f352e3020284d6163696e746f73683b20496e74656c204d6163204f5320582031302e383b2072763a31362e3029204765636b6f2f32303130303130312046697265666f782f31362e30"); ("616363657074", "696d6167652f706e672c696d6167652f2a3b713d302e382c2a2f2a3b713d302e35"); ("6163636570742d6c616e6775616765", "656e2d55532c656e3b713d302e35"); ("6163636570742d656e636f64696e67", "677a69702c206465666c617465"); ("636f6e6e656374696f6e", "6b6565702d616c697665"); ("72656665726572", "687474703a2f2f7777772e616d617a6f6e2e636f6d2f")]);
  ("8286418f293cae6a473150b0e91fb3d4b90f4f049a60d48e62a18c8c341c7fab69beb6ee19d78b7670b2dc4bf4ae6fc6c1c490c3c0", [("3a6d6574686f64", "474554"); ("3a736368656d65", "68747470"); ("3a617574686f72697479", "6563782e696d616765732d616d617a6f6e2e636f6d"); ("3a70617468", "2f696d616765732f492f3431485a2d4e442d53554c2e5f534c3133355f2e6a7067"); ("757365722d6167656e74", "4d6f7a696c6c612f352e3020284d6163696e746f73683b20496e74656c204d6163204f5320582031302e383b2072763a31362e3029204765636b6f2f32303130303130312046697265666f782f31362e30"); ("616363657074", "696d6167652f706e672c696d6167652f2a3b713d302e382c2a2f2a3b713d302e35"); ("6163636570742d6c616e6775616765", "656e2d55532c656e3b713d302e35"); ("6163636570742d656e636f64696e67", "677a69702c206465666c617465"); ("636f6e6e656374696f6e", "6b6565702d616c697665"); ("72656665726572", "687474703a2f2f7777772e616d617a6f6e2e636f6d2f")])]%string.
(* hpack/fixtures/haskell-http2-linear/story_00.json *)
Definition story_2_0 : list (string * list (string * string)) := [
  ("8286410b7961686f6f2e636f2e6a7084", [("3a6d6574686f64", "474554"); ("3a736368656d65", "68747470"); ("3a617574686f72697479", "7961686f6f2e636f2e6a70"); ("3a70617468", "2f")]);
  ("8286410f7777772e7961686f6f2e636f2e6a7084", [("3a6d6574686f64", "474554"); ("3a736368656d65", "68747470"); ("3a617574686f72697479", "7777772e7961686f6f2e636f2e6a70"); ("3a70617468", "2f")]);
  ("828641096b2e79696d672e6a7004262f696d616765732f746f702f7370322f636d6e2f6c6f676f2d6e732d3133303532382e706e67", [("3a6d6574686f64", "474554"); ("3a736368656d65", "68747470"); ("3a617574686f72697479", "6b2e79696d672e6a70"); ("3a70617468", "2f696d616765732f746f702f7370322f636d6e2f6c6f676f2d6e732d3133303532382e706e67")])]%string.
(* hpack/fixtures/haskell-http2-linear/story_01.json *)
Definition story_2_1 : list (string * list (string * string)) := [
  ("87410b6578616d706c652e636f6d84827a0a687061636b2d74657374600878787878787878314007782d68656c6c6f05776f726c64", [("3a736368656d65", "6874747073"); ("3a617574686f72697479", "6578616d706c652e636f6d"); ("3a70617468", "2f"); ("3a6d6574686f64", "474554"); ("757365722d6167656e74", "687061636b2d74657374"); ("636f6f6b6965", "7878787878787831"); ("782d68656c6c6f", "776f726c64")]);
  ("87c18482c060087878787878787832", [("3a736368656d65", "6874747073"); ("3a617574686f72697479", "6578616d706c652e636f6d"); ("3a70617468", "2f"); ("3a6d6574686f64", "474554"); ("757365722d6167656e74", "687061636b2d74657374"); ("636f6f6b6965", "7878787878787832")])]%string.
(* hpack/fixtures/haskell-http2-linear/story_02.json *)
Definition story_2_2 : list (string * list (string * string)) := [
  ("8286410a616d617a6f6e2e636f6d847a514d6f7a696c6c612f352e3020284d6163696e746f73683b20496e74656c204d6163204f5320582031302e383b2072763a31362e3029204765636b6f2f32303130303130312046697265666f782f31362e30533f746578742f68746d6c2c6170706c69636174696f6e2f7868746d6c2b786d6c2c6170706c69636174696f6e2f786d6c3b713d302e392c2a2f2a3b713d302e38510e656e2d55532c656e3b713d302e3590400a636f6e6e656374696f6e0a6b6565702d616c697665", [("3a6d6574686f64", "474554"); ("3a736368656d65", "68747470"); ("3a617574686f72697479", "616d617a6f6e2e636f6d"); ("3a70617468", "2f"); ("757365722d6167656e74", "4d6f7a696c6c612f352e3020284d6163696e746f73683b20496e74656c204d6163204f5320582031302e383b2072763a31362e3029204765636b6f2f32303130303130312046697265666f782f31362e30"); ("616363657074", "746578742f68746d6c2c6170706c69636174696f6e2f7868746d6c2b786d6c2c6170706c69636174696f6e2f786d6c3b713d302e392c2a2f2a3b713d302e38"); ("6163636570742d6c616e6775616765", "656e2d55532c656e3b713d302e35"); ("6163636570742d656e636f64696e67", "677a69702c206465666c617465"); ("636f6e6e656374696f6e", "6b6565702d616c697665")]);
  ("82864117672d6563782e696d616765732d616d617a6f6e2e636f6d043b2f696d616765732f472f30312f676e6f2f626561636f6e2f426561636f6e5370726974652d55532d30312e5f563430313930333533355f2e706e67c25321696d6167652f706e672c696d6167652f2a3b713d302e382c2a2f2a3b713d302e35c190c07316687474703a2f2f7777772e616d617a6f6e2e636f6d2f", [("3a6d6574686f64", "474554"); ("3a736368656d65", "68747470"); ("3a617574686f72697479", "672d6563782e696d616765732d616d617a6f6e2e636f6d"); ("3a70617468", "2f696d616765732f472f30312f676e6f2f626561636f6e2f426561636f6e5370726974652d55532d30312e5f563430313930333533355f2e706e67"); ("757365722d6167656e74", "4d6f7a696c6c612f352e3020284d6163696e746f73683b20496e74656c204d6163204f5320582031302e383b2072763a31362e3029204765636b6f2f32303130303130312046697265666f782f31362e30"); ("616363657074", "696d6167652f706e672c696d6167652f2a3b713d302e382c2a2f2a3b713d302e35"); ("6163636570742d6c616e6775616765", "656e2d55532c656e3b713d302e35"); ("6163636570742d656e636f64696e67", "677a69702c206465666c617465"); ("636f6e6e656374696f6e", "6b6565702d616c697665"); ("72656665726572", "687474703a2f2f7777772e616d617a6f6e2e636f6d2f")]);
  ("8286c0043f2f696d616765732f472f30312f782d6c6f63616c652f636f6d6d6f6e2f7472616e73706172656e742d706978656c2e5f563338363934323436345f2e676966c4bfc290c1be", [("3a6d6574686f64", "474554"); ("3a736368656d65", "68747470"); ("3a617574686f72697479", "672d6563782e696d616765732d616d617a6f6e2e636f6d"); ("3a70617468", "2f696d616765732f472f30312f782d6c6f63616c652f636f6d6d6f6e2f7472616e73706172656e742d706978656c2e5f563338363934323436345f2e676966"); ("757365722d6167656e74", "4d6f7a696c6c612f352e3020284d6163696e746f73683b20496e74656c204d6163204f5320582031302e383b2072763a31362e3029204765636b6f2f32303130303130312046697265666f782f31362e30"); ("616363657074", "696d6167652f706e672c696d6167652f2a3b713d302e382c2a2f2a3b713d302e35"); ("6163636570742d6c616e6775616765", "656e2d55532c656e3b713d302e35"); ("6163636570742d656e636f64696e67", "677a69702c206465666c617465"); ("636f6e6e656374696f6e", "6b6565702d616c697665"); ("72656665726572", "687474703a2f2f7777772e616d617a6f6e2e636f6d2f")]);
  ("8286c004582f696d616765732f472f30312f696d6731322f6f746865722f64697361737465722d72656c6965662f3330302d636f6c756d6e2f73616e64792d72656c6965665f3330307837352e5f563430303638393439315f2e706e67c4bfc290c1be", [("3a6d6574686f64", "474554"); ("3a736368656d65", "68747470"); ("3a617574686f72697479", "672d6563782e696d616765732d616d617a6f6e2e636f6d"); ("3a70617468", "2f696d616765732f472f30312f696d6731322f6f746865722f64697361737465722d72656c6965662f3330302d636f6c756d6e2f73616e64792d72656c6965665f3330307837352e5f563430303638393439315f2e706e67"); ("757365722d6167656e74", "4d6f7a696c6c612f352e3020284d6163696e746f73683b20496e74656c204d6163204f5320582031302e383b2072763a31362e3029204765636b6f2f32303130303130312046697265666f782f31362e30"); ("616363657074", "696d6167652f706e672c696d6167652f2a3b713d302e382c2a2f2a3b713d302e35"); ("6163636570742d6c616e6775616765", "656e2d55532c656e3b713d302e35"); ("6163636570742d656e636f64696e67", "677a69702c206465666c617465"); ("636f6e6e656374696f6e", "6b6565702d616c697665"); ("72656665726572", "687474703a2f2f7777772e616d617a6f6e2e636f6d2f")]);
  ("8286410e7777772e616d617a6f6e2e636f6d84c5c4c390c2", [("3a6d6574686f64", "474554"); ("3a736368656d65", "68747470"); ("3a617574686f72697479", "7777772e616d617a6f6e2e636f6d"); ("3a70617468", "2f"); ("757365722d6167656e74", "4d6f7a696c6c612f352e3020284d6163696e746f73683b20496e74656c204d6163204f5320582031302e383b2072763a31362e3029204765636b6f2f32303130303130312046697265666f782f31362e30"); ("616363657074", "746578742f68746d6c2c6170706c69636174696f6e2f7868746d6c2b786d6c2c6170706c69636174696f6e2f786d6c3b713d302e392c2a2f2a3b713d302e38"); ("6163636570742d6c616e6775616765", "656e2d55532c656e3b713d302e35"); ("6163636570742d656e636f64696e67", "677a69702c206465666c617465"); ("636f6e6e656374696f6e", "6b6565702d616c697665")]);
  ("8286c1043f2f696d616765732f472f30312f782d6c6f63616c652f636f6d6d6f6e2f7472616e73706172656e742d706978656c2e5f563139323233343637355f2e676966c5c0c390c2bf", [("3a6d6574686f64", "474554"); ("3a736368656d65", "68747470"); ("3a617574686f72697479", "672d6563782e696d616765732d616d617a6f6e2e636f6d"); ("3a70617468", "2f696d616765732f472f30312f782d6c6f63616c652f636f6d6d6f6e2f7472616e73706172656e742d706978656c2e5f563139323233343637355f2e676966"); ("757365722d6167656e74", "4d6f7a696c6c612f352e3020284d6163696e746f73683b20496e74656c204d6163204f5320582031302e383b2072763a31362e3029204765636b6f2f32303130303130312046697265666f782f31362e30"); ("616363657074", "696d6167652f706e672c696d6167652f2a3b713d302e382c2a2f2a3b713d302e35"); ("6163636570742d6c616e6775616765", "656e2d55532c656e3b713d302e35"); ("6163636570742d656e636f64696e67", "677a69702c206465666c617465"); ("636f6e6e656374696f6e", "6b6565702d616c697665"); ("72656665726572", "687474703a2f2f7777772e616d617a6f6e2e636f6d2f")]);
  ("8286c1045b2f696d616765732f472f30312f696d6731322f73686f65732f73616c65735f6576656e74732f31315f6e6f762f313033305f4163636573736f7269657350524f4d4f5f475772696768742e5f563430303632363935305f2e676966c5c0c390c2bf", [("3a6d6574686f64", "474554"); ("3a736368656d65", "68747470"); ("3a617574686f72697479", "672d6563782e696d616765732d616d617a6f6e2e636f6d"); ("3a70617468", "2f696d616765732f472f30312f696d6731322f73686f65732f73616c65735f6576656e74732f31315f6e6f762f313033305f4163636573736f7269657350524f4d4f5f475772696768742e5f563430303632363935305f2e676966"); ("757365722d6167656e74", "4d6f7a696c6c612f352e3020284d6163696e746f73683b20496e74656c204d6163204f5320582031302e383b2072763a31362e3029204765636b6f2f32303130303130312046697265666f782f31362e30"); ("616363657074", "696d6167652f706e672c696d6167652f2a3b713d302e382c2a2f2a3b713d302e35"); ("6163636570742d6c616e6775616765", "656e2d55532c656e3b713d302e35"); ("6163636570742d656e636f64696e67", "677a69702c206465666c617465"); ("636f6e6e656374696f6e", "6b6565702d616c697665"); ("72656665726572", "687474703a2f2f7777772e616d617a6f6e2e636f6d2f")]);
  ("8286c1043e2f696d616765732f472f30312f4175746f6d6f746976652f726f746f732f4475726163656c6c3630305f3132302e5f563139323230343736345f2e6a7067c5c0c390c2bf", [("3a6d6574686f64", "474554"); ("3a736368656d65", "68747470"); ("3a617574686f72697479", "672d6563782e696d616765732d616d617a6f6e2e636f6d"); ("3a70617468", "2f696d616765732f472f30312f4175746f6d6f746976652f726f746f732f4475726163656c6c3630305f3132302e5f563139323230343736345f2e6a7067"); ("757365722d6167656e74", "4d6f7a696c6c612f352e3020284d6163696e746f73683b20496e74656c204d6163204f5320582031302e383b2072763a31362e3029204765636b6f2f32303130303130312046697265666f782f31362e30"); ("616363657074", "696d6167652f706e672c696d6167652f2a3b713d302e382c2a2f2a3b713d302e35"); ("6163636570742d6c616e6775616765", "656e2d55532c656e3b713d302e35"); ("6163636570742d656e636f64696e67", "677a69702c206465666c617465"); ("636f6e6e656374696f6e", "6b6565702d616c697665"); ("72656665726572", "687474703a2f2f7777772e616d617a6f6e2e636f6d2f")]);
  ("8286c104432f696d616765732f472f30312f75692f6c6f6164496e64696361746f72732f6c6f6164496e64696361746f722d6c617267652e5f563139323139353438305f2e676966c5c0c390c2bf", [("3a6d6574686f64", "474554"); ("3a736368656d65", "68747470"); ("3a617574686f72697479", "672d6563782e696d616765732d616d617a6f6e2e636f6d"); ("3a70617468", "2f696d616765732f472f30312f75692f6c6f6164496e64696361746f72732f6c6f6164496e64696361746f722d6c617267652e5f563139323139353438305f2e676966"); ("757365722d6167656e74", "4d6f7a696c6c612f352e3020284d6163696e746f73683b20496e74656c204d6163204f5320582031302e383b2072763a31362e3029204765636b6f2f32303130303130312046697265666f782f31362e30"); ("616363657074", "696d6167652f706e672c696d6167652f2a3b713d302e382c2a2f2a3b713d302e35"); ("6163636570742d6c616e6775616765", "656e2d55532c656e3b713d302e35"); ("6163636570742d656e636f64696e67", "677a69702c206465666c617465"); ("636f6e6e656374696f6e", "6b6565702d616c697665"); ("72656665726572", "687474703a2f2f7777772e616d617a6f6e2e636f6d2f")]);
  ("828641156563782e696d616765732d616d617a6f6e2e636f6d04212f696d616765732f492f3431485a2d4e442d53554c2e5f534c3133355f2e6a7067c6c1c490c3c0", [("3a6d6574686f64", "474554"); ("3a736368656d65", "68747470"); ("3a617574686f72697479", "6563782e696d616765732d616d617a6f6e2e636f6d"); ("3a70617468", "2f696d616765732f492f3431485a2d4e442d53554c2e5f534c3133355f2e6a7067"); ("757365722d6167656e74", "4d6f7a696c6c612f352e3020284d6163696e746f73683b20496e74656c204d6163204f5320582031302e383b2072763a31362e3029204765636b6f2f32303130303130312046697265666f782f31362e30"); ("616363657074", "696d6167652f706e672c696d6167652f2a3b713d302e382c2a2f2a3b713d302e35"); ("6163636570742d6c616e6775616765", "656e2d55532c656e3b713d302e35"); ("6163636570742d656e636f64696e67", "677a69702c206465666c617465"); ("636f6e6e656374696f6e", "6b6565702d616c697665"); ("72656665726572", "687474703a2f2f7777772e616d617a6f6e2e636f6d2f")])]%string.
(* hpack/fixtures/haskell-http2-naive-huffman/story_00.json *)
Definition story_3_0 : list (string * list (string * string)) := [
  ("0085b9495339e483c5837f0085b8824e5a4b839d29af0088b83b5339ec327d7f88f439ce75c875fa570084b958d33f8163", [("3a6d6574686f64", "474554"); ("3a736368656d65", "68747470"); ("3a617574686f72697479", "7961686f6f2e636f2e6a70"); ("3a70617468", "2f")]);
  ("0085b9495339e483c5837f0085b8824e5a4b839d29af0088b83b5339ec327d7f8cf1e3c2fe8739ceb90ebf4aff0084b958d33f8163", [("3a6d6574686f64", "474554"); ("3a736368656d65", "68747470"); ("3a617574686f72697479", "7777772e7961686f6f2e636f2e6a70"); ("3a70617468", "2f")]);
  ("0085b9495339e483c5837f0085b8824e5a4b839d29af0088b83b5339ec327d7f87eabfa35332fd2b0084b958d33f9b60d48e62a1849eb611589825353141e63ad52160b206c4f2f5d537", [("3a6d6574686f64", "474554"); ("3a736368656d65", "68747470"); ("3a617574686f72697479", "6b2e79696d672e6a70"); ("3a70617468", "2f696d616765732f746f702f7370322f636d6e2f6c6f676f2d6e732d3133303532382e706e67")])]%string.
(* hpack/fixtures/haskell-http2-naive-huffman/story_01.json *)
Definition story_3_1 : list (string * list (string * string)) := [
  ("0085b8824e5a4b849d29ad1f0088b83b5339ec327d7f882f91d35d055c87a70084b958d33f81630085b9495339e483c5837f0087b505b161cc5a93879eb193aac92a13008421cfd4c587f3e7cf9f3e7c870086f2b4e5a283ff84f07b2893", [("3a736368656d65", "6874747073"); ("3a617574686f72697479", "6578616d706c652e636f6d"); ("3a70617468", "2f"); ("3a6d6574686f64", "474554"); ("757365722d6167656e74", "687061636b2d74657374"); ("636f6f6b6965", "7878787878787831"); ("782d68656c6c6f", "776f726c64")]);
  ("0085b8824e5a4b849d29ad1f0088b83b5339ec327d7f882f91d35d055c87a70084b958d33f81630085b9495339e483c5837f0087b505b161cc5a93879eb193aac92a13008421cfd4c587f3e7cf9f3e7c8b", [("3a736368656d65", "6874747073"); ("3a617574686f72697479", "6578616d706c652e636f6d"); ("3a70617468", "2f"); ("3a6d6574686f64", "474554"); ("757365722d6167656e74", "687061636b2d74657374"); ("636f6f6b6965", "7878787878787832")])]%string.
(* hpack/fixtures/haskell-http2-naive-huffman/story_02.json *)
Definition story_3_2 : list (string * list (string * string)) := [
  ("0085b9495339e483c5837f0085b8824e5a4b839d29af0088b83b5339ec327d7f871d23f67a9721e90084b958d33f81630087b505b161cc5a93bcd07f66a281b0dae053fad0321aa49d13fda992a49685340c8a6adca7e28102ef7da9677b8171707f6a62293a9d810020004015309ac2ca7f2c05c5c1008419085ad3b0497ca589d34d1f43aeba0c41a4c7a98f33a69a3fdf9a68fa1d75d0620d263d4c79a68fbed00177febe58f9fbed00177b008b19085ad2b503aa6b47317f8b2d4b70ddf45abefb4005db008b19085ad2b16a21e435537f8a9bd9abfa5242cb40d25f008721eaa8a4498f5788ea52d6b0e83772ff", [("3a6d6574686f64", "474554"); ("3a736368656d65", "68747470"); ("3a617574686f72697479", "616d617a6f6e2e636f6d"); ("3a70617468", "2f"); ("757365722d6167656e74", "4d6f7a696c6c612f352e3020284d6163696e746f73683b20496e74656c204d6163204f5320582031302e383b2072763a31362e3029204765636b6f2f32303130303130312046697265666f782f31362e30"); ("616363657074", "746578742f68746d6c2c6170706c69636174696f6e2f7868746d6c2b786d6c2c6170706c69636174696f6e2f786d6c3b713d302e392c2a2f2a3b713d302e38"); ("6163636570742d6c616e6775616765", "656e2d55532c656e3b713d302e35"); ("6163636570742d656e636f64696e67", "677a69702c206465666c617465"); ("636f6e6e656374696f6e", "6b6565702d616c697665")]);
  ("0085b9495339e483c5837f0085b8824e5a4b839d29af0088b83b5339ec327d7f91996293cae6a473150b0e91fb3d4b90f4ff0084b958d33fab60d48e62a18c4c002c4d51d88ca321ea62e94643d5babb0c92adc372c00af17168017c0cb6cb712f5d537f0087b505b161cc5a93bcd07f66a281b0dae053fad0321aa49d13fda992a49685340c8a6adca7e28102ef7da9677b8171707f6a62293a9d810020004015309ac2ca7f2c05c5c1008419085ad39a352398ac5754df46a473158f9fbed00177bebe58f9fbed00176f008b19085ad2b503aa6b47317f8b2d4b70ddf45abefb4005db008b19085ad2b16a21e435537f8a9bd9abfa5242cb40d25f008721eaa8a4498f5788ea52d6b0e83772ff0085b0b296c2d9919d29aee30c78f1e171d23f67a9721e963f", [("3a6d6574686f64", "474554"); ("3a736368656d65", "68747470"); ("3a617574686f72697479", "672d6563782e696d616765732d616d617a6f6e2e636f6d"); ("3a70617468", "2f696d616765732f472f30312f676e6f2f626561636f6e2f426561636f6e5370726974652d55532d30312e5f563430313930333533355f2e706e67"); ("757365722d6167656e74", "4d6f7a696c6c612f352e3020284d6163696e746f73683b20496e74656c204d6163204f5320582031302e383b2072763a31362e3029204765636b6f2f32303130303130312046697265666f782f31362e30"); ("616363657074", "696d6167652f706e672c696d6167652f2a3b713d302e382c2a2f2a3b713d302e35"); ("6163636570742d6c616e6775616765", "656e2d55532c656e3b713d302e35"); ("6163636570742d656e636f64696e67", "677a69702c206465666c617465"); ("636f6e6e656374696f6e", "6b6565702d616c697665"); ("72656665726572", "687474703a2f2f7777772e616d617a6f6e2e636f6d2f")]);
  ("0085b9495339e483c5837f0085b8824e5a4b839d29af0088b83b5339ec327d7f91996293cae6a473150b0e91fb3d4b90f4ff0084b958d33fad60d48e62a18c4c002c795a83907415821e9a4f5309b07522b1d85a92b566f25a178b8b2f38fb4269c6a25e634b0087b505b161cc5a93bcd07f66a281b0dae053fad0321aa49d13fda992a49685340c8a6adca7e28102ef7da9677b8171707f6a62293a9d810020004015309ac2ca7f2c05c5c1008419085ad39a352398ac5754df46a473158f9fbed00177bebe58f9fbed00176f008b19085ad2b503aa6b47317f8b2d4b70ddf45abefb4005db008b19085ad2b16a21e435537f8a9bd9abfa5242cb40d25f008721eaa8a4498f5788ea52d6b0e83772ff0085b0b296c2d9919d29aee30c78f1e171d23f67a9721e963f", [("3a6d6574686f64", "474554"); ("3a736368656d65", "68747470"); ("3a617574686f72697479", "672d6563782e696d616765732d616d617a6f6e2e636f6d"); ("3a70617468", "2f696d616765732f472f30312f782d6c6f63616c652f636f6d6d6f6e2f7472616e73706172656e742d706978656c2e5f563338363934323436345f2e676966"); ("757365722d6167656e74", "4d6f7a696c6c612f352e3020284d6163696e746f73683b20496e74656c204d6163204f5320582031302e383b2072763a31362e3029204765636b6f2f32303130303130312046697265666f782f31362e30"); ("616363657074", "696d6167652f706e672c696d6167652f2a3b713d302e382c2a2f2a3b713d302e35"); ("6163636570742d6c616e6775616765", "656e2d55532c656e3b713d302e35"); ("6163636570742d656e636f64696e67", "677a69702c206465666c617465"); ("636f6e6e656374696f6e", "6b6565702d616c697665"); ("72656665726572", "687474703a2f2f7777772e616d617a6f6e2e636f6d2f")]);
  ("0085b9495339e483c5837f0085b8824e5a4b839d29af0088b83b5339ec327d7f91996293cae6a473150b0e91fb3d4b90f4ff0084b958d33fbf60d48e62a18c4c002c1a9982260e99cb63121903424b62d61683165619001621e8b69a9840ea93d2d61683165899003cbadaf171680071e7da7c312f5d537f0087b505b161cc5a93bcd07f66a281b0dae053fad0321aa49d13fda992a49685340c8a6adca7e28102ef7da9677b8171707f6a62293a9d810020004015309ac2ca7f2c05c5c1008419085ad39a352398ac5754df46a473158f9fbed00177bebe58f9fbed00176f008b19085ad2b503aa6b47317f8b2d4b70ddf45abefb4005db008b19085ad2b16a21e435537f8a9bd9abfa5242cb40d25f008721eaa8a4498f5788ea52d6b0e83772ff0085b0b296c2d9919d29aee30c78f1e171d23f67a9721e963f", [("3a6d6574686f64", "474554"); ("3a736368656d65", "68747470"); ("3a617574686f72697479", "672d6563782e696d616765732d616d617a6f6e2e636f6d"); ("3a70617468", "2f696d616765732f472f30312f696d6731322f6f746865722f64697361737465722d72656c6965662f3330302d636f6c756d6e2f73616e64792d72656c6965665f3330307837352e5f563430303638393439315f2e706e67"); ("757365722d6167656e74", "4d6f7a696c6c612f352e3020284d6163696e746f73683b20496e74656c204d6163204f5320582031302e383b2072763a31362e3029204765636b6f2f32303130303130312046697265666f782f31362e30"); ("616363657074", "696d6167652f706e672c696d6167652f2a3b713d302e382c2a2f2a3b713d302e35"); ("6163636570742d6c616e6775616765", "656e2d55532c656e3b713d302e35"); ("6163636570742d656e636f64696e67", "677a69702c206465666c617465"); ("636f6e6e656374696f6e", "6b6565702d616c697665"); ("72656665726572", "687474703a2f2f7777772e616d617a6f6e2e636f6d2f")]);
  ("0085b9495339e483c5837f0085b8824e5a4b839d29af0088b83b5339ec327d7f8bf1e3c2e3a47ecf52e43d3f0084b958d33f81630087b505b161cc5a93bcd07f66a281b0dae053fad0321aa49d13fda992a49685340c8a6adca7e28102ef7da9677b8171707f6a62293a9d810020004015309ac2ca7f2c05c5c1008419085ad3b0497ca589d34d1f43aeba0c41a4c7a98f33a69a3fdf9a68fa1d75d0620d263d4c79a68fbed00177febe58f9fbed00177b008b19085ad2b503aa6b47317f8b2d4b70ddf45abefb4005db008b19085ad2b16a21e435537f8a9bd9abfa5242cb40d25f008721eaa8a4498f5788ea52d6b0e83772ff", [("3a6d6574686f64", "474554"); ("3a736368656d65", "68747470"); ("3a617574686f72697479", "7777772e616d617a6f6e2e636f6d"); ("3a70617468", "2f"); ("757365722d6167656e74", "4d6f7a696c6c612f352e3020284d6163696e746f73683b20496e74656c204d6163204f5320582031302e383b2072763a31362e3029204765636b6f2f32303130303130312046697265666f782f31362e30"); ("616363657074", "746578742f68746d6c2c6170706c69636174696f6e2f7868746d6c2b786d6c2c6170706c69636174696f6e2f786d6c3b713d302e392c2a2f2a3b713d302e38"); ("6163636570742d6c616e6775616765", "656e2d55532c656e3b713d302e35"); ("6163636570742d656e636f64696e67", "677a69702c206465666c617465"); ("636f6e6e656374696f6e", "6b6565702d616c697665")]);
  ("0085b9495339e483c5837f0085b8824e5a4b839d29af0088b83b5339ec327d7f91996293cae6a473150b0e91fb3d4b90f4ff0084b958d33fad60d48e62a18c4c002c795a83907415821e9a4f5309b07522b1d85a92b566f25a178b885f109969c75b89798d2f0087b505b161cc5a93bcd07f66a281b0dae053fad0321aa49d13fda992a49685340c8a6adca7e28102ef7da9677b8171707f6a62293a9d810020004015309ac2ca7f2c05c5c1008419085ad39a352398ac5754df46a473158f9fbed00177bebe58f9fbed00176f008b19085ad2b503aa6b47317f8b2d4b70ddf45abefb4005db008b19085ad2b16a21e435537f8a9bd9abfa5242cb40d25f008721eaa8a4498f5788ea52d6b0e83772ff0085b0b296c2d9919d29aee30c78f1e171d23f67a9721e963f", [("3a6d6574686f64", "474554"); ("3a736368656d65", "68747470"); ("3a617574686f72697479", "672d6563782e696d616765732d616d617a6f6e2e636f6d"); ("3a70617468", "2f696d616765732f472f30312f782d6c6f63616c652f636f6d6d6f6e2f7472616e73706172656e742d706978656c2e5f563139323233343637355f2e676966"); ("757365722d6167656e74", "4d6f7a696c6c612f352e3020284d6163696e746f73683b20496e74656c204d6163204f5320582031302e383b2072763a31362e3029204765636b6f2f32303130303130312046697265666f782f31362e30"); ("616363657074", "696d6167652f706e672c696d6167652f2a3b713d302e382c2a2f2a3b713d302e35"); ("6163636570742d6c616e6775616765", "656e2d55532c656e3b713d302e35"); ("6163636570742d656e636f64696e67", "677a69702c206465666c617465"); ("636f6e6e656374696f6e", "6b6565702d616c697665"); ("72656665726572", "687474703a2f2f7777772e616d617a6f6e2e636f6d2f")]);
  ("0085b9495339e483c5837f0085b8824e5a4b839d29af0088b83b5339ec327d7f91996293cae6a473150b0e91fb3d4b90f4ff0084b958d33fc160d48e62a18c4c002c1a9982261139ca86103a0a888bdcb5250c0431547eec040c82284842a107b0c546bdbab46a8b172b0d34e95e2e2d000e09c7db044bcc697f0087b505b161cc5a93bcd07f66a281b0dae053fad0321aa49d13fda992a49685340c8a6adca7e28102ef7da9677b8171707f6a62293a9d810020004015309ac2ca7f2c05c5c1008419085ad39a352398ac5754df46a473158f9fbed00177bebe58f9fbed00176f008b19085ad2b503aa6b47317f8b2d4b70ddf45abefb4005db008b19085ad2b16a21e435537f8a9bd9abfa5242cb40d25f008721eaa8a4498f5788ea52d6b0e83772ff0085b0b296c2d9919d29aee30c78f1e171d23f67a9721e963f", [("3a6d6574686f64", "474554"); ("3a736368656d65", "68747470"); ("3a617574686f72697479", "672d6563782e696d616765732d616d617a6f6e2e636f6d"); ("3a70617468", "2f696d616765732f472f30312f696d6731322f73686f65732f73616c65735f6576656e74732f31315f6e6f762f313033305f4163636573736f7269657350524f4d4f5f475772696768742e5f563430303632363935305f2e676966"); ("757365722d6167656e74", "4d6f7a696c6c612f352e3020284d6163696e746f73683b20496e74656c204d6163204f5320582031302e383b2072763a31362e3029204765636b6f2f32303130303130312046697265666f782f31362e30"); ("616363657074", "696d6167652f706e672c696d6167652f2a3b713d302e382c2a2f2a3b713d302e35"); ("6163636570742d6c616e6775616765", "656e2d55532c656e3b713d302e35"); ("6163636570742d656e636f64696e67", "677a69702c206465666c617465"); ("636f6e6e656374696f6e", "6b6565702d616c697665"); ("72656665726572", "687474703a2f2f7777772e616d617a6f6e2e636f6d2f")]);
  ("0085b9495339e483c5837f0085b8824e5a4b839d29af0088b83b5339ec327d7f91996293cae6a473150b0e91fb3d4b90f4ff0084b958d33fac60d48e62a18c4c002c436a4f49d26ee562c3a4e862fdb60c85a287000882202f1710be2101a75c6a25fa57370087b505b161cc5a93bcd07f66a281b0dae053fad0321aa49d13fda992a49685340c8a6adca7e28102ef7da9677b8171707f6a62293a9d810020004015309ac2ca7f2c05c5c1008419085ad39a352398ac5754df46a473158f9fbed00177bebe58f9fbed00176f008b19085ad2b503aa6b47317f8b2d4b70ddf45abefb4005db008b19085ad2b16a21e435537f8a9bd9abfa5242cb40d25f008721eaa8a4498f5788ea52d6b0e83772ff0085b0b296c2d9919d29aee30c78f1e171d23f67a9721e963f", [("3a6d6574686f64", "474554"); ("3a736368656d65", "68747470"); ("3a617574686f72697479", "672d6563782e696d616765732d616d617a6f6e2e636f6d"); ("3a70617468", "2f696d616765732f472f30312f4175746f6d6f746976652f726f746f732f4475726163656c6c3630305f3132302e5f563139323230343736345f2e6a7067"); ("757365722d6167656e74", "4d6f7a696c6c612f352e3020284d6163696e746f73683b20496e74656c204d6163204f5320582031302e383b2072763a31362e3029204765636b6f2f32303130303130312046697265666f782f31362e30"); ("616363657074", "696d6167652f706e672c696d6167652f2a3b713d302e382c2a2f2a3b713d302e35"); ("6163636570742d6c616e6775616765", "656e2d55532c656e3b713d302e35"); ("6163636570742d656e636f64696e67", "677a69702c206465666c617465"); ("636f6e6e656374696f6e", "6b6565702d616c697665"); ("72656665726572", "687474703a2f2f7777772e616d617a6f6e2e636f6d2f")]);
  ("0085b9495339e483c5837f0085b8824e5a4b839d29af0088b83b5339ec327d7f91996293cae6a473150b0e91fb3d4b90f4ff0084b958d33fb060d48e62a18c4c002c5a662838e4c9548620d27b10c5071c992a90c41a4f62d40ec98abc5c42f882fb6d3c089798d2ff0087b505b161cc5a93bcd07f66a281b0dae053fad0321aa49d13fda992a49685340c8a6adca7e28102ef7da9677b8171707f6a62293a9d810020004015309ac2ca7f2c05c5c1008419085ad39a352398ac5754df46a473158f9fbed00177bebe58f9fbed00176f008b19085ad2b503aa6b47317f8b2d4b70ddf45abefb4005db008b19085ad2b16a21e435537f8a9bd9abfa5242cb40d25f008721eaa8a4498f5788ea52d6b0e83772ff0085b0b296c2d9919d29aee30c78f1e171d23f67a9721e963f", [("3a6d6574686f64", "474554"); ("3a736368656d65", "68747470"); ("3a617574686f72697479", "672d6563782e696d616765732d616d617a6f6e2e636f6d"); ("3a70617468", "2f696d616765732f472f30312f75692f6c6f6164496e64696361746f72732f6c6f6164496e64696361746f722d6c617267652e5f563139323139353438305f2e676966"); ("757365722d6167656e74", "4d6f7a696c6c612f352e3020284d6163696e746f73683b20496e74656c204d6163204f5320582031302e383b2072763a31362e3029204765636b6f2f32303130303130312046697265666f782f31362e30"); ("616363657074", "696d6167652f706e672c696d6167652f2a3b713d302e382c2a2f2a3b713d302e35"); ("6163636570742d6c616e6775616765", "656e2d55532c656e3b713d302e35"); ("6163636570742d656e636f64696e67", "677a69702c206465666c617465"); ("636f6e6e656374696f6e", "6b6565702d616c697665"); ("72656665726572", "687474703a2f2f7777772e616d617a6f6e2e636f6d2f")]);
  ("0085b9495339e483c5837f0085b8824e5a4b839d29af0088b83b5339ec327d7f8f293cae6a473150b0e91fb3d4b90f4f0084b958d33f9a60d48e62a18c8c341c7fab69beb6ee19d78b7670b2dc4bf4ae6f0087b505b161cc5a93bcd07f66a281b0dae053fad0321aa49d13fda992a49685340c8a6adca7e28102ef7da9677b8171707f6a62293a9d810020004015309ac2ca7f2c05c5c1008419085ad39a352398ac5754df46a473158f9fbed00177bebe58f9fbed00176f008b19085ad2b503aa6b47317f8b2d4b70ddf45abefb4005db008b19085ad2b16a21e435537f8a9bd9abfa5242cb40d25f008721eaa8a4498f5788ea52d6b0e83772ff0085b0b296c2d9919d29aee30c78f1e171d23f67a9721e963f", [("3a6d6574686f64", "474554"); ("3a736368656d65", "68747470"); ("3a617574686f72697479", "6563782e696d616765732d616d617a6f6e2e636f6d"); ("3a70617468", "2f696d616765732f492f3431485a2d4e442d53554c2e5f534c3133355f2e6a7067"); ("757365722d6167656e74", "4d6f7a696c6c612f352e3020284d6163696e746f73683b20496e74656c204d6163204f5320582031302e383b2072763a31362e3029204765636b6f2f32303130303130312046697265666f782f31362e30"); ("616363657074", "696d6167652f706e672c696d6167652f2a3b713d302e382c2a2f2a3b713d302e35"); ("6163636570742d6c616e6775616765", "656e2d55532c656e3b713d302e35"); ("6163636570742d656e636f64696e67", "677a69702c206465666c617465"); ("636f6e6e656374696f6e", "6b6565702d616c697665"); ("72656665726572", "687474703a2f2f7777772e616d617a6f6e2e636f6d2f")])]%string.
(* hpack/fixtures/haskell-http2-naive/story_00.json *)
Definition story_4_0 : list (string * list (string * string)) := [
  ("00073a6d6574686f640347455400073a736368656d650468747470000a3a617574686f726974790b7961686f6f2e636f2e6a7000053a70617468012f", [("3a6d6574686f64", "474554"); ("3a736368656d65", "68747470"); ("3a617574686f72697479", "7961686f6f2e636f2e6a70"); ("3a70617468", "2f")]);
  ("00073a6d6574686f640347455400073a736368656d650468747470000a3a617574686f726974790f7777772e7961686f6f2e636f2e6a7000053a70617468012f", [("3a6d6574686f64", "474554"); ("3a736368656d65", "68747470"); ("3a617574686f72697479", "7777772e7961686f6f2e636f2e6a70"); ("3a70617468", "2f")]);
  ("00073a6d6574686f640347455400073a736368656d650468747470000a3a617574686f72697479096b2e79696d672e6a7000053a70617468262f696d616765732f746f702f7370322f636d6e2f6c6f676f2d6e732d3133303532382e706e67", [("3a6d6574686f64", "474554"); ("3a736368656d65", "68747470"); ("3a617574686f72697479", "6b2e79696d672e6a70"); ("3a70617468", "2f696d616765732f746f702f7370322f636d6e2f6c6f676f2d6e732d3133303532382e706e67")])]%string.
(* hpack/fixtures/haskell-http2-naive/story_01.json *)
Definition story_4_1 : list (string * list (string * string)) := [
  ("00073a736368656d65056874747073000a3a617574686f726974790b6578616d706c652e636f6d00053a70617468012f00073a6d6574686f6403474554000a757365722d6167656e740a687061636b2d746573740006636f6f6b69650878787878787878310007782d68656c6c6f05776f726c64", [("3a736368656d65", "6874747073"); ("3a617574686f72697479", "6578616d706c652e636f6d"); ("3a70617468", "2f"); ("3a6d6574686f64", "474554"); ("757365722d6167656e74", "687061636b2d74657374"); ("636f6f6b6965", "7878787878787831"); ("782d68656c6c6f", "776f726c64")]);
  ("00073a736368656d65056874747073000a3a617574686f726974790b6578616d706c652e636f6d00053a70617468012f00073a6d6574686f6403474554000a757365722d6167656e740a687061636b2d746573740006636f6f6b6965087878787878787832", [("3a736368656d65", "6874747073"); ("3a617574686f72697479", "6578616d706c652e636f6d"); ("3a70617468", "2f"); ("3a6d6574686f64", "474554"); ("757365722d6167656e74", "687061636b2d74657374"); ("636f6f6b6965", "7878787878787832")])]%string.
(* hpack/fixtures/haskell-http2-naive/story_02.json *)
Definition story_4_2 : list (string * list (string * string)) := [
  ("00073a6d6574686f640347455400073a736368656d650468747470000a3a617574686f726974790a616d617a6f6e2e636f6d00053a70617468012f000a757365722d6167656e74514d6f7a696c6c612f352e3020284d6163696e746f73683b20496e74656c204d6163204f5320582031302e383b2072763a31362e3029204765636b6f2f32303130303130312046697265666f782f31362e3000066163636570743f746578742f68746d6c2c6170706c69636174696f6e2f7868746d6c2b786d6c2c6170706c69636174696f6e2f786d6c3b713d302e392c2a2f2a3b713d302e38000f6163636570742d6c616e67756167650e656e2d55532c656e3b713d302e35000f6163636570742d656e636f64696e670d677a69702c206465666c617465000a636f6e6e656374696f6e0a6b6565702d616c697665", [("3a6d6574686f64", "474554"); ("3a736368656d65", "68747470"); ("3a617574686f72697479", "616d617a6f6e2e636f6d"); ("3a70617468", "2f"); ("757365722d6167656e74", "4d6f7a696c6c612f352e3020284d6163696e746f73683b20496e74656c204d6163204f5320582031302e383b2072763a31362e3029204765636b6f2f32303130303130312046697265666f782f31362e30"); ("616363657074", "746578742f68746d6c2c6170706c69636174696f6e2f7868746d6c2b786d6c2c6170706c69636174696f6e2f786d6c3b713d302e392c2a2f2a3b713d302e38"); ("6163636570742d6c616e6775616765", "656e2d55532c656e3b713d302e35"); ("6163636570742d656e636f64696e67", "677a69702c206465666c617465"); ("636f6e6e656374696f6e", "6b6565702d616c697665")]);
  ("00073a6d6574686f640347455400073a736368656d650468747470000a3a617574686f7269747917672d6563782e696d616765732d616d617a6f6e2e636f6d00053a706174683b2f696d616765732f472f30312f676e6f2f626561636f6e2f426561636f6e5370726974652d55532d30312e5f563430313930333533355f2e706e67000a757365722d6167656e74514d6f7a696c6c612f352e3020284d6163696e746f73683b20496e74656c204d6163204f5320582031302e383b2072763a31362e3029204765636b6f2f32303130303130312046697265666f782f31362e30000661636365707421696d6167652f706e672c696d6167652f2a3b713d302e382c2a2f2a3b713d302e35000f6163636570742d6c616e67756167650e656e2d55532c656e3b713d302e35000f6163636570742d656e636f64696e670d677a69702c206465666c617465000a636f6e6e656374696f6e0a6b6565702d616c69766500077265666572657216687474703a2f2f7777772e616d617a6f6e2e636f6d2f", [("3a6d6574686f64", "474554"); ("3a736368656d65", "68747470"); ("3a617574686f72697479", "672d6563782e696d616765732d616d617a6f6e2e636f6d"); ("3a70617468", "2f696d616765732f472f30312f676e6f2f626561636f6e2f426561636f6e5370726974652d55532d30312e5f563430313930333533355f2e706e67"); ("757365722d6167656e74", "4d6f7a696c6c612f352e3020284d6163696e746f73683b20496e74656c204d6163204f5320582031302e383b2072763a31362e3029204765636b6f2f32303130303130312046697265666f782f31362e30"); ("616363657074", "696d6167652f706e672c696d6167652f2a3b713d302e382c2a2f2a3b713d302e35"); ("6163636570742d6c616e6775616765", "656e2d55532c656e3b713d302e35"); ("6163636570742d656e636f64696e67", "677a69702c206465666c617465"); ("636f6e6e656374696f6e", "6b6565702d616c697665"); ("72656665726572", "687474703a2f2f7777772e616d617a6f6e2e636f6d2f")]);
  ("00073a6d6574686f640347455400073a736368656d650468747470000a3a617574686f7269747917672d6563782e696d616765732d616d617a6f6e2e636f6d00053a706174683f2f696d616765732f472f30312f782d6c6f63616c652f636f6d6d6f6e2f7472616e73706172656e742d706978656c2e5f563338363934323436345f2e676966000a757365722d6167656e74514d6f7a696c6c612f352e3020284d6163696e746f73683b20496e74656c204d6163204f5320582031302e383b2072763a31362e3029204765636b6f2f32303130303130312046697265666f782f31362e30000661636365707421696d6167652f706e672c696d6167652f2a3b713d302e382c2a2f2a3b713d302e35000f6163636570742d6c616e67756167650e656e2d55532c656e3b713d302e35000f6163636570742d656e636f64696e670d677a69702c206465666c617465000a636f6e6e656374696f6e0a6b6565702d616c69766500077265666572657216687474703a2f2f7777772e616d617a6f6e2e636f6d2f", [("3a6d6574686f64", "474554"); ("3a736368656d65", "68747470"); ("3a617574686f72697479", "672d6563782e696d616765732d616d617a6f6e2e636f6d"); ("3a70617468", "2f696d616765732f472f30312f782d6c6f63616c652f636f6d6d6f6e2f7472616e73706172656e742d706978656c2e5f563338363934323436345f2e676966"); ("757365722d6167656e74", "4d6f7a696c6c612f352e3020284d6163696e746f73683b20496e74656c204d6163204f5320582031302e383b2072763a31362e3029204765636b6f2f32303130303130312046697265666f782f31362e30"); ("616363657074", "696d6167652f706e672c696d6167652f2a3b713d302e382c2a2f2a3b713d302e35"); ("6163636570742d6c616e6775616765", "656e2d55532c656e3b713d302e35"); ("6163636570742d656e636f64696e67", "677a69702c206465666c617465"); ("636f6e6e656374696f6e", "6b6565702d616c697665"); ("72656665726572", "687474703a2f2f7777772e616d617a6f6e2e636f6d2f")]);
  ("00073a6d6574686f640347455400073a736368656d650468747470000a3a617574686f7269747917672d6563782e696d616765732d616d617a6f6e2e636f6d00053a70617468582f696d616765732f472f30312f696d6731322f6f746865722f64697361737465722d72656c6965662f3330302d636f6c756d6e2f73616e64792d72656c6965665f3330307837352e5f563430303638393439315f2e706e67000a757365722d6167656e74514d6f7a696c6c612f352e3020284d6163696e746f73683b20496e74656c204d6163204f5320582031302e383b2072763a31362e3029204765636b6f2f32303130303130312046697265666f782f31362e30000661636365707421696d6167652f706e672c696d6167652f2a3b713d302e382c2a2f2a3b713d302e35000f6163636570742d6c616e67756167650e656e2d55532c656e3b713d302e35000f6163636570742d656e636f64696e670d677a69702c206465666c617465000a636f6e6e656374696f6e0a6b6565702d616c69766500077265666572657216687474703a2f2f7777772e616d617a6f6e2e636f6d2f", [("3a6d6574686f64", "474554"); ("3a736368656d65", "68747470"); ("3a617574686f72697479", "672d6563782e696d616765732d616d617a6f6e2e636f6d"); ("3a70617468", "2f696d616765732f472f30312f696d6731322f6f746865722f64697361737465722d72656c6965662f3330302d636f6c756d6e2f73616e64792d72656c6965665f3330307837352e5f563430303638393439315f2e706e67"); ("757365722d6167656e74", "4d6f7a696c6c612f352e3020284d6163696e746f73683b20496e74656c204d6163204f5320582031302e383b2072763a31362e3029204765636b6f2f32303130303130312046697265666f782f31362e30"); ("616363657074", "696d6167652f706e672c696d6167652f2a3b713d302e382c2a2f2a3b713d302e35"); ("6163636570742d6c616e6775616765", "656e2d55532c656e3b713d302e35"); ("6163636570742d656e636f64696e67", "677a69702c206465666c617465"); ("636f6e6e656374696f6e", "6b6565702d616c697665"); ("72656665726572", "687474703a2f2f7777772e616d617a6f6e2e636f6d2f")]);
  ("00073a6d6574686f640347455400073a736368656d650468747470000a3a617574686f726974790e7777772e616d617a6f6e2e636f6d00053a70617468012f000a757365722d6167656e74514d6f7a696c6c612f352e3020284d6163696e746f73683b20496e74656c204d6163204f5320582031302e383b2072763a31362e3029204765636b6f2f32303130303130312046697265666f782f31362e3000066163636570743f746578742f68746d6c2c6170706c69636174696f6e2f7868746d6c2b786d6c2c6170706c69636174696f6e2f786d6c3b713d302e392c2a2f2a3b713d302e38000f6163636570742d6c616e67756167650e656e2d55532c656e3b713d302e35000f6163636570742d656e636f64696e670d677a69702c206465666c617465000a636f6e6e656374696f6e0a6b6565702d616c697665", [("3a6d6574686f64", "474554"); ("3a736368656d65", "68747470"); ("3a617574686f72697479", "7777772e616d617a6f6e2e636f6d"); ("3a70617468", "2f"); ("757365722d6167656e74", "4d6f7a696c6c612f352e3020284d6163696e746f73683b20496e74656c204d6163204f5320582031302e383b2072763a31362e3029204765636b6f2f32303130303130312046697265666f782f31362e30"); ("616363657074", "746578742f68746d6c2c6170706c69636174696f6e2f7868746d6c2b786d6c2c6170706c69636174696f6e2f786d6c3b713d302e392c2a2f2a3b713d302e38"); ("6163636570742d6c616e6775616765", "656e2d55532c656e3b713d302e35"); ("6163636570742d656e636f64696e67", "677a69702c206465666c617465"); ("636f6e6e656374696f6e", "6b6565702d616c697665")]);
  ("00073a6d6574686f640347455400073a736368656d650468747470000a3a617574686f7269747917672d6563782e696d616765732d616d617a6f6e2e636f6d00053a706174683f2f696d616765732f472f30312f782d6c6f63616c652f636f6d6d6f6e2f7472616e73706172656e742d706978656c2e5f563139323233343637355f2e676966000a757365722d6167656e74514d6f7a696c6c612f352e3020284d6163696e746f73683b20496e74656c204d6163204f5320582031302e383b2072763a31362e3029204765636b6f2f32303130303130312046697265666f782f31362e30000661636365707421696d6167652f706e672c696d6167652f2a3b713d302e382c2a2f2a3b713d302e35000f6163636570742d6c616e67756167650e656e2d55532c656e3b713d302e35000f6163636570742d656e636f64696e670d677a69702c206465666c617465000a636f6e6e656374696f6e0a6b6565702d616c69766500077265666572657216687474703a2f2f7777772e616d617a6f6e2e636f6d2f", [("3a6d6574686f64", "474554"); ("3a736368656d65", "68747470"); ("3a617574686f72697479", "672d6563782e696d616765732d616d617a6f6e2e636f6d"); ("3a70617468", "2f696d616765732f472f30312f782d6c6f63616c652f636f6d6d6f6e2f7472616e73706172656e742d706978656c2e5f563139323233343637355f2e676966"); ("757365722d6167656e74", "4d6f7a696c6c612f352e3020284d6163696e746f73683b20496e74656c204d6163204f5320582031302e383b2072763a31362e3029204765636b6f2f32303130303130312046697265666f782f31362e30"); ("616363657074", "696d6167652f706e672c696d6167652f2a3b713d302e382c2a2f2a3b713d302e35"); ("6163636570742d6c616e6775616765", "656e2d55532c656e3b713d302e35"); ("6163636570742d656e636f64696e67", "677a69702c206465666c617465"); ("636f6e6e656374696f6e", "6b6565702d616c697665"); ("72656665726572", "687474703a2f2f7777772e616d617a6f6e2e636f6d2f")]);
  ("00073a6d6574686f640347455400073a736368656d650468747470000a3a617574686f7269747917672d6563782e696d616765732d616d617a6f6e2e636f6d00053a706174685b2f696d616765732f472f30312f696d6731322f73686f65732f73616c65735f6576656e74732f31315f6e6f762f313033305f4163636573736f7269657350524f4d4f5f475772696768742e5f563430303632363935305f2e676966000a757365722d6167656e74514d6f7a696c6c612f352e3020284d6163696e746f73683b20496e74656c204d6163204f5320582031302e383b2072763a31362e3029204765636b6f2f32303130303130312046697265666f782f31362e30000661636365707421696d6167652f706e672c696d6167652f2a3b713d302e382c2a2f2a3b713d302e35000f6163636570742d6c616e67756167650e656e2d55532c656e3b713d302e35000f6163636570742d656e636f64696e670d677a69702c206465666c617465000a636f6e6e656374696f6e0a6b6565702d616c69766500077265666572657216687474703a2f2f7777772e616d617a6f6e2e636f6d2f", [("3a6d6574686f64", "474554"); ("3a736368656d65", "68747470"); ("3a617574686f72697479", "672d6563782e696d616765732d616d617a6f6e2e636f6d"); ("3a70617468", "2f696d616765732f472f30312f696d6731322f73686f65732f73616c65735f6576656e74732f31315f6e6f762f313033305f4163636573736f7269657350524f4d4f5f475772696768742e5f563430303632363935305f2e676966"); ("757365722d6167656e74", "4d6f7a696c6c612f352e3020284d6163696e746f73683b20496e74656c204d6163204f5320582031302e383b2072763a31362e3029204765636b6f2f32303130303130312046697265666f782f31362e30"); ("616363657074", "696d6167652f706e672c696d6167652f2a3b713d302e382c2a2f2a3b713d302e35"); ("6163636570742d6c616e6775616765", "656e2d55532c656e3b713d302e35"); ("6163636570742d656e636f64696e67", "677a69702c206465666c617465"); ("636f6e6e656374696f6e", "6b6565702d616c697665"); ("72656665726572", "687474703a2f2f7777772e616d617a6f6e2e636f6d2f")]);
  ("00073a6d6574686f640347455400073a736368656d650468747470000a3a617574686f7269747917672d6563782e696d616765732d616d617a6f6e2e636f6d00053a706174683e2f696d616765732f472f30312f4175746f6d6f746976652f726f746f732f4475726163656c6c3630305f3132302e5f563139323230343736345f2e6a7067000a757365722d6167656e74514d6f7a696c6c612f352e3020284d6163696e746f73683b20496e74656c204d6163204f5320582031302e383b2072763a31362e3029204765636b6f2f32303130303130312046697265666f782f31362e30000661636365707421696d6167652f706e672c696d6167652f2a3b713d302e382c2a2f2a3b713d302e35000f6163636570742d6c616e67756167650e656e2d55532c656e3b713d302e35000f6163636570742d656e636f64696e670d677a69702c206465666c617465000a636f6e6e656374696f6e0a6b6565702d616c69766500077265666572657216687474703a2f2f7777772e616d617a6f6e2e636f6d2f", [("3a6d6574686f64", "474554"); ("3a736368656d65", "68747470"); ("3a617574686f72697479", "672d6563782e696d616765732d616d617a6f6e2e636f6d"); ("3a70617468", "2f696d616765732f472f30312f4175746f6d6f746976652f726f746f732f4475726163656c6c3630305f3132302e5f563139323230343736345f2e6a7067"); ("757365722d6167656e74", "4d6f7a696c6c612f352e3020284d6163696e746f73683b20496e74656c204d6163204f5320582031302e383b2072763a31362e3029204765636b6f2f32303130303130312046697265666f782f31362e30"); ("616363657074", "696d6167652f706e672c696d6167652f2a3b713d302e382c2a2f2a3b713d302e35"); ("6163636570742d6c616e6775616765", "656e2d55532c656e3b713d302e35"); ("6163636570742d656e636f64696e67", "677a69702c206465666c617465"); ("636f6e6e656374696f6e", "6b6565702d616c697665"); ("72656665726572", "687474703a2f2f7777772e616d617a6f6e2e636f6d2f")]);
  ("00073a6d6574686f640347455400073a736368656d650468747470000a3a617574686f7269747917672d6563782e696d616765732d616d617a6f6e2e636f6d00053a70617468432f696d616765732f472f30312f75692f6c6f6164496e64696361746f72732f6c6f6164496e64696361746f722d6c617267652e5f563139323139353438305f2e676966000a757365722d6167656e74514d6f7a696c6c612f352e3020284d6163696e746f73683b20496e74656c204d6163204f5320582031302e383b2072763a31362e3029204765636b6f2f32303130303130312046697265666f782f31362e30000661636365707421696d6167652f706e672c696d6167652f2a3b713d302e382c2a2f2a3b713d302e35000f6163636570742d6c616e67756167650e656e2d55532c656e3b713d302e35000f6163636570742d656e636f64696e670d677a69702c206465666c617465000a636f6e6e656374696f6e0a6b6565702d616c69766500077265666572657216687474703a2f2f7777772e616d617a6f6e2e636f6d2f", [("3a6d6574686f64", "474554"); ("3a736368656d65", "68747470"); ("3a617574686f72697479", "672d6563782e696d616765732d616d617a6f6e2e636f6d"); ("3a70617468", "2f696d616765732f472f30312f75692f6c6f6164496e64696361746f72732f6c6f6164496e64696361746f722d6c617267652e5f563139323139353438305f2e676966"); ("757365722d6167656e74", "4d6f7a696c6c612f352e3020284d6163696e746f73683b20496e74656c204d6163204f5320582031302e383b2072763a31362e3029204765636b6f2f32303130303130312046697265666f782f31362e30"); ("616363657074", "696d6167652f706e672c696d6167652f2a3b713d302e382c2a2f2a3b713d302e35"); ("6163636570742d6c616e6775616765", "656e2d55532c656e3b713d302e35"); ("6163636570742d656e636f64696e67", "677a69702c206465666c617465"); ("636f6e6e656374696f6e", "6b6565702d616c697665"); ("72656665726572", "687474703a2f2f7777772e616d617a6f6e2e636f6d2f")]);
  ("00073a6d6574686f640347455400073a736368656d650468747470000a3a617574686f72697479156563782e696d616765732d616d617a6f6e2e636f6d00053a70617468212f696d616765732f492f3431485a2d4e442d53554c2e5f534c3133355f2e6a7067000a757365722d6167656e74514d6f7a696c6c612f352e3020284d6163696e746f73683b20496e74656c204d6163204f5320582031302e383b2072763a31362e3029204765636b6f2f32303130303130312046697265666f782f31362e30000661636365707421696d6167652f706e672c696d6167652f2a3b713d302e382c2a2f2a3b713d302e35000f6163636570742d6c616e67756167650e656e2d55532c656e3b713d302e35000f6163636570742d656e636f64696e670d677a69702c206465666c617465000a636f6e6e656374696f6e0a6b6565702d616c69766500077265666572657216687474703a2f2f7777772e616d617a6f6e2e636f6d2f", [("3a6d6574686f64", "474554"); ("3a736368656d65", "68747470"); ("3a617574686f72697479", "6563782e696d616765732d616d617a6f6e2e636f6d"); ("3a70617468", "2f696d616765732f492f3431485a2d4e442d53554c2e5f534c3133355f2e6a7067"); ("757365722d6167656e74", "4d6f7a696c6c612f352e3020284d6163696e746f73683b20496e74656c204d6163204f5320582031302e383b2072763a31362e3029204765636b6f2f32303130303130312046697265666f782f31362e30"); ("616363657074", "696d6167652f706e672c696d6167652f2a3b713d302e382c2a2f2a3b713d302e35"); ("6163636570742d6c616e6775616765", "656e2d55532c656e3b713d302e35"); ("6163636570742d656e636f64696e67", "677a69702c206465666c617465"); ("636f6e6e656374696f6e", "6b6565702d616c697665"); ("72656665726572", "687474703a2f2f7777772e616d617a6f6e2e636f6d2f")])]%string.
(* hpack/fixtures/haskell-http2-static-huffman/story_00.json *)
Definition story_5_0 : list (string * list (string * string)) := [
  ("82860188f439ce75c875fa5784", [("3a6d6574686f64", "474554"); ("3a736368656d65", "68747470"); ("3a617574686f72697479", "7961686f6f2e636f2e6a70"); ("3a70617468", "2f")]);
  ("8286018cf1e3c2fe8739ceb90ebf4aff84", [("3a6d6574686f64", "474554"); ("3a736368656d65", "68747470"); ("3a617574686f72697479", "7777772e7961686f6f2e636f2e6a70"); ("3a70617468", "2f")]);
  ("82860187eabfa35332fd2b049b60d48e62a1849eb611589825353141e63ad52160b206c4f2f5d537", [("3a6d6574686f64", "474554"); ("3a736368656d65", "68747470"); ("3a617574686f72697479", "6b2e79696d672e6a70"); ("3a70617468", "2f696d616765732f746f702f7370322f636d6e2f6c6f676f2d6e732d3133303532382e706e67")])]%string.
(* hpack/fixtures/haskell-http2-static-huffman/story_01.json *)
Definition story_5_1 : list (string * list (string * string)) := [
  ("8701882f91d35d055c87a784820f2b879eb193aac92a130f1187f3e7cf9f3e7c870086f2b4e5a283ff84f07b2893", [("3a736368656d65", "6874747073"); ("3a617574686f72697479", "6578616d706c652e636f6d"); ("3a70617468", "2f"); ("3a6d6574686f64", "474554"); ("757365722d6167656e74", "687061636b2d74657374"); ("636f6f6b6965", "7878787878787831"); ("782d68656c6c6f", "776f726c64")]);
  ("8701882f91d35d055c87a784820f2b879eb193aac92a130f1187f3e7cf9f3e7c8b", [("3a736368656d65", "6874747073"); ("3a617574686f72697479", "6578616d706c652e636f6d"); ("3a70617468", "2f"); ("3a6d6574686f64", "474554"); ("757365722d6167656e74", "687061636b2d74657374"); ("636f6f6b6965", "7878787878787832")])]%string.
(* hpack/fixtures/haskell-http2-static-huffman/story_02.json *)
Definition story_5_2 : list (string * list (string * string)) := [
  ("828601871d23f67a9721e9840f2bbcd07f66a281b0dae053fad0321aa49d13fda992a49685340c8a6adca7e28102ef7da9677b8171707f6a62293a9d810020004015309ac2ca7f2c05c5c10f04b0497ca589d34d1f43aeba0c41a4c7a98f33a69a3fdf9a68fa1d75d0620d263d4c79a68fbed00177febe58f9fbed00177b0f028b2d4b70ddf45abefb4005db90008721eaa8a4498f5788ea52d6b0e83772ff", [("3a6d6574686f64", "474554"); ("3a736368656d65", "68747470"); ("3a617574686f72697479", "616d617a6f6e2e636f6d"); ("3a70617468", "2f"); ("757365722d6167656e74", "4d6f7a696c6c612f352e3020284d6163696e746f73683b20496e74656c204d6163204f5320582031302e383b2072763a31362e3029204765636b6f2f32303130303130312046697265666f782f31362e30"); ("616363657074", "746578742f68746d6c2c6170706c69636174696f6e2f7868746d6c2b786d6c2c6170706c69636174696f6e2f786d6c3b713d302e392c2a2f2a3b713d302e38"); ("6163636570742d6c616e6775616765", "656e2d55532c656e3b713d302e35"); ("6163636570742d656e636f64696e67", "677a69702c206465666c617465"); ("636f6e6e656374696f6e", "6b6565702d616c697665")]);
  ("82860191996293cae6a473150b0e91fb3d4b90f4ff04ab60d48e62a18c4c002c4d51d88ca321ea62e94643d5babb0c92adc372c00af17168017c0cb6cb712f5d537f0f2bbcd07f66a281b0dae053fad0321aa49d13fda992a49685340c8a6adca7e28102ef7da9677b8171707f6a62293a9d810020004015309ac2ca7f2c05c5c10f049a352398ac5754df46a473158f9fbed00177bebe58f9fbed00176f0f028b2d4b70ddf45abefb4005db90008721eaa8a4498f5788ea52d6b0e83772ff0f24919d29aee30c78f1e171d23f67a9721e963f", [("3a6d6574686f64", "474554"); ("3a736368656d65", "68747470"); ("3a617574686f72697479", "672d6563782e696d616765732d616d617a6f6e2e636f6d"); ("3a70617468", "2f696d616765732f472f30312f676e6f2f626561636f6e2f426561636f6e5370726974652d55532d30312e5f563430313930333533355f2e706e67"); ("757365722d6167656e74", "4d6f7a696c6c612f352e3020284d6163696e746f73683b20496e74656c204d6163204f5320582031302e383b2072763a31362e3029204765636b6f2f32303130303130312046697265666f782f31362e30"); ("616363657074", "696d6167652f706e672c696d6167652f2a3b713d302e382c2a2f2a3b713d302e35"); ("6163636570742d6c616e6775616765", "656e2d55532c656e3b713d302e35"); ("6163636570742d656e636f64696e67", "677a69702c206465666c617465"); ("636f6e6e656374696f6e", "6b6565702d616c697665"); ("72656665726572", "687474703a2f2f7777772e616d617a6f6e2e636f6d2f")]);
  ("82860191996293cae6a473150b0e91fb3d4b90f4ff04ad60d48e62a18c4c002c795a83907415821e9a4f5309b07522b1d85a92b566f25a178b8b2f38fb4269c6a25e634b0f2bbcd07f66a281b0dae053fad0321aa49d13fda992a49685340c8a6adca7e28102ef7da9677b8171707f6a62293a9d810020004015309ac2ca7f2c05c5c10f049a352398ac5754df46a473158f9fbed00177bebe58f9fbed00176f0f028b2d4b70ddf45abefb4005db90008721eaa8a4498f5788ea52d6b0e83772ff0f24919d29aee30c78f1e171d23f67a9721e963f", [("3a6d6574686f64", "474554"); ("3a736368656d65", "68747470"); ("3a617574686f72697479", "672d6563782e696d616765732d616d617a6f6e2e636f6d"); ("3a70617468", "2f696d616765732f472f30312f782d6c6f63616c652f636f6d6d6f6e2f7472616e73706172656e742d706978656c2e5f563338363934323436345f2e676966"); ("757365722d6167656e74", "4d6f7a696c6c612f352e3020284d6163696e746f73683b20496e74656c204d6163204f5320582031302e383b2072763a31362e3029204765636b6f2f32303130303130312046697265666f782f31362e30"); ("616363657074", "696d6167652f706e672c696d6167652f2a3b713d302e382c2a2f2a3b713d302e35"); ("6163636570742d6c616e6775616765", "656e2d55532c656e3b713d302e35"); ("6163636570742d656e636f64696e67", "677a69702c206465666c617465"); ("636f6e6e656374696f6e", "6b6565702d616c697665"); ("72656665726572", "687474703a2f2f7777772e616d617a6f6e2e636f6d2f")]);
  ("82860191996293cae6a473150b0e91fb3d4b90f4ff04bf60d48e62a18c4c002c1a9982260e99cb63121903424b62d61683165619001621e8b69a9840ea93d2d61683165899003cbadaf171680071e7da7c312f5d537f0f2bbcd07f66a281b0dae053fad0321aa49d13fda992a49685340c8a6adca7e28102ef7da9677b8171707f6a62293a9d810020004015309ac2ca7f2c05c5c10f049a352398ac5754df46a473158f9fbed00177bebe58f9fbed00176f0f028b2d4b70ddf45abefb4005db90008721eaa8a4498f5788ea52d6b0e83772ff0f24919d29aee30c78f1e171d23f67a9721e963f", [("3a6d6574686f64", "474554"); ("3a736368656d65", "68747470"); ("3a617574686f72697479", "672d6563782e696d616765732d616d617a6f6e2e636f6d"); ("3a70617468", "2f696d616765732f472f30312f696d6731322f6f746865722f64697361737465722d72656c6965662f3330302d636f6c756d6e2f73616e64792d72656c6965665f3330307837352e5f563430303638393439315f2e706e67"); ("757365722d6167656e74", "4d6f7a696c6c612f352e3020284d6163696e746f73683b20496e74656c204d6163204f5320582031302e383b2072763a31362e3029204765636b6f2f32303130303130312046697265666f782f31362e30"); ("616363657074", "696d6167652f706e672c696d6167652f2a3b713d302e382c2a2f2a3b713d302e35"); ("6163636570742d6c616e6775616765", "656e2d55532c656e3b713d302e35"); ("6163636570742d656e636f64696e67", "677a69702c206465666c617465"); ("636f6e6e656374696f6e", "6b6565702d616c697665"); ("72656665726572", "687474703a2f2f7777772e616d617a6f6e2e636f6d2f")]);
  ("8286018bf1e3c2e3a47ecf52e43d3f840f2bbcd07f66a281b0dae053fad0321aa49d13fda992a49685340c8a6adca7e28102ef7da9677b8171707f6a62293a9d810020004015309ac2ca7f2c05c5c10f04b0497ca589d34d1f43aeba0c41a4c7a98f33a69a3fdf9a68fa1d75d0620d263d4c79a68fbed00177febe58f9fbed00177b0f028b2d4b70ddf45abefb4005db90008721eaa8a4498f5788ea52d6b0e83772ff", [("3a6d6574686f64", "474554"); ("3a736368656d65", "68747470"); ("3a617574686f72697479", "7777772e616d617a6f6e2e636f6d"); ("3a70617468", "2f"); ("757365722d6167656e74", "4d6f7a696c6c612f352e3020284d6163696e746f73683b20496e74656c204d6163204f5320582031302e383b2072763a31362e3029204765636b6f2f32303130303130312046697265666f782f31362e30"); ("616363657074", "746578742f68746d6c2c6170706c69636174696f6e2f7868746d6c2b786d6c2c6170706c69636174696f6e2f786d6c3b713d302e392c2a2f2a3b713d302e38"); ("6163636570742d6c616e6775616765", "656e2d55532c656e3b713d302e35"); ("6163636570742d656e636f64696e67", "677a69702c206465666c617465"); ("636f6e6e656374696f6e", "6b6565702d616c697665")]);
  ("82860191996293cae6a473150b0e91fb3d4b90f4ff04ad60d48e62a18c4c002c795a83907415821e9a4f5309b07522b1d85a92b566f25a178b885f109969c75b89798d2f0f2bbcd07f66a281b0dae053fad0321aa49d13fda992a49685340c8a6adca7e28102ef7da9677b8171707f6a62293a9d810020004015309ac2ca7f2c05c5c10f049a352398ac5754df46a473158f9fbed00177bebe58f9fbed00176f0f028b2d4b70ddf45abefb4005db90008721eaa8a4498f5788ea52d6b0e83772ff0f24919d29aee30c78f1e171d23f67a9721e963f", [("3a6d6574686f64", "474554"); ("3a736368656d65", "68747470"); ("3a617574686f72697479", "672d6563782e696d616765732d616d617a6f6e2e636f6d"); ("3a70617468", "2f696d616765732f472f30312f782d6c6f63616c652f636f6d6d6f6e2f7472616e73706172656e742d706978656c2e5f563139323233343637355f2e676966"); ("757365722d6167656e74", "4d6f7a696c6c612f352e3020284d6163696e746f73683b20496e74656c204d6163204f5320582031302e383b2072763a31362e3029204765636b6f2f32303130303130312046697265666f782f31362e30"); ("616363657074", "696d6167652f706e672c696d6167652f2a3b713d302e382c2a2f2a3b713d302e35"); ("6163636570742d6c616e6775616765", "656e2d55532c656e3b713d302e35"); ("6163636570742d656e636f64696e67", "677a69702c206465666c617465"); ("636f6e6e656374696f6e", "6b6565702d616c697665"); ("72656665726572", "687474703a2f2f7777772e616d617a6f6e2e636f6d2f")]);
  ("82860191996293cae6a473150b0e91fb3d4b90f4ff04c160d48e62a18c4c002c1a9982261139ca86103a0a888bdcb5250c0431547eec040c82284842a107b0c546bdbab46a8b172b0d34e95e2e2d000e09c7db044bcc697f0f2bbcd07f66a281b0dae053fad0321aa49d13fda992a49685340c8a6adca7e28102ef7da9677b8171707f6a62293a9d810020004015309ac2ca7f2c05c5c10f049a352398ac5754df46a473158f9fbed00177bebe58f9fbed00176f0f028b2d4b70ddf45abefb4005db90008721eaa8a4498f5788ea52d6b0e83772ff0f24919d29aee30c78f1e171d23f67a9721e963f", [("3a6d6574686f64", "474554"); ("3a736368656d65", "68747470"); ("3a617574686f72697479", "672d6563782e696d616765732d616d617a6f6e2e636f6d"); ("3a70617468", "2f696d616765732f472f30312f696d6731322f73686f65732f73616c65735f6576656e74732f31315f6e6f762f313033305f4163636573736f7269657350524f4d4f5f475772696768742e5f563430303632363935305f2e676966"); ("757365722d6167656e74", "4d6f7a696c6c612f352e3020284d6163696e746f73683b20496e74656c204d6163204f5320582031302e383b2072763a31362e3029204765636b6f2f32303130303130312046697265666f782f31362e30"); ("616363657074", "696d6167652f706e672c696d6167652f2a3b713d302e382c2a2f2a3b713d302e35"); ("6163636570742d6c616e6775616765", "656e2d55532c656e3b713d302e35"); ("6163636570742d656e636f64696e67", "677a69702c206465666c617465"); ("636f6e6e656374696f6e", "6b6565702d616c697665"); ("72656665726572", "687474703a2f2f7777772e616d617a6f6e2e636f6d2f")]);
  ("82860191996293cae6a473150b0e91fb3d4b90f4ff04ac60d48e62a18c4c002c436a4f49d26ee562c3a4e862fdb60c85a287000882202f1710be2101a75c6a25fa57370f2bbcd07f66a281b0dae053fad0321aa49d13fda992a49685340c8a6adca7e28102ef7da9677b8171707f6a62293a9d810020004015309ac2ca7f2c05c5c10f049a352398ac5754df46a473158f9fbed00177bebe58f9fbed00176f0f028b2d4b70ddf45abefb4005db90008721eaa8a4498f5788ea52d6b0e83772ff0f24919d29aee30c78f1e171d23f67a9721e963f", [("3a6d6574686f64", "474554"); ("3a736368656d65", "68747470"); ("3a617574686f72697479", "672d6563782e696d616765732d616d617a6f6e2e636f6d"); ("3a70617468", "2f696d616765732f472f30312f4175746f6d6f746976652f726f746f732f4475726163656c6c3630305f3132302e5f563139323230343736345f2e6a7067"); ("757365722d6167656e74", "4d6f7a696c6c612f352e3020284d6163696e746f73683b20496e74656c204d6163204f5320582031302e383b2072763a31362e3029204765636b6f2f32303130303130312046697265666f782f31362e30"); ("616363657074", "696d6167652f706e672c696d6167652f2a3b713d302e382c2a2f2a3b713d302e35"); ("6163636570742d6c616e6775616765", "656e2d55532c656e3b713d302e35"); ("6163636570742d656e636f64696e67", "677a69702c206465666c617465"); ("636f6e6e656374696f6e", "6b6565702d616c697665"); ("72656665726572", "687474703a2f2f7777772e616d617a6f6e2e636f6d2f")]);
  ("82860191996293cae6a473150b0e91fb3d4b90f4ff04b060d48e62a18c4c002c5a662838e4c9548620d27b10c5071c992a90c41a4f62d40ec98abc5c42f882fb6d3c089798d2ff0f2bbcd07f66a281b0dae053fad0321aa49d13fda992a49685340c8a6adca7e28102ef7da9677b8171707f6a62293a9d810020004015309ac2ca7f2c05c5c10f049a352398ac5754df46a473158f9fbed00177bebe58f9fbed00176f0f028b2d4b70ddf45abefb4005db90008721eaa8a4498f5788ea52d6b0e83772ff0f24919d29aee30c78f1e171d23f67a9721e963f", [("3a6d6574686f64", "474554"); ("3a736368656d65", "68747470"); ("3a617574686f72697479", "672d6563782e696d616765732d616d617a6f6e2e636f6d"); ("3a70617468", "2f696d616765732f472f30312f75692f6c6f6164496e64696361746f72732f6c6f6164496e64696361746f722d6c617267652e5f563139323139353438305f2e676966"); ("757365722d6167656e74", "4d6f7a696c6c612f352e3020284d6163696e746f73683b20496e74656c204d6163204f5320582031302e383b2072763a31362e3029204765636b6f2f32303130303130312046697265666f782f31362e30"); ("616363657074", "696d6167652f706e672c696d6167652f2a3b713d302e382c2a2f2a3b713d302e35"); ("6163636570742d6c616e6775616765", "656e2d55532c656e3b713d302e35"); ("6163636570742d656e636f64696e67", "677a69702c206465666c617465"); ("636f6e6e656374696f6e", "6b6565702d616c697665"); ("72656665726572", "687474703a2f2f7777772e616d617a6f6e2e636f6d2f")]);
  ("8286018f293cae6a473150b0e91fb3d4b90f4f049a60d48e62a18c8c341c7fab69beb6ee19d78b7670b2dc4bf4ae6f0f2bbcd07f66a281b0dae053fad0321aa49d13fda992a49685340c8a6adca7e28102ef7da9677b8171707f6a62293a9d810020004015309ac2ca7f2c05c5c10f049a352398ac5754df46a473158f9fbed00177bebe58f9fbed00176f0f028b2d4b70ddf45abefb4005db90008721eaa8a4498f5788ea52d6b0e83772ff0f24919d29aee30c78f1e171d23f67a9721e963f", [("3a6d6574686f64", "474554"); ("3a736368656d65", "68747470"); ("3a617574686f72697479", "6563782e696d616765732d616d617a6f6e2e636f6d"); ("3a70617468", "2f696d616765732f492f3431485a2d4e442d53554c2e5f534c3133355f2e6a7067"); ("757365722d6167656e74", "4d6f7a696c6c612f352e3020284d6163696e746f73683b20496e74656c204d6163204f5320582031302e383b2072763a31362e3029204765636b6f2f32303130303130312046697265666f782f31362e30"); ("616363657074", "696d6167652f706e672c696d6167652f2a3b713d302e382c2a2f2a3b713d302e35"); ("6163636570742d6c616e6775616765", "656e2d55532c656e3b713d302e35"); ("6163636570742d656e636f64696e67", "677a69702c206465666c617465"); ("636f6e6e656374696f6e", "6b6565702d616c697665"); ("72656665726572", "687474703a2f2f7777772e616d617a6f6e2e636f6d2f")])]%string.
(* hpack/fixtures/haskell-http2-static/story_00.json *)
Definition story_6_0 : list (string * list (string * string)) := [
  ("8286010b7961686f6f2e636f2e6a7084", [("3a6d6574686f64", "474554"); ("3a736368656d65", "68747470"); ("3a617574686f72697479", "7961686f6f2e636f2e6a70"); ("3a70617468", "2f")]);
  ("8286010f7777772e7961686f6f2e636f2e6a7084", [("3a6d6574686f64", "474554"); ("3a736368656d65", "68747470"); ("3a617574686f72697479", "7777772e7961686f6f2e636f2e6a70"); ("3a70617468", "2f")]);
  ("828601096b2e79696d672e6a7004262f696d616765732f746f702f7370322f636d6e2f6c6f676f2d6e732d3133303532382e706e67", [("3a6d6574686f64", "474554"); ("3a736368656d65", "68747470"); ("3a617574686f72697479", "6b2e79696d672e6a70"); ("3a70617468", "2f696d616765732f746f702f7370322f636d6e2f6c6f676f2d6e732d3133303532382e706e67")])]%string.
(* hpack/fixtures/haskell-http2-static/story_01.json *)
Definition story_6_1 : list (string * list (string * string)) := [
  ("87010b6578616d706c652e636f6d84820f2b0a687061636b2d746573740f110878787878787878310007782d68656c6c6f05776f726c64", [("3a736368656d65", "6874747073"); ("3a617574686f72697479", "6578616d706c652e636f6d"); ("3a70617468", "2f"); ("3a6d6574686f64", "474554"); ("757365722d6167656e74", "687061636b2d74657374"); ("636f6f6b6965", "7878787878787831"); ("782d68656c6c6f", "776f726c64")]);
  ("87010b6578616d706c652e636f6d84820f2b0a687061636b2d746573740f11087878787878787832", [("3a736368656d65", "6874747073"); ("3a617574686f72697479", "6578616d706c652e636f6d"); ("3a70617468", "2f"); ("3a6d6574686f64", "474554"); ("757365722d6167656e74", "687061636b2d74657374"); ("636f6f6b6965", "7878787878787832")])]%string.
(* hpack/fixtures/haskell-http2-static/story_02.json *)
Definition story_6_2 : list (string * list (string * string)) := [
  ("8286010a616d617a6f6e2e636f6d840f2b514d6f7a696c6c612f352e3020284d6163696e746f73683b20496e74656c204d6163204f5320582031302e383b2072763a31362e3029204765636b6f2f32303130303130312046697265666f782f31362e300f043f746578742f68746d6c2c6170706c69636174696f6e2f7868746d6c2b786d6c2c6170706c69636174696f6e2f786d6c3b713d302e392c2a2f2a3b713d302e380f020e656e2d55532c656e3b713d302e3590000a636f6e6e656374696f6e0a6b6565702d616c697665", [("3a6d6574686f64", "474554"); ("3a736368656d65", "68747470"); ("3a617574686f72697479", "616d617a6f6e2e636f6d"); ("3a70617468", "2f"); ("757365722d6167656e74", "4d6f7a696c6c612f352e3020284d6163696e746f73683b20496e74656c204d6163204f5320582031302e383b2072763a31362e3029204765636b6f2f32303130303130312046697265666f782f31362e30"); ("616363657074", "746578742f68746d6c2c6170706c69636174696f6e2f7868746d6c2b786d6c2c6170706c69636174696f6e2f786d6c3b713d302e392c2a2f2a3b713d302e38"); ("6163636570742d6c616e6775616765", "656e2d55532c656e3b713d302e35"); ("6163636570742d656e636f64696e67", "677a69702c206465666c617465"); ("636f6e6e656374696f6e", "6b6565702d616c697665")]);
  ("82860117672d6563782e696d616765732d616d617a6f6e2e636f6d043b2f696d616765732f472f30312f676e6f2f626561636f6e2f426561636f6e5370726974652d55532d30312e5f563430313930333533355f2e706e670f2b514d6f7a696c6c612f352e3020284d6163696e746f73683b20496e74656c204d6163204f5320582031302e383b2072763a31362e3029204765636b6f2f32303130303130312046697265666f782f31362e300f0421696d6167652f706e672c696d6167652f2a3b713d302e382c2a2f2a3b713d302e350f020e656e2d55532c656e3b713d302e3590000a636f6e6e656374696f6e0a6b6565702d616c6976650f2416687474703a2f2f7777772e616d617a6f6e2e636f6d2f", [("3a6d6574686f64", "474554"); ("3a736368656d65", "68747470"); ("3a617574686f72697479", "672d6563782e696d616765732d616d617a6f6e2e636f6d"); ("3a70617468", "2f696d616765732f472f30312f676e6f2f626561636f6e2f426561636f6e5370726974652d55532d30312e5f563430313930333533355f2e706e67"); ("757365722d6167656e74", "4d6f7a696c6c612f352e3020284d6163696e746f73683b20496e74656c204d6163204f5320582031302e383b2072763a31362e3029204765636b6f2f32303130303130312046697265666f782f31362e30"); ("616363657074", "696d6167652f706e672c696d6167652f2a3b713d302e382c2a2f2a3b713d302e35"); ("6163636570742d6c616e6775616765", "656e2d55532c656e3b713d302e35"); ("6163636570742d656e636f64696e67", "677a69702c206465666c617465"); ("636f6e6e656374696f6e", "6b6565702d616c697665"); ("72656665726572", "687474703a2f2f7777772e616d617a6f6e2e636f6d2f")]);
  ("82860117672d6563782e696d616765732d616d617a6f6e2e636f6d043f2f696d616765732f472f30312f782d6c6f63616c652f636f6d6d6f6e2f7472616e73706172656e742d706978656c2e5f563338363934323436345f2e6769660f2b514d6f7a696c6c612f352e3020284d6163696e746f73683b20496e74656c204d6163204f5320582031302e383b2072763a31362e3029204765636b6f2f32303130303130312046697265666f782f31362e300f0421696d6167652f706e672c696d6167652f2a3b713d302e382c2a2f2a3b713d302e350f020e656e2d55532c656e3b713d302e3590000a636f6e6e656374696f6e0a6b6565702d616c6976650f2416687474703a2f2f7777772e616d617a6f6e2e636f6d2f", [("3a6d6574686f64", "474554"); ("3a736368656d65", "68747470"); ("3a617574686f72697479", "672d6563782e696d616765732d616d617a6f6e2e636f6d"); ("3a70617468", "2f696d616765732f472f30312f782d6c6f63616c652f636f6d6d6f6e2f7472616e73706172656e742d706978656c2e5f563338363934323436345f2e676966"); ("757365722d6167656e74", "4d6f7a696c6c612f352e3020284d6163696e746f73683b20496e74656c204d6163204f5320582031302e383b2072763a31362e3029204765636b6f2f32303130303130312046697265666f782f31362e30"); ("616363657074", "696d6167652f706e672c696d6167652f2a3b713d302e382c2a2f2a3b713d302e35"); ("6163636570742d6c616e6775616765", "656e2d55532c656e3b713d302e35"); ("6163636570742d656e636f64696e67", "677a69702c206465666c617465"); ("636f6e6e656374696f6e", "6b6565702d616c697665"); ("72656665726572", "687474703a2f2f7777772e616d617a6f6e2e636f6d2f")]);
  ("82860117672d6563782e696d616765732d616d617a6f6e2e636f6d04582f696d616765732f472f30312f696d6731322f6f746865722f64697361737465722d72656c6965662f3330302d636f6c756d6e2f73616e64792d72656c6965665f3330307837352e5f563430303638393439315f2e706e670f2b514d6f7a696c6c612f352e3020284d6163696e746f73683b20496e74656c204d6163204f5320582031302e383b2072763a31362e3029204765636b6f2f32303130303130312046697265666f782f31362e300f0421696d6167652f706e672c696d6167652f2a3b713d302e382c2a2f2a3b713d302e350f020e656e2d55532c656e3b713d302e3590000a636f6e6e656374696f6e0a6b6565702d616c6976650f2416687474703a2f2f7777772e616d617a6f6e2e636f6d2f", [("3a6d6574686f64", "474554"); ("3a736368656d65", "68747470"); ("3a617574686f72697479", "672d6563782e696d616765732d616d617a6f6e2e636f6d"); ("3a70617468", "2f696d616765732f472f30312f696d6731322f6f746865722f64697361737465722d72656c6965662f3330302d636f6c756d6e2f73616e64792d72656c6965665f3330307837352e5f563430303638393439315f2e706e67"); ("757365722d6167656e74", "4d6f7a696c6c612f352e3020284d6163696e746f73683b20496e74656c204d6163204f5320582031302e383b2072763a31362e3029204765636b6f2f32303130303130312046697265666f782f31362e30"); ("616363657074", "696d6167652f706e672c696d6167652f2a3b713d302e382c2a2f2a3b713d302e35"); ("6163636570742d6c616e6775616765", "656e2d55532c656e3b713d302e35"); ("6163636570742d656e636f64696e67", "677a69702c206465666c617465"); ("636f6e6e656374696f6e", "6b6565702d616c697665"); ("72656665726572", "687474703a2f2f7777772e616d617a6f6e2e636f6d2f")]);
  ("8286010e7777772e616d617a6f6e2e636f6d840f2b514d6f7a696c6c612f352e3020284d6163696e746f73683b20496e74656c204d6163204f5320582031302e383b2072763a31362e3029204765636b6f2f32303130303130312046697265666f782f31362e300f043f746578742f68746d6c2c6170706c69636174696f6e2f7868746d6c2b786d6c2c6170706c69636174696f6e2f786d6c3b713d302e392c2a2f2a3b713d302e380f020e656e2d55532c656e3b713d302e3590000a636f6e6e656374696f6e0a6b6565702d616c697665", [("3a6d6574686f64", "474554"); ("3a736368656d65", "68747470"); ("3a617574686f72697479", "7777772e616d617a6f6e2e636f6d"); ("3a70617468", "2f"); ("757365722d6167656e74", "4d6f7a696c6c612f352e3020284d6163696e746f73683b20496e74656c204d6163204f5320582031302e383b2072763a31362e3029204765636b6f2f32303130303130312046697265666f782f31362e30"); ("616363657074", "746578742f68746d6c2c6170706c69636174696f6e2f7868746d6c2b786d6c2c6170706c69636174696f6e2f786d6c3b713d302e392c2a2f2a3b713d302e38"); ("6163636570742d6c616e6775616765", "656e2d55532c656e3b713d302e35"); ("6163636570742d656e636f64696e67", "677a69702c206465666c617465"); ("636f6e6e656374696f6e", "6b6565702d616c697665")]);
  ("82860117672d6563782e696d616765732d616d617a6f6e2e636f6d043f2f696d616765732f472f30312f782d6c6f63616c652f636f6d6d6f6e2f7472616e73706172656e742d706978656c2e5f563139323233343637355f2e6769660f2b514d6f7a696c6c612f352e3020284d6163696e746f73683b20496e74656c204d6163204f5320582031302e383b2072763a31362e3029204765636b6f2f32303130303130312046697265666f782f31362e300f0421696d6167652f706e672c696d6167652f2a3b713d302e382c2a2f2a3b713d302e350f020e656e2d55532c656e3b713d302e3590000a636f6e6e656374696f6e0a6b6565702d616c6976650f2416687474703a2f2f7777772e616d617a6f6e2e636f6d2f", [("3a6d6574686f64", "474554"); ("3a736368656d65", "68747470"); ("3a617574686f72697479", "672d6563782e696d616765732d616d617a6f6e2e636f6d"); ("3a70617468", "2f696d616765732f472f30312f782d6c6f63616c652f636f6d6d6f6e2f7472616e73706172656e742d706978656c2e5f563139323233343637355f2e676966"); ("757365722d6167656e74", "4d6f7a696c6c612f352e3020284d6163696e746f73683b20496e74656c204d6163204f5320582031302e383b2072763a31362e3029204765636b6f2f32303130303130312046697265666f782f31362e30"); ("616363657074", "696d6167652f706e672c696d6167652f2a3b713d302e382c2a2f2a3b713d302e35"); ("6163636570742d6c616e6775616765", "656e2d55532c656e3b713d302e35"); ("6163636570742d656e636f64696e67", "677a69702c206465666c617465"); ("636f6e6e656374696f6e", "6b6565702d616c697665"); ("72656665726572", "687474703a2f2f7777772e616d617a6f6e2e636f6d2f")]);
  ("82860117672d6563782e696d616765732d616d617a6f6e2e636f6d045b2f696d616765732f472f30312f696d6731322f73686f65732f73616c65735f6576656e74732f31315f6e6f762f313033305f4163636573736f7269657350524f4d4f5f475772696768742e5f563430303632363935305f2e6769660f2b514d6f7a696c6c612f352e3020284d6163696e746f73683b20496e74656c204d6163204f5320582031302e383b2072763a31362e3029204765636b6f2f32303130303130312046697265666f782f31362e300f0421696d6167652f706e672c696d6167652f2a3b713d302e382c2a2f2a3b713d302e350f020e656e2d55532c656e3b713d302e3590000a636f6e6e656374696f6e0a6b6565702d616c6976650f2416687474703a2f2f7777772e616d617a6f6e2e636f6d2f", [("3a6d6574686f64", "474554"); ("3a736368656d65", "68747470"); ("3a617574686f72697479", "672d6563782e696d616765732d616d617a6f6e2e636f6d"); ("3a70617468", "2f696d616765732f472f30312f696d6731322f73686f65732f73616c65735f6576656e74732f31315f6e6f762f313033305f4163636573736f7269657350524f4d4f5f475772696768742e5f563430303632363935305f2e676966"); ("757365722d6167656e74", "4d6f7a696c6c612f352e3020284d6163696e746f73683b20496e74656c204d6163204f5320582031302e383b2072763a31362e3029204765636b6f2f32303130303130312046697265666f782f31362e30"); ("616363657074", "696d6167652f706e672c696d6167652f2a3b713d302e382c2a2f2a3b713d302e35"); ("6163636570742d6c616e6775616765", "656e2d55532c656e3b713d302e35"); ("6163636570742d656e636f64696e67", "677a69702c206465666c617465"); ("636f6e6e656374696f6e", "6b6565702d616c697665"); ("72656665726572", "687474703a2f2f7777772e616d617a6f6e2e636f6d2f")]);
  ("82860117672d6563782e696d616765732d616d617a6f6e2e636f6d043e2f696d616765732f472f30312f4175746f6d6f746976652f726f746f732f4475726163656c6c3630305f3132302e5f563139323230343736345f2e6a70670f2b514d6f7a696c6c612f352e3020284d6163696e746f73683b20496e74656c204d6163204f5320582031302e383b2072763a31362e3029204765636b6f2f32303130303130312046697265666f782f31362e300f0421696d6167652f706e672c696d6167652f2a3b713d302e382c2a2f2a3b713d302e350f020e656e2d55532c656e3b713d302e3590000a636f6e6e656374696f6e0a6b6565702d616c6976650f2416687474703a2f2f7777772e616d617a6f6e2e636f6d2f", [("3a6d6574686f64", "474554"); ("3a736368656d65", "68747470"); ("3a617574686f72697479", "672d6563782e696d616765732d616d617a6f6e2e636f6d"); ("3a70617468", "2f696d616765732f472f30312f4175746f6d6f746976652f726f746f732f4475726163656c6c3630305f3132302e5f563139323230343736345f2e6a7067"); ("757365722d6167656e74", "4d6f7a696c6c612f352e3020284d6163696e746f73683b20496e74656c204d6163204f5320582031302e383b2072763a31362e3029204765636b6f2f32303130303130312046697265666f782f31362e30"); ("616363657074", "696d6167652f706e672c696d6167652f2a3b713d302e382c2a2f2a3b713d302e35"); ("6163636570742d6c616e6775616765", "656e2d55532c656e3b713d302e35"); ("6163636570742d656e636f64696e67", "677a69702c206465666c617465"); ("636f6e6e656374696f6e", "6b6565702d616c697665"); ("72656665726572", "687474703a2f2f7777772e616d617a6f6e2e636f6d2f")]);
  ("82860117672d6563782e696d616765732d616d617a6f6e2e636f6d04432f696d616765732f472f30312f75692f6c6f6164496e64696361746f72732f6c6f6164496e64696361746f722d6c617267652e5f563139323139353438305f2e6769660f2b514d6f7a696c6c612f352e3020284d6163696e746f73683b20496e74656c204d6163204f5320582031302e383b2072763a31362e3029204765636b6f2f32303130303130312046697265666f782f31362e300f0421696d6167652f706e672c696d6167652f2a3b713d302e382c2a2f2a3b713d302e350f020e656e2d55532c656e3b713d302e3590000a636f6e6e656374696f6e0a6b6565702d616c6976650f2416687474703a2f2f7777772e616d617a6f6e2e636f6d2f", [("3a6d6574686f64", "474554"); ("3a736368656d65", "68747470"); ("3a617574686f72697479", "672d6563782e696d616765732d616d617a6f6e2e636f6d"); ("3a70617468", "2f696d616765732f472f30312f75692f6c6f6164496e64696361746f72732f6c6f6164496e64696361746f722d6c617267652e5f563139323139353438305f2e676966"); ("757365722d6167656e74", "4d6f7a696c6c612f352e3020284d6163696e746f73683b20496e74656c204d6163204f5320582031302e383b2072763a31362e3029204765636b6f2f32303130303130312046697265666f782f31362e30"); ("616363657074", "696d6167652f706e672c696d6167652f2a3b713d302e382c2a2f2a3b713d302e35"); ("6163636570742d6c616e6775616765", "656e2d55532c656e3b713d302e35"); ("6163636570742d656e636f64696e67", "677a69702c206465666c617465"); ("636f6e6e656374696f6e", "6b6565702d616c697665"); ("72656665726572", "687474703a2f2f7777772e616d617a6f6e2e636f6d2f")]);
  ("828601156563782e696d616765732d616d617a6f6e2e636f6d04212f696d616765732f492f3431485a2d4e442d53554c2e5f534c3133355f2e6a70670f2b514d6f7a696c6c612f352e3020284d6163696e746f73683b20496e74656c204d6163204f5320582031302e383b2072763a31362e3029204765636b6f2f32303130303130312046697265666f782f31362e300f0421696d6167652f706e672c696d6167652f2a3b713d302e382c2a2f2a3b713d302e350f020e656e2d55532c656e3b713d302e3590000a636f6e6e656374696f6e0a6b6565702d616c6976650f2416687474703a2f2f7777772e616d617a6f6e2e636f6d2f", [("3a6d6574686f64", "474554"); ("3a736368656d65", "68747470"); ("3a617574686f72697479", "6563782e696d616765732d616d617a6f6e2e636f6d"); ("3a70617468", "2f696d616765732f492f3431485a2d4e442d53554c2e5f534c3133355f2e6a7067"); ("757365722d6167656e74", "4d6f7a696c6c612f352e3020284d6163696e746f73683b20496e74656c204d6163204f5320582031302e383b2072763a31362e3029204765636b6f2f32303130303130312046697265666f782f31362e30"); ("616363657074", "696d6167652f706e672c696d6167652f2a3b713d302e382c2a2f2a3b713d302e35"); ("6163636570742d6c616e6775616765", "656e2d55532c656e3b713d302e35"); ("6163636570742d656e636f64696e67", "677a69702c206465666c617465"); ("636f6e6e656374696f6e", "6b6565702d616c697665"); ("72656665726572", "687474703a2f2f7777772e616d617a6f6e2e636f6d2f")])]%string.
(* hpack/fixtures/nghttp2-16384-4096/story_00.json *)
Definition story_7_0 : list (string * list (string * string)) := [
  ("3fe11f82864188f439ce75c875fa5784", [("3a6d6574686f64", "474554"); ("3a736368656d65", "68747470"); ("3a617574686f72697479", "7961686f6f2e636f2e6a70"); ("3a70617468", "2f")]);
  ("8286418cf1e3c2fe8739ceb90ebf4aff84", [("3a6d6574686f64", "474554"); ("3a736368656d65", "68747470"); ("3a617574686f72697479", "7777772e7961686f6f2e636f2e6a70"); ("3a70617468", "2f")]);
  ("82864187eabfa35332fd2b049b60d48e62a1849eb611589825353141e63ad52160b206c4f2f5d537", [("3a6d6574686f64", "474554"); ("3a736368656d65", "68747470"); ("3a617574686f72697479", "6b2e79696d672e6a70"); ("3a70617468", "2f696d616765732f746f702f7370322f636d6e2f6c6f676f2d6e732d3133303532382e706e67")])]%string.
(* hpack/fixtures/nghttp2-16384-4096/story_01.json *)
Definition story_7_1 : list (string * list (string * string)) := [
  ("3fe11f8741882f91d35d055c87a784827a879eb193aac92a136087f3e7cf9f3e7c874086f2b4e5a283ff84f07b2893", [("3a736368656d65", "6874747073"); ("3a617574686f72697479", "6578616d706c652e636f6d"); ("3a70617468", "2f"); ("3a6d6574686f64", "474554"); ("757365722d6167656e74", "687061636b2d74657374"); ("636f6f6b6965", "7878787878787831"); ("782d68656c6c6f", "776f726c64")]);
  ("87c18482c06087f3e7cf9f3e7c8b", [("3a736368656d65", "6874747073"); ("3a617574686f72697479", "6578616d706c652e636f6d"); ("3a70617468", "2f"); ("3a6d6574686f64", "474554"); ("757365722d6167656e74", "687061636b2d74657374"); ("636f6f6b6965", "7878787878787832")])]%string.
(* hpack/fixtures/nghttp2-16384-4096/story_02.json *)
Definition story_7_2 : list (string * list (string * string)) := [
  ("3fe11f828641871d23f67a9721e9847abcd07f66a281b0dae053fad0321aa49d13fda992a49685340c8a6adca7e28102ef7da9677b8171707f6a62293a9d810020004015309ac2ca7f2c05c5c153b0497ca589d34d1f43aeba0c41a4c7a98f33a69a3fdf9a68fa1d75d0620d263d4c79a68fbed00177febe58f9fbed00177b518b2d4b70ddf45abefb4005db90408721eaa8a4498f5788ea52d6b0e83772ff", [("3a6d6574686f64", "474554"); ("3a736368656d65", "68747470"); ("3a617574686f72697479", "616d617a6f6e2e636f6d"); ("3a70617468", "2f"); ("757365722d6167656e74", "4d6f7a696c6c612f352e3020284d6163696e746f73683b20496e74656c204d6163204f5320582031302e383b2072763a31362e3029204765636b6f2f32303130303130312046697265666f782f31362e30"); ("616363657074", "746578742f68746d6c2c6170706c69636174696f6e2f7868746d6c2b786d6c2c6170706c69636174696f6e2f786d6c3b713d302e392c2a2f2a3b713d302e38"); ("6163636570742d6c616e6775616765", "656e2d55532c656e3b713d302e35"); ("6163636570742d656e636f64696e67", "677a69702c206465666c617465"); ("636f6e6e656374696f6e", "6b6565702d616c697665")]);
  ("82864191996293cae6a473150b0e91fb3d4b90f4ff04ab60d48e62a18c4c002c4d51d88ca321ea62e94643d5babb0c92adc372c00af17168017c0cb6cb712f5d537fc2539a352398ac5754df46a473158f9fbed00177bebe58f9fbed00176fc190c073919d29aee30c78f1e171d23f67a9721e963f", [("3a6d6574686f64", "474554"); ("3a736368656d65", "68747470"); ("3a617574686f72697479", "672d6563782e696d616765732d616d617a6f6e2e636f6d"); ("3a70617468", "2f696d616765732f472f30312f676e6f2f626561636f6e2f426561636f6e5370726974652d55532d30312e5f563430313930333533355f2e706e67"); ("757365722d6167656e74", "4d6f7a696c6c612f352e3020284d6163696e746f73683b20496e74656c204d6163204f5320582031302e383b2072763a31362e3029204765636b6f2f32303130303130312046697265666f782f31362e30"); ("616363657074", "696d6167652f706e672c696d6167652f2a3b713d302e382c2a2f2a3b713d302e35"); ("6163636570742d6c616e6775616765", "656e2d55532c656e3b713d302e35"); ("6163636570742d656e636f64696e67", "677a69702c206465666c617465"); ("636f6e6e656374696f6e", "6b6565702d616c697665"); ("72656665726572", "687474703a2f2f7777772e616d617a6f6e2e636f6d2f")]);
  ("8286c004ad60d48e62a18c4c002c795a83907415821e9a4f5309b07522b1d85a92b566f25a178b8b2f38fb4269c6a25e634bc4bfc290c1be", [("3a6d6574686f64", "474554"); ("3a736368656d65", "68747470"); ("3a617574686f72697479", "672d6563782e696d616765732d616d617a6f6e2e636f6d"); ("3a70617468", "2f696d616765732f472f30312f782d6c6f63616c652f636f6d6d6f6e2f7472616e73706172656e742d706978656c2e5f563338363934323436345f2e676966"); ("757365722d6167656e74", "4d6f7a696c6c612f352e3020284d6163696e746f73683b20496e74656c204d6163204f5320582031302e383b2072763a31362e3029204765636b6f2f32303130303130312046697265666f782f31362e30"); ("616363657074", "696d6167652f706e672c696d6167652f2a3b713d302e382c2a2f2a3b713d302e35"); ("6163636570742d6c616e6775616765", "656e2d55532c656e3b713d302e35"); ("6163636570742d656e636f64696e67", "677a69702c206465666c617465"); ("636f6e6e656374696f6e", "6b6565702d616c697665"); ("72656665726572", "687474703a2f2f7777772e616d617a6f6e2e636f6d2f")]);
  ("8286c004bf60d48e62a18c4c002c1a9982260e99cb63121903424b62d61683165619001621e8b69a9840ea93d2d61683165899003cbadaf171680071e7da7c312f5d537fc4bfc290c1be", [("3a6d6574686f64", "474554"); ("3a736368656d65", "68747470"); ("3a617574686f72697479", "672d6563782e696d616765732d616d617a6f6e2e636f6d"); ("3a70617468", "2f696d616765732f472f30312f696d6731322f6f746865722f64697361737465722d72656c6965662f3330302d636f6c756d6e2f73616e64792d72656c6965665f3330307837352e5f563430303638393439315f2e706e67"); ("757365722d6167656e74", "4d6f7a696c6c612f352e3020284d6163696e746f73683b20496e74656c204d6163204f5320582031302e383b2072763a31362e3029204765636b6f2f32303130303130312046697265666f782f31362e30"); ("616363657074", "696d6167652f706e672c696d6167652f2a3b713d302e382c2a2f2a3b713d302e35"); ("6163636570742d6c616e6775616765", "656e2d55532c656e3b713d302e35"); ("6163636570742d656e636f64696e67", "677a69702c206465666c617465"); ("636f6e6e656374696f6e", "6b6565702d616c697665"); ("72656665726572", "687474703a2f2f7777772e616d617a6f6e2e636f6d2f")]);
  ("8286418bf1e3c2e3a47ecf52e43d3f84c5c4c390c2", [("3a6d6574686f64", "474554"); ("3a736368656d65", "68747470"); ("3a617574686f72697479", "7777772e616d617a6f6e2e636f6d"); ("3a70617468", "2f"); ("757365722d6167656e74", "4d6f7a696c6c612f352e3020284d6163696e746f73683b20496e74656c204d6163204f5320582031302e383b2072763a31362e3029204765636b6f2f32303130303130312046697265666f782f31362e30"); ("616363657074", "746578742f68746d6c2c6170706c69636174696f6e2f7868746d6c2b786d6c2c6170706c69636174696f6e2f786d6c3b713d302e392c2a2f2a3b713d302e38"); ("6163636570742d6c616e6775616765", "656e2d55532c656e3b713d302e35"); ("6163636570742d656e636f64696e67", "677a69702c206465666c617465"); ("636f6e6e656374696f6e", "6b6565702d616c697665")]);
  ("8286c104ad60d48e62a18c4c002c795a83907415821e9a4f5309b07522b1d85a92b566f25a178b885f109969c75b89798d2fc5c0c390c2bf", [("3a6d6574686f64", "474554"); ("3a736368656d65", "68747470"); ("3a617574686f72697479", "672d6563782e696d616765732d616d617a6f6e2e636f6d"); ("3a70617468", "2f696d616765732f472f30312f782d6c6f63616c652f636f6d6d6f6e2f7472616e73706172656e742d706978656c2e5f563139323233343637355f2e676966"); ("757365722d6167656e74", "4d6f7a696c6c612f352e3020284d6163696e746f73683b20496e74656c204d6163204f5320582031302e383b2072763a31362e3029204765636b6f2f32303130303130312046697265666f782f31362e30"); ("616363657074", "696d6167652f706e672c696d6167652f2a3b713d302e382c2a2f2a3b713d302e35"); ("6163636570742d6c616e6775616765", "656e2d55532c656e3b713d302e35"); ("6163636570742d656e636f64696e67", "677a69702c206465666c617465"); ("636f6e6e656374696f6e", "6b6565702d616c697665"); ("72656665726572", "687474703a2f2f7777772e616d617a6f6e2e636f6d2f")]);
  ("8286c104c160d48e62a18c4c002c1a9982261139ca86103a0a888bdcb5250c0431547eec040c82284842a107b0c546bdbab46a8b172b0d34e95e2e2d000e09c7db044bcc697fc5c0c390c2bf", [("3a6d6574686f64", "474554"); ("3a736368656d65", "68747470"); ("3a617574686f72697479", "672d6563782e696d616765732d616d617a6f6e2e636f6d"); ("3a70617468", "2f696d616765732f472f30312f696d6731322f73686f65732f73616c65735f6576656e74732f31315f6e6f762f313033305f4163636573736f7269657350524f4d4f5f475772696768742e5f563430303632363935305f2e676966"); ("757365722d6167656e74", "4d6f7a696c6c612f352e3020284d6163696e746f73683b20496e74656c204d6163204f5320582031302e383b2072763a31362e3029204765636b6f2f32303130303130312046697265666f782f31362e30"); ("616363657074", "696d6167652f706e672c696d6167652f2a3b713d302e382c2a2f2a3b713d302e35"); ("6163636570742d6c616e6775616765", "656e2d55532c656e3b713d302e35"); ("6163636570742d656e636f64696e67", "677a69702c206465666c617465"); ("636f6e6e656374696f6e", "6b6565702d616c697665"); ("72656665726572", "687474703a2f2f7777772e616d617a6f6e2e636f6d2f")]);
  ("8286c104ac60d48e62a18c4c002c436a4f49d26ee562c3a4e862fdb60c85a287000882202f1710be2101a75c6a25fa5737c5c0c390c2bf", [("3a6d6574686f64", "474554"); ("3a736368656d65", "68747470"); ("3a617574686f72697479", "672d6563782e696d616765732d616d617a6f6e2e636f6d"); ("3a70617468", "2f696d616765732f472f30312f4175746f6d6f746976652f726f746f732f4475726163656c6c3630305f3132302e5f563139323230343736345f2e6a7067"); ("757365722d6167656e74", "4d6f7a696c6c612f352e3020284d6163696e746f73683b20496e74656c204d6163204f5320582031302e383b2072763a31362e3029204765636b6f2f32303130303130312046697265666f782f31362e30"); ("616363657074", "696d6167652f706e672c696d6167652f2a3b713d302e382c2a2f2a3b713d302e35"); ("6163636570742d6c616e6775616765", "656e2d55532c656e3b713d302e35"); ("6163636570742d656e636f64696e67", "677a69702c206465666c617465"); ("636f6e6e656374696f6e", "6b6565702d616c697665"); ("72656665726572", "687474703a2f2f7777772e616d617a6f6e2e636f6d2f")]);
  ("8286c104b060d48e62a18c4c002c5a662838e4c9548620d27b10c5071c992a90c41a4f62d40ec98abc5c42f882fb6d3c089798d2ffc5c0c390c2bf", [("3a6d6574686f64", "474554"); ("3a736368656d65", "68747470"); ("3a617574686f72697479", "672d6563782e696d616765732d616d617a6f6e2e636f6d"); ("3a70617468", "2f696d616765732f472f30312f75692f6c6f6164496e64696361746f72732f6c6f6164496e64696361746f722d6c617267652e5f563139323139353438305f2e676966"); ("757365722d6167656e74", "4d6f7a696c6c612f352e3020284d6163696e746f73683b20496e74656c204d6163204f5320582031302e383b2072763a31362e3029204765636b6f2f32303130303130312046697265666f782f31362e30"); ("616363657074", "696d6167652f706e672c696d6167652f2a3b713d302e382c2a2f2a3b713d302e35"); ("6163636570742d6c616e6775616765", "656e2d55532c656e3b713d302e35"); ("6163636570742d656e636f64696e67", "677a69702c206465666c617465"); ("636f6e6e656374696f6e", "6b6565702d616c697665"); ("72656665726572", "687474703a2f2f7777772e616d617a6f6e2e636f6d2f")]);
  ("8286418f293cae6a473150b0e91fb3d4b90f4f049a60d48e62a18c8c341c7fab69beb6ee19d78b7670b2dc4bf4ae6fc6c1c490c3c0", [("3a6d6574686f64", "474554"); ("3a736368656d65", "68747470"); ("3a617574686f72697479", "6563782e696d616765732d616d617a6f6e2e636f6d"); ("3a70617468", "2f696d616765732f492f3431485a2d4e442d53554c2e5f534c3133355f2e6a7067"); ("757365722d6167656e74", "4d6f7a696c6c612f352e3020284d6163696e746f73683b20496e74656c204d6163204f5320582031302e383b2072763a31362e3029204765636b6f2f32303130303130312046697265666f782f31362e30"); ("616363657074", "696d6167652f706e672c696d6167652f2a3b713d302e382c2a2f2a3b713d302e35"); ("6163636570742d6c616e6775616765", "656e2d55532c656e3b713d302e35"); ("6163636570742d656e636f64696e67", "677a69702c206465666c617465"); ("636f6e6e656374696f6e", "6b6565702d616c697665"); ("72656665726572", "687474703a2f2f7777772e616d617a6f6e2e636f6d2f")])]%string.
(* hpack/fixtures/nghttp2-change-table-size/story_00.json *)
Definition story_8_0 : list (string * list (string * string)) := [
  ("82864188f439ce75c875fa5784", [("3a6d6574686f64", "474554"); ("3a736368656d65", "68747470"); ("3a617574686f72697479", "7961686f6f2e636f2e6a70"); ("3a70617468", "2f")]);
  ("3fb60a8286418cf1e3c2fe8739ceb90ebf4aff84", [("3a6d6574686f64", "474554"); ("3a736368656d65", "68747470"); ("3a617574686f72697479", "7777772e7961686f6f2e636f2e6a70"); ("3a70617468", "2f")]);
  ("3f8b1582864187eabfa35332fd2b049b60d48e62a1849eb611589825353141e63ad52160b206c4f2f5d537", [("3a6d6574686f64", "474554"); ("3a736368656d65", "68747470"); ("3a617574686f72697479", "6b2e79696d672e6a70"); ("3a70617468", "2f696d616765732f746f702f7370322f636d6e2f6c6f676f2d6e732d3133303532382e706e67")])]%string.
(* hpack/fixtures/nghttp2-change-table-size/story_01.json *)
Definition story_8_1 : list (string * list (string * string)) := [
  ("3fb60a8741882f91d35d055c87a784827a879eb193aac92a136087f3e7cf9f3e7c874086f2b4e5a283ff84f07b2893", [("3a736368656d65", "6874747073"); ("3a617574686f72697479", "6578616d706c652e636f6d"); ("3a70617468", "2f"); ("3a6d6574686f64", "474554"); ("757365722d6167656e74", "687061636b2d74657374"); ("636f6f6b6965", "7878787878787831"); ("782d68656c6c6f", "776f726c64")]);
  ("3f8b1587c18482c06087f3e7cf9f3e7c8b", [("3a736368656d65", "6874747073"); ("3a617574686f72697479", "6578616d706c652e636f6d"); ("3a70617468", "2f"); ("3a6d6574686f64", "474554"); ("757365722d6167656e74", "687061636b2d74657374"); ("636f6f6b6965", "7878787878787832")])]%string.
(* hpack/fixtures/nghttp2-change-table-size/story_02.json *)
Definition story_8_2 : list (string * list (string * string)) := [
  ("828641871d23f67a9721e9847abcd07f66a281b0dae053fad0321aa49d13fda992a49685340c8a6adca7e28102ef7da9677b8171707f6a62293a9d810020004015309ac2ca7f2c05c5c153b0497ca589d34d1f43aeba0c41a4c7a98f33a69a3fdf9a68fa1d75d0620d263d4c79a68fbed00177febe58f9fbed00177b518b2d4b70ddf45abefb4005db90408721eaa8a4498f5788ea52d6b0e83772ff", [("3a6d6574686f64", "474554"); ("3a736368656d65", "68747470"); ("3a617574686f72697479", "616d617a6f6e2e636f6d"); ("3a70617468", "2f"); ("757365722d6167656e74", "4d6f7a696c6c612f352e3020284d6163696e746f73683b20496e74656c204d6163204f5320582031302e383b2072763a31362e3029204765636b6f2f32303130303130312046697265666f782f31362e30"); ("616363657074", "746578742f68746d6c2c6170706c69636174696f6e2f7868746d6c2b786d6c2c6170706c69636174696f6e2f786d6c3b713d302e392c2a2f2a3b713d302e38"); ("6163636570742d6c616e6775616765", "656e2d55532c656e3b713d302e35"); ("6163636570742d656e636f64696e67", "677a69702c206465666c617465"); ("636f6e6e656374696f6e", "6b6565702d616c697665")]);
  ("82864191996293cae6a473150b0e91fb3d4b90f4ff04ab60d48e62a18c4c002c4d51d88ca321ea62e94643d5babb0c92adc372c00af17168017c0cb6cb712f5d537fc2539a352398ac5754df46a473158f9fbed00177bebe58f9fbed00176fc190c073919d29aee30c78f1e171d23f67a9721e963f", [("3a6d6574686f64", "474554"); ("3a736368656d65", "68747470"); ("3a617574686f72697479", "672d6563782e696d616765732d616d617a6f6e2e636f6d"); ("3a70617468", "2f696d616765732f472f30312f676e6f2f626561636f6e2f426561636f6e5370726974652d55532d30312e5f563430313930333533355f2e706e67"); ("757365722d6167656e74", "4d6f7a696c6c612f352e3020284d6163696e746f73683b20496e74656c204d6163204f5320582031302e383b2072763a31362e3029204765636b6f2f32303130303130312046697265666f782f31362e30"); ("616363657074", "696d6167652f706e672c696d6167652f2a3b713d302e382c2a2f2a3b713d302e35"); ("6163636570742d6c616e6775616765", "656e2d55532c656e3b713d302e35"); ("6163636570742d656e636f64696e67", "677a69702c206465666c617465"); ("636f6e6e656374696f6e", "6b6565702d616c697665"); ("72656665726572", "687474703a2f2f7777772e616d617a6f6e2e636f6d2f")]);
  ("8286c004ad60d48e62a18c4c002c795a83907415821e9a4f5309b07522b1d85a92b566f25a178b8b2f38fb4269c6a25e634bc4bfc290c1be", [("3a6d6574686f64", "474554"); ("3a736368656d65", "68747470"); ("3a617574686f72697479", "672d6563782e696d616765732d616d617a6f6e2e636f6d"); ("3a70617468", "2f696d616765732f472f30312f782d6c6f63616c652f636f6d6d6f6e2f7472616e73706172656e742d706978656c2e5f563338363934323436345f2e676966"); ("757365722d6167656e74", "4d6f7a696c6c612f352e3020284d6163696e746f73683b20496e74656c204d6163204f5320582031302e383b2072763a31362e3029204765636b6f2f32303130303130312046697265666f782f31362e30"); ("616363657074", "696d6167652f706e672c696d6167652f2a3b713d302e382c2a2f2a3b713d302e35"); ("6163636570742d6c616e6775616765", "656e2d55532c656e3b713d302e35"); ("6163636570742d656e636f64696e67", "677a69702c206465666c617465"); ("636f6e6e656374696f6e", "6b6565702d616c697665"); ("72656665726572", "687474703a2f2f7777772e616d617a6f6e2e636f6d2f")]);
  ("3fb60a8286c004bf60d48e62a18c4c002c1a9982260e99cb63121903424b62d61683165619001621e8b69a9840ea93d2d61683165899003cbadaf171680071e7da7c312f5d537fc4bfc290c1be", [("3a6d6574686f64", "474554"); ("3a736368656d65", "68747470"); ("3a617574686f72697479", "672d6563782e696d616765732d616d617a6f6e2e636f6d"); ("3a70617468", "2f696d616765732f472f30312f696d6731322f6f746865722f64697361737465722d72656c6965662f3330302d636f6c756d6e2f73616e64792d72656c6965665f3330307837352e5f563430303638393439315f2e706e67"); ("757365722d6167656e74", "4d6f7a696c6c612f352e3020284d6163696e746f73683b20496e74656c204d6163204f5320582031302e383b2072763a31362e3029204765636b6f2f32303130303130312046697265666f782f31362e30"); ("616363657074", "696d6167652f706e672c696d6167652f2a3b713d302e382c2a2f2a3b713d302e35"); ("6163636570742d6c616e6775616765", "656e2d55532c656e3b713d302e35"); ("6163636570742d656e636f64696e67", "677a69702c206465666c617465"); ("636f6e6e656374696f6e", "6b6565702d616c697665"); ("72656665726572", "687474703a2f2f7777772e616d617a6f6e2e636f6d2f")]);
  ("8286418bf1e3c2e3a47ecf52e43d3f84c5c4c390c2", [("3a6d6574686f64", "474554"); ("3a736368656d65", "68747470"); ("3a617574686f72697479", "7777772e616d617a6f6e2e636f6d"); ("3a70617468", "2f"); ("757365722d6167656e74", "4d6f7a696c6c612f352e3020284d6163696e746f73683b20496e74656c204d6163204f5320582031302e383b2072763a31362e3029204765636b6f2f32303130303130312046697265666f782f31362e30"); ("616363657074", "746578742f68746d6c2c6170706c69636174696f6e2f7868746d6c2b786d6c2c6170706c69636174696f6e2f786d6c3b713d302e392c2a2f2a3b713d302e38"); ("6163636570742d6c616e6775616765", "656e2d55532c656e3b713d302e35"); ("6163636570742d656e636f64696e67", "677a69702c206465666c617465"); ("636f6e6e656374696f6e", "6b6565702d616c697665")]);
  ("8286c104ad60d48e62a18c4c002c795a83907415821e9a4f5309b07522b1d85a92b566f25a178b885f109969c75b89798d2fc5c0c390c2bf", [("3a6d6574686f64", "474554"); ("3a736368656d65", "68747470"); ("3a617574686f72697479", "672d6563782e696d616765732d616d617a6f6e2e636f6d"); ("3a70617468", "2f696d616765732f472f30312f782d6c6f63616c652f636f6d6d6f6e2f7472616e73706172656e742d706978656c2e5f563139323233343637355f2e676966"); ("757365722d6167656e74", "4d6f7a696c6c612f352e3020284d6163696e746f73683b20496e74656c204d6163204f5320582031302e383b2072763a31362e3029204765636b6f2f32303130303130312046697265666f782f31362e30"); ("616363657074", "696d6167652f706e672c696d6167652f2a3b713d302e382c2a2f2a3b713d302e35"); ("6163636570742d6c616e6775616765", "656e2d55532c656e3b713d302e35"); ("6163636570742d656e636f64696e67", "677a69702c206465666c617465"); ("636f6e6e656374696f6e", "6b6565702d616c697665"); ("72656665726572", "687474703a2f2f7777772e616d617a6f6e2e636f6d2f")]);
  ("3f8b158286c104c160d48e62a18c4c002c1a9982261139ca86103a0a888bdcb5250c0431547eec040c82284842a107b0c546bdbab46a8b172b0d34e95e2e2d000e09c7db044bcc697fc5c0c390c2bf", [("3a6d6574686f64", "474554"); ("3a736368656d65", "68747470"); ("3a617574686f72697479", "672d6563782e696d616765732d616d617a6f6e2e636f6d"); ("3a70617468", "2f696d616765732f472f30312f696d6731322f73686f65732f73616c65735f6576656e74732f31315f6e6f762f313033305f4163636573736f7269657350524f4d4f5f475772696768742e5f563430303632363935305f2e676966"); ("757365722d6167656e74", "4d6f7a696c6c612f352e3020284d6163696e746f73683b20496e74656c204d6163204f5320582031302e383b2072763a31362e3029204765636b6f2f32303130303130312046697265666f782f31362e30"); ("616363657074", "696d6167652f706e672c696d6167652f2a3b713d302e382c2a2f2a3b713d302e35"); ("6163636570742d6c616e6775616765", "656e2d55532c656e3b713d302e35"); ("6163636570742d656e636f64696e67", "677a69702c206465666c617465"); ("636f6e6e656374696f6e", "6b6565702d616c697665"); ("72656665726572", "687474703a2f2f7777772e616d617a6f6e2e636f6d2f")]);
  ("8286c104ac60d48e62a18c4c002c436a4f49d26ee562c3a4e862fdb60c85a287000882202f1710be2101a75c6a25fa5737c5c0c390c2bf", [("3a6d6574686f64", "474554"); ("3a736368656d65", "68747470"); ("3a617574686f72697479", "672d6563782e696d616765732d616d617a6f6e2e636f6d"); ("3a70617468", "2f696d616765732f472f30312f4175746f6d6f746976652f726f746f732f4475726163656c6c3630305f3132302e5f563139323230343736345f2e6a7067"); ("757365722d6167656e74", "4d6f7a696c6c612f352e3020284d6163696e746f73683b20496e74656c204d6163204f5320582031302e383b2072763a31362e3029204765636b6f2f32303130303130312046697265666f782f31362e30"); ("616363657074", "696d6167652f706e672c696d6167652f2a3b713d302e382c2a2f2a3b713d302e35"); ("6163636570742d6c616e6775616765", "656e2d55532c656e3b713d302e35"); ("6163636570742d656e636f64696e67", "677a69702c206465666c617465"); ("636f6e6e656374696f6e", "6b6565702d616c697665"); ("72656665726572", "687474703a2f2f7777772e616d617a6f6e2e636f6d2f")]);
  ("8286c104b060d48e62a18c4c002c5a662838e4c9548620d27b10c5071c992a90c41a4f62d40ec98abc5c42f882fb6d3c089798d2ffc5c0c390c2bf", [("3a6d6574686f64", "474554"); ("3a736368656d65", "68747470"); ("3a617574686f72697479", "672d6563782e696d616765732d616d617a6f6e2e636f6d"); ("3a70617468", "2f696d616765732f472f30312f75692f6c6f6164496e64696361746f72732f6c6f6164496e64696361746f722d6c617267652e5f563139323139353438305f2e676966"); ("757365722d6167656e74", "4d6f7a696c6c612f352e3020284d6163696e746f73683b20496e74656c204d6163204f5320582031302e383b2072763a31362e3029204765636b6f2f32303130303130312046697265666f782f31362e30"); ("616363657074", "696d6167652f706e672c696d6167652f2a3b713d302e382c2a2f2a3b713d302e35"); ("6163636570742d6c616e6775616765", "656e2d55532c656e3b713d302e35"); ("6163636570742d656e636f64696e67", "677a69702c206465666c617465"); ("636f6e6e656374696f6e", "6b6565702d616c697665"); ("72656665726572", "687474703a2f2f7777772e616d617a6f6e2e636f6d2f")]);
  ("8286418f293cae6a473150b0e91fb3d4b90f4f049a60d48e62a18c8c341c7fab69beb6ee19d78b7670b2dc4bf4ae6fc6c1c490c3c0", [("3a6d6574686f64", "474554"); ("3a736368656d65", "68747470"); ("3a617574686f72697479", "6563782e696d616765732d616d617a6f6e2e636f6d"); ("3a70617468", "2f696d616765732f492f3431485a2d4e442d53554c2e5f534c3133355f2e6a7067"); ("757365722d6167656e74", "4d6f7a696c6c612f352e3020284d6163696e746f73683b20496e74656c204d6163204f5320582031302e383b2072763a31362e3029204765636b6f2f32303130303130312046697265666f782f31362e30"); ("616363657074", "696d6167652f706e672c696d6167652f2a3b713d302e382c2a2f2a3b713d302e35"); ("6163636570742d6c616e6775616765", "656e2d55532c656e3b713d302e35"); ("6163636570742d656e636f64696e67", "677a69702c206465666c617465"); ("636f6e6e656374696f6e", "6b6565702d616c697665"); ("72656665726572", "687474703a2f2f7777772e616d617a6f6e2e636f6d2f")])]%string.
(* hpack/fixtures/nghttp2/story_00.json *)
Definition story_9_0 : list (string * list (string * string)) := [
  ("82864188f439ce75c875fa5784", [("3a6d6574686f64", "474554"); ("3a736368656d65", "68747470"); ("3a617574686f72697479", "7961686f6f2e636f2e6a70"); ("3a70617468", "2f")]);
  ("8286418cf1e3c2fe8739ceb90ebf4aff84", [("3a6d6574686f64", "474554"); ("3a736368656d65", "68747470"); ("3a617574686f72697479", "7777772e7961686f6f2e636f2e6a70"); ("3a70617468", "2f")]);
  ("82864187eabfa35332fd2b049b60d48e62a1849eb611589825353141e63ad52160b206c4f2f5d537", [("3a6d6574686f64", "474554"); ("3a736368656d65", "68747470"); ("3a617574686f72697479", "6b2e79696d672e6a70"); ("3a70617468", "2f696d616765732f746f702f7370322f636d6e2f6c6f676f2d6e732d3133303532382e706e67")])]%string.
(* hpack/fixtures/nghttp2/story_01.json *)
Definition story_9_1 : list (string * list (string * string)) := [
  ("8741882f91d35d055c87a784827a879eb193aac92a136087f3e7cf9f3e7c874086f2b4e5a283ff84f07b2893", [("3a736368656d65", "6874747073"); ("3a617574686f72697479", "6578616d706c652e636f6d"); ("3a70617468", "2f"); ("3a6d6574686f64", "474554"); ("757365722d6167656e74", "687061636b2d74657374"); ("636f6f6b6965", "7878787878787831"); ("782d68656c6c6f", "776f726c64")]);
  ("87c18482c06087f3e7cf9f3e7c8b", [("3a736368656d65", "6874747073"); ("3a617574686f72697479", "6578616d706c652e636f6d"); ("3a70617468", "2f"); ("3a6d6574686f64", "474554"); ("757365722d6167656e74", "687061636b2d74657374"); ("636f6f6b6965", "7878787878787832")])]%string.
(* hpack/fixtures/nghttp2/story_02.json *)
Definition story_9_2 : list (string * list (string * string)) := [
  ("828641871d23f67a9721e9847abcd07f66a281b0dae053fad0321aa49d13fda992a49685340c8a6adca7e28102ef7da9677b8171707f6a62293a9d810020004015309ac2ca7f2c05c5c153b0497ca589d34d1f43aeba0c41a4c7a98f33a69a3fdf9a68fa1d75d0620d263d4c79a68fbed00177febe58f9fbed00177b518b2d4b70ddf45abefb4005db90408721eaa8a4498f5788ea52d6b0e83772ff", [("3a6d6574686f64", "474554"); ("3a736368656d65", "68747470"); ("3a617574686f72697479", "616d617a6f6e2e636f6d"); ("3a70617468", "2f"); ("757365722d6167656e74", "4d6f7a696c6c612f352e3020284d6163696e746f73683b20496e74656c204d6163204f5320582031302e383b2072763a31362e3029204765636b6f2f32303130303130312046697265666f782f31362e30"); ("616363657074", "746578742f68746d6c2c6170706c69636174696f6e2f7868746d6c2b786d6c2c6170706c69636174696f6e2f786d6c3b713d302e392c2a2f2a3b713d302e38"); ("6163636570742d6c616e6775616765", "656e2d55532c656e3b713d302e35"); ("6163636570742d656e636f64696e67", "677a69702c206465666c617465"); ("636f6e6e656374696f6e", "6b6565702d616c697665")]);
  ("82864191996293cae6a473150b0e91fb3d4b90f4ff04ab60d48e62a18c4c002c4d51d88ca321ea62e94643d5babb0c92adc372c00af17168017c0cb6cb712f5d537fc2539a352398ac5754df46a473158f9fbed00177bebe58f9fbed00176fc190c073919d29aee30c78f1e171d23f67a9721e963f", [("3a6d6574686f64", "474554"); ("3a736368656d65", "68747470"); ("3a617574686f72697479", "672d6563782e696d616765732d616d617a6f6e2e636f6d"); ("3a70617468", "2f696d616765732f472f30312f676e6f2f626561636f6e2f426561636f6e5370726974652d55532d30312e5f563430313930333533355f2e706e67"); ("757365722d6167656e74", "4d6f7a696c6c612f352e3020284d6163696e746f73683b20496e74656c204d6163204f5320582031302e383b2072763a31362e3029204765636b6f2f32303130303130312046697265666f782f31362e30"); ("616363657074", "696d6167652f706e672c696d6167652f2a3b713d302e382c2a2f2a3b713d302e35"); ("6163636570742d6c616e6775616765", "656e2d55532c656e3b713d302e35"); ("6163636570742d656e636f64696e67", "677a69702c206465666c617465"); ("636f6e6e656374696f6e", "6b6565702d616c697665"); ("72656665726572", "687474703a2f2f7777772e616d617a6f6e2e636f6d2f")]);
  ("8286c004ad60d48e62a18c4c002c795a83907415821e9a4f5309b07522b1d85a92b566f25a178b8b2f38fb4269c6a25e634bc4bfc290c1be", [("3a6d6574686f64", "474554"); ("3a736368656d65", "68747470"); ("3a617574686f72697479", "672d6563782e696d616765732d616d617a6f6e2e636f6d"); ("3a70617468", "2f696d616765732f472f30312f782d6c6f63616c652f636f6d6d6f6e2f7472616e73706172656e742d706978656c2e5f563338363934323436345f2e676966"); ("757365722d6167656e74", "4d6f7a696c6c612f352e3020284d6163696e746f73683b20496e74656c204d6163204f5320582031302e383b2072763a31362e3029204765636b6f2f32303130303130312046697265666f782f31362e30"); ("616363657074", "696d6167652f706e672c696d6167652f2a3b713d302e382c2a2f2a3b713d302e35"); ("6163636570742d6c616e6775616765", "656e2d55532c656e3b713d302e35"); ("6163636570742d656e636f64696e67", "677a69702c206465666c617465"); ("636f6e6e656374696f6e", "6b6565702d616c697665"); ("72656665726572", "687474703a2f2f7777772e616d617a6f6e2e636f6d2f")]);
  ("8286c004bf60d48e62a18c4c002c1a9982260e99cb63121903424b62d61683165619001621e8b69a9840ea93d2d61683165899003cbadaf171680071e7da7c312f5d537fc4bfc290c1be", [("3a6d6574686f64", "474554"); ("3a736368656d65", "68747470"); ("3a617574686f72697479", "672d6563782e696d616765732d616d617a6f6e2e636f6d"); ("3a70617468", "2f696d616765732f472f30312f696d6731322f6f746865722f64697361737465722d72656c6965662f3330302d636f6c756d6e2f73616e64792d72656c6965665f3330307837352e5f563430303638393439315f2e706e67"); ("757365722d6167656e74", "4d6f7a696c6c612f352e3020284d6163696e746f73683b20496e74656c204d6163204f5320582031302e383b2072763a31362e3029204765636b6f2f32303130303130312046697265666f782f31362e30"); ("616363657074", "696d6167652f706e672c696d6167652f2a3b713d302e382c2a2f2a3b713d302e35"); ("6163636570742d6c616e6775616765", "656e2d55532c656e3b713d302e35"); ("6163636570742d656e636f64696e67", "677a69702c206465666c617465"); ("636f6e6e656374696f6e", "6b6565702d616c697665"); ("72656665726572", "687474703a2f2f7777772e616d617a6f6e2e636f6d2f")]);
  ("8286418bf1e3c2e3a47ecf52e43d3f84c5c4c390c2", [("3a6d6574686f64", "474554"); ("3a736368656d65", "68747470"); ("3a617574686f72697479", "7777772e616d617a6f6e2e636f6d"); ("3a70617468", "2f"); ("757365722d6167656e74", "4d6f7a696c6c612f352e3020284d6163696e746f73683b20496e74656c204d6163204f5320582031302e383b2072763a31362e3029204765636b6f2f32303130303130312046697265666f782f31362e30"); ("616363657074", "746578742f68746d6c2c6170706c69636174696f6e2f7868746d6c2b786d6c2c6170706c69636174696f6e2f786d6c3b713d302e392c2a2f2a3b713d302e38"); ("6163636570742d6c616e6775616765", "656e2d55532c656e3b713d302e35"); ("6163636570742d656e636f64696e67", "677a69702c206465666c617465"); ("636f6e6e656374696f6e", "6b6565702d616c697665")]);
  ("8286c104ad60d48e62a18c4c002c795a83907415821e9a4f5309b07522b1d85a92b566f25a178b885f109969c75b89798d2fc5c0c390c2bf", [("3a6d6574686f64", "474554"); ("3a736368656d65", "68747470"); ("3a617574686f72697479", "672d6563782e696d616765732d616d617a6f6e2e636f6d"); ("3a70617468", "2f696d616765732f472f30312f782d6c6f63616c652f636f6d6d6f6e2f7472616e73706172656e742d706978656c2e5f563139323233343637355f2e676966"); ("757365722d6167656e74", "4d6f7a696c6c612f352e3020284d6163696e746f73683b20496e74656c204d6163204f5320582031302e383b2072763a31362e3029204765636b6f2f32303130303130312046697265666f782f31362e30"); ("616363657074", "696d6167652f706e672c696d6167652f2a3b713d302e382c2a2f2a3b713d302e35"); ("6163636570742d6c616e6775616765", "656e2d55532c656e3b713d302e35"); ("6163636570742d656e636f64696e67", "677a69702c206465666c617465"); ("636f6e6e656374696f6e", "6b6565702d616c697665"); ("72656665726572", "687474703a2f2f7777772e616d617a6f6e2e636f6d2f")]);
  ("8286c104c160d48e62a18c4c002c1a9982261139ca86103a0a888bdcb5250c0431547eec040c82284842a107b0c546bdbab46a8b172b0d34e95e2e2d000e09c7db044bcc697fc5c0c390c2bf", [("3a6d6574686f64", "474554"); ("3a736368656d65", "68747470"); ("3a617574686f72697479", "672d6563782e696d616765732d616d617a6f6e2e636f6d"); ("3a70617468", "2f696d616765732f472f30312f696d6731322f73686f65732f73616c65735f6576656e74732f31315f6e6f762f313033305f4163636573736f7269657350524f4d4f5f475772696768742e5f563430303632363935305f2e676966"); ("757365722d6167656e74", "4d6f7a696c6c612f352e3020284d6163696e746f73683b20496e74656c204d6163204f5320582031302e383b2072763a31362e3029204765636b6f2f32303130303130312046697265666f782f31362e30"); ("616363657074", "696d6167652f706e672c696d6167652f2a3b713d302e382c2a2f2a3b713d302e35"); ("6163636570742d6c616e6775616765", "656e2d55532c656e3b713d302e35"); ("6163636570742d656e636f64696e67", "677a69702c206465666c617465"); ("636f6e6e656374696f6e", "6b6565702d616c697665"); ("72656665726572", "687474703a2f2f7777772e616d617a6f6e2e636f6d2f")]);
  ("8286c104ac60d48e62a18c4c002c436a4f49d26ee562c3a4e862fdb60c85a287000882202f1710be2101a75c6a25fa5737c5c0c390c2bf", [("3a6d6574686f64", "474554"); ("3a736368656d65", "68747470"); ("3a617574686f72697479", "672d6563782e696d616765732d616d617a6f6e2e636f6d"); ("3a70617468", "2f696d616765732f472f30312f4175746f6d6f746976652f726f746f732f4475726163656c6c3630305f3132302e5f563139323230343736345f2e6a7067"); ("757365722d6167656e74", "4d6f7a696c6c612f352e3020284d6163696e746f73683b20496e74656c204d6163204f5320582031302e383b2072763a31362e3029204765636b6f2f32303130303130312046697265666f782f31362e30"); ("616363657074", "696d6167652f706e672c696d6167652f2a3b713d302e382c2a2f2a3b713d302e35"); ("6163636570742d6c616e6775616765", "656e2d55532c656e3b713d302e35"); ("6163636570742d656e636f64696e67", "677a69702c206465666c617465"); ("636f6e6e656374696f6e", "6b6565702d616c697665"); ("72656665726572", "687474703a2f2f7777772e616d617a6f6e2e636f6d2f")]);
  ("8286c104b060d48e62a18c4c002c5a662838e4c9548620d27b10c5071c992a90c41a4f62d40ec98abc5c42f882fb6d3c089798d2ffc5c0c390c2bf", [("3a6d6574686f64", "474554"); ("3a736368656d65", "68747470"); ("3a617574686f72697479", "672d6563782e696d616765732d616d617a6f6e2e636f6d"); ("3a70617468", "2f696d616765732f472f30312f75692f6c6f6164496e64696361746f72732f6c6f6164496e64696361746f722d6c617267652e5f563139323139353438305f2e676966"); ("757365722d6167656e74", "4d6f7a696c6c612f352e3020284d6163696e746f73683b20496e74656c204d6163204f5320582031302e383b2072763a31362e3029204765636b6f2f32303130303130312046697265666f782f31362e30"); ("616363657074", "696d6167652f706e672c696d6167652f2a3b713d302e382c2a2f2a3b713d302e35"); ("6163636570742d6c616e6775616765", "656e2d55532c656e3b713d302e35"); ("6163636570742d656e636f64696e67", "677a69702c206465666c617465"); ("636f6e6e656374696f6e", "6b6565702d616c697665"); ("72656665726572", "687474703a2f2f7777772e616d617a6f6e2e636f6d2f")]);
  ("8286418f293cae6a473150b0e91fb3d4b90f4f049a60d48e62a18c8c341c7fab69beb6ee19d78b7670b2dc4bf4ae6fc6c1c490c3c0", [("3a6d6574686f64", "474554"); ("3a736368656d65", "68747470"); ("3a617574686f72697479", "6563782e696d616765732d616d617a6f6e2e636f6d"); ("3a70617468", "2f696d616765732f492f3431485a2d4e442d53554c2e5f534c3133355f2e6a7067"); ("757365722d6167656e74", "4d6f7a696c6c612f352e3020284d6163696e746f73683b20496e74656c204d6163204f5320582031302e383b2072763a31362e3029204765636b6f2f32303130303130312046697265666f782f31362e30"); ("616363657074", "696d6167652f706e672c696d6167652f2a3b713d302e382c2a2f2a3b713d302e35"); ("6163636570742d6c616e6775616765", "656e2d55532c656e3b713d302e35"); ("6163636570742d656e636f64696e67", "677a69702c206465666c617465"); ("636f6e6e656374696f6e", "6b6565702d616c697665"); ("72656665726572", "687474703a2f2f7777772e616d617a6f6e2e636f6d2f")])]%string.
(* hpack/fixtures/node-http2-hpack/story_00.json *)
Definition story_10_0 : list (string * list (string * string)) := [
  ("82864188f439ce75c875fa5784", [("3a6d6574686f64", "474554"); ("3a736368656d65", "68747470"); ("3a617574686f72697479", "7961686f6f2e636f2e6a70"); ("3a70617468", "2f")]);
  ("8286418cf1e3c2fe8739ceb90ebf4aff84", [("3a6d6574686f64", "474554"); ("3a736368656d65", "68747470"); ("3a617574686f72697479", "7777772e7961686f6f2e636f2e6a70"); ("3a70617468", "2f")]);
  ("82864187eabfa35332fd2b049b60d48e62a1849eb611589825353141e63ad52160b206c4f2f5d537", [("3a6d6574686f64", "474554"); ("3a736368656d65", "68747470"); ("3a617574686f72697479", "6b2e79696d672e6a70"); ("3a70617468", "2f696d616765732f746f702f7370322f636d6e2f6c6f676f2d6e732d3133303532382e706e67")])]%string.
(* hpack/fixtures/node-http2-hpack/story_01.json *)
Definition story_10_1 : list (string * list (string * string)) := [
  ("8741882f91d35d055c87a784827a879eb193aac92a136087f3e7cf9f3e7c874086f2b4e5a283ff84f07b2893", [("3a736368656d65", "6874747073"); ("3a617574686f72697479", "6578616d706c652e636f6d"); ("3a70617468", "2f"); ("3a6d6574686f64", "474554"); ("757365722d6167656e74", "687061636b2d74657374"); ("636f6f6b6965", "7878787878787831"); ("782d68656c6c6f", "776f726c64")]);
  ("87c18482c06087f3e7cf9f3e7c8b", [("3a736368656d65", "6874747073"); ("3a617574686f72697479", "6578616d706c652e636f6d"); ("3a70617468", "2f"); ("3a6d6574686f64", "474554"); ("757365722d6167656e74", "687061636b2d74657374"); ("636f6f6b6965", "7878787878787832")])]%string.
(* hpack/fixtures/node-http2-hpack/story_02.json *)
Definition story_10_2 : list (string * list (string * string)) := [
  ("828641871d23f67a9721e9847abcd07f66a281b0dae053fad0321aa49d13fda992a49685340c8a6adca7e28102ef7da9677b8171707f6a62293a9d810020004015309ac2ca7f2c05c5c153b0497ca589d34d1f43aeba0c41a4c7a98f33a69a3fdf9a68fa1d75d0620d263d4c79a68fbed00177febe58f9fbed00177b518b2d4b70ddf45abefb4005db90408721eaa8a4498f5788ea52d6b0e83772ff", [("3a6d6574686f64", "474554"); ("3a736368656d65", "68747470"); ("3a617574686f72697479", "616d617a6f6e2e636f6d"); ("3a70617468", "2f"); ("757365722d6167656e74", "4d6f7a696c6c612f352e3020284d6163696e746f73683b20496e74656c204d6163204f5320582031302e383b2072763a31362e3029204765636b6f2f32303130303130312046697265666f782f31362e30"); ("616363657074", "746578742f68746d6c2c6170706c69636174696f6e2f7868746d6c2b786d6c2c6170706c69636174696f6e2f786d6c3b713d302e392c2a2f2a3b713d302e38"); ("6163636570742d6c616e6775616765", "656e2d55532c656e3b713d302e35"); ("6163636570742d656e636f64696e67", "677a69702c206465666c617465"); ("636f6e6e656374696f6e", "6b6565702d616c697665")]);
  ("82864191996293cae6a473150b0e91fb3d4b90f4ff04ab60d48e62a18c4c002c4d51d88ca321ea62e94643d5babb0c92adc372c00af17168017c0cb6cb712f5d537fc2539a352398ac5754df46a473158f9fbed00177bebe58f9fbed00176fc190c073919d29aee30c78f1e171d23f67a9721e963f", [("3a6d6574686f64", "474554"); ("3a736368656d65", "68747470"); ("3a617574686f72697479", "672d6563782e696d616765732d616d617a6f6e2e636f6d"); ("3a70617468", "2f696d616765732f472f30312f676e6f2f626561636f6e2f426561636f6e5370726974652d55532d30312e5f563430313930333533355f2e706e67"); ("757365722d6167656e74", "4d6f7a696c6c612f352e3020284d6163696e746f73683b20496e74656c204d6163204f5320582031302e383b2072763a31362e3029204765636b6f2f32303130303130312046697265666f782f31362e30"); ("616363657074", "696d6167652f706e672c696d6167652f2a3b713d302e382c2a2f2a3b713d302e35"); ("6163636570742d6c616e6775616765", "656e2d55532c656e3b713d302e35"); ("6163636570742d656e636f64696e67", "677a69702c206465666c617465"); ("636f6e6e656374696f6e", "6b6565702d616c697665"); ("72656665726572", "687474703a2f2f7777772e616d617a6f6e2e636f6d2f")]);
  ("8286c004ad60d48e62a18c4c002c795a83907415821e9a4f5309b07522b1d85a92b566f25a178b8b2f38fb4269c6a25e634bc4bfc290c1be", [("3a6d6574686f64", "474554"); ("3a736368656d65", "68747470"); ("3a617574686f72697479", "672d6563782e696d616765732d616d617a6f6e2e636f6d"); ("3a70617468", "2f696d616765732f472f30312f782d6c6f63616c652f636f6d6d6f6e2f7472616e73706172656e742d706978656c2e5f563338363934323436345f2e676966"); ("757365722d6167656e74", "4d6f7a696c6c612f352e3020284d6163696e746f73683b20496e74656c204d6163204f5320582031302e383b2072763a31362e3029204765636b6f2f32303130303130312046697265666f782f31362e30"); ("616363657074", "696d6167652f706e672c696d6167652f2a3b713d302e382c2a2f2a3b713d302e35"); ("6163636570742d6c616e6775616765", "656e2d55532c656e3b713d302e35"); ("6163636570742d656e636f64696e67", "677a69702c206465666c617465"); ("636f6e6e656374696f6e", "6b6565702d616c697665"); ("72656665726572", "687474703a2f2f7777772e616d617a6f6e2e636f6d2f")]);
  ("8286c004bf60d48e62a18c4c002c1a9982260e99cb63121903424b62d61683165619001621e8b69a9840ea93d2d61683165899003cbadaf171680071e7da7c312f5d537fc4bfc290c1be", [("3a6d6574686f64", "474554"); ("3a736368656d65", "68747470"); ("3a617574686f72697479", "672d6563782e696d616765732d616d617a6f6e2e636f6d"); ("3a70617468", "2f696d616765732f472f30312f696d6731322f6f746865722f64697361737465722d72656c6965662f3330302d636f6c756d6e2f73616e64792d72656c6965665f3330307837352e5f563430303638393439315f2e706e67"); ("757365722d6167656e74", "4d6f7a696c6c612f352e3020284d6163696e746f73683b20496e74656c204d6163204f5320582031302e383b2072763a31362e3029204765636b6f2f32303130303130312046697265666f782f31362e30"); ("616363657074", "696d6167652f706e672c696d6167652f2a3b713d302e382c2a2f2a3b713d302e35"); ("6163636570742d6c616e6775616765", "656e2d55532c656e3b713d302e35"); ("6163636570742d656e636f64696e67", "677a69702c206465666c617465"); ("636f6e6e656374696f6e", "6b6565702d616c697665"); ("72656665726572", "687474703a2f2f7777772e616d617a6f6e2e636f6d2f")]);
  ("8286418bf1e3c2e3a47ecf52e43d3f84c5c4c390c2", [("3a6d6574686f64", "474554"); ("3a736368656d65", "68747470"); ("3a617574686f72697479", "7777772e616d617a6f6e2e636f6d"); ("3a70617468", "2f"); ("757365722d6167656e74", "4d6f7a696c6c612f352e3020284d6163696e746f73683b20496e74656c204d6163204f5320582031302e383b2072763a31362e3029204765636b6f2f32303130303130312046697265666f782f31362e30"); ("616363657074", "746578742f68746d6c2c6170706c69636174696f6e2f7868746d6c2b786d6c2c6170706c69636174696f6e2f786d6c3b713d302e392c2a2f2a3b713d302e38"); ("6163636570742d6c616e6775616765", "656e2d55532c656e3b713d302e35"); ("6163636570742d656e636f64696e67", "677a69702c206465666c617465"); ("636f6e6e656374696f6e", "6b6565702d616c697665")]);
  ("8286c104ad60d48e62a18c4c002c795a83907415821e9a4f5309b07522b1d85a92b566f25a178b885f109969c75b89798d2fc5c0c390c2bf", [("3a6d6574686f64", "474554"); ("3a736368656d65", "68747470"); ("3a617574686f72697479", "672d6563782e696d616765732d616d617a6f6e2e636f6d"); ("3a70617468", "2f696d616765732f472f30312f782d6c6f63616c652f636f6d6d6f6e2f7472616e73706172656e742d706978656c2e5f563139323233343637355f2e676966"); ("757365722d6167656e74", "4d6f7a696c6c612f352e3020284d6163696e746f73683b20496e74656c204d6163204f5320582031302e383b2072763a31362e3029204765636b6f2f32303130303130312046697265666f782f31362e30"); ("616363657074", "696d6167652f706e672c696d6167652f2a3b713d302e382c2a2f2a3b713d302e35"); ("6163636570742d6c616e6775616765", "656e2d55532c656e3b713d302e35"); ("6163636570742d656e636f64696e67", "677a69702c206465666c617465"); ("636f6e6e656374696f6e", "6b6565702d616c697665"); ("72656665726572", "687474703a2f2f7777772e616d617a6f6e2e636f6d2f")]);
  ("8286c104c160d48e62a18c4c002c1a9982261139ca86103a0a888bdcb5250c0431547eec040c82284842a107b0c546bdbab46a8b172b0d34e95e2e2d000e09c7db044bcc697fc5c0c390c2bf", [("3a6d6574686f64", "474554"); ("3a736368656d65", "68747470"); ("3a617574686f72697479", "672d6563782e696d616765732d616d617a6f6e2e636f6d"); ("3a70617468", "2f696d616765732f472f30312f696d6731322f73686f65732f73616c65735f6576656e74732f31315f6e6f762f313033305f4163636573736f7269657350524f4d4f5f475772696768742e5f563430303632363935305f2e676966"); ("757365722d6167656e74", "4d6f7a696c6c612f352e3020284d6163696e746f73683b20496e74656c204d6163204f5320582031302e383b2072763a31362e3029204765636b6f2f32303130303130312046697265666f782f31362e30"); ("616363657074", "696d6167652f706e672c696d6167652f2a3b713d302e382c2a2f2a3b713d302e35"); ("6163636570742d6c616e6775616765", "656e2d55532c656e3b713d302e35"); ("6163636570742d656e636f64696e67", "677a69702c206465666c617465"); ("636f6e6e656374696f6e", "6b6565702d616c697665"); ("72656665726572", "687474703a2f2f7777772e616d617a6f6e2e636f6d2f")]);
  ("8286c104ac60d48e62a18c4c002c436a4f49d26ee562c3a4e862fdb60c85a287000882202f1710be2101a75c6a25fa5737c5c0c390c2bf", [("3a6d6574686f64", "474554"); ("3a736368656d65", "68747470"); ("3a617574686f72697479", "672d6563782e696d616765732d616d617a6f6e2e636f6d"); ("3a70617468", "2f696d616765732f472f30312f4175746f6d6f746976652f726f746f732f4475726163656c6c3630305f3132302e5f563139323230343736345f2e6a7067"); ("757365722d6167656e74", "4d6f7a696c6c612f352e3020284d6163696e746f73683b20496e74656c204d6163204f5320582031302e383b2072763a31362e3029204765636b6f2f32303130303130312046697265666f782f31362e30"); ("616363657074", "696d6167652f706e672c696d6167652f2a3b713d302e382c2a2f2a3b713d302e35"); ("6163636570742d6c616e6775616765", "656e2d55532c656e3b713d302e35"); ("6163636570742d656e636f64696e67", "677a69702c206465666c617465"); ("636f6e6e656374696f6e", "6b6565702d616c697665"); ("72656665726572", "687474703a2f2f7777772e616d617a6f6e2e636f6d2f")]);
  ("8286c104b060d48e62a18c4c002c5a662838e4c9548620d27b10c5071c992a90c41a4f62d40ec98abc5c42f882fb6d3c089798d2ffc5c0c390c2bf", [("3a6d6574686f64", "474554"); ("3a736368656d65", "68747470"); ("3a617574686f72697479", "672d6563782e696d616765732d616d617a6f6e2e636f6d"); ("3a70617468", "2f696d616765732f472f30312f75692f6c6f6164496e64696361746f72732f6c6f6164496e64696361746f722d6c617267652e5f563139323139353438305f2e676966"); ("757365722d6167656e74", "4d6f7a696c6c612f352e3020284d6163696e746f73683b20496e74656c204d6163204f5320582031302e383b2072763a31362e3029204765636b6f2f32303130303130312046697265666f782f31362e30"); ("616363657074", "696d6167652f706e672c696d6167652f2a3b713d302e382c2a2f2a3b713d302e35"); ("6163636570742d6c616e6775616765", "656e2d55532c656e3b713d302e35"); ("6163636570742d656e636f64696e67", "677a69702c206465666c617465"); ("636f6e6e656374696f6e", "6b6565702d616c697665"); ("72656665726572", "687474703a2f2f7777772e616d617a6f6e2e636f6d2f")]);
  ("8286418f293cae6a473150b0e91fb3d4b90f4f049a60d48e62a18c8c341c7fab69beb6ee19d78b7670b2dc4bf4ae6fc6c1c490c3c0", [("3a6d6574686f64", "474554"); ("3a736368656d65", "68747470"); ("3a617574686f72697479", "6563782e696d616765732d616d617a6f6e2e636f6d"); ("3a70617468", "2f696d616765732f492f3431485a2d4e442d53554c2e5f534c3133355f2e6a7067"); ("757365722d6167656e74", "4d6f7a696c6c612f352e3020284d6163696e746f73683b20496e74656c204d6163204f5320582031302e383b2072763a31362e3029204765636b6f2f32303130303130312046697265666f782f31362e30"); ("616363657074", "696d6167652f706e672c696d6167652f2a3b713d302e382c2a2f2a3b713d302e35"); ("6163636570742d6c616e6775616765", "656e2d55532c656e3b713d302e35"); ("6163636570742d656e636f64696e67", "677a69702c206465666c617465"); ("636f6e6e656374696f6e", "6b6565702d616c697665"); ("72656665726572", "687474703a2f2f7777772e616d617a6f6e2e636f6d2f")])]%string.
(* hpack/fixtures/python-hpack/story_00.json *)
Definition story_11_0 : list (string * list (string * string)) := [
  ("82864188f439ce75c875fa5784", [("3a6d6574686f64", "474554"); ("3a736368656d65", "68747470"); ("3a617574686f72697479", "7961686f6f2e636f2e6a70"); ("3a70617468", "2f")]);
  ("8286418cf1e3c2fe8739ceb90ebf4aff84", [("3a6d6574686f64", "474554"); ("3a736368656d65", "68747470"); ("3a617574686f72697479", "7777772e7961686f6f2e636f2e6a70"); ("3a70617468", "2f")]);
  ("82864187eabfa35332fd2b449b60d48e62a1849eb611589825353141e63ad52160b206c4f2f5d537", [("3a6d6574686f64", "474554"); ("3a736368656d65", "68747470"); ("3a617574686f72697479", "6b2e79696d672e6a70"); ("3a70617468", "2f696d616765732f746f702f7370322f636d6e2f6c6f676f2d6e732d3133303532382e706e67")])]%string.
(* hpack/fixtures/python-hpack/story_01.json *)
Definition story_11_1 : list (string * list (string * string)) := [
  ("8741882f91d35d055c87a784827a879eb193aac92a136087f3e7cf9f3e7c874086f2b4e5a283ff84f07b2893", [("3a736368656d65", "6874747073"); ("3a617574686f72697479", "6578616d706c652e636f6d"); ("3a70617468", "2f"); ("3a6d6574686f64", "474554"); ("757365722d6167656e74", "687061636b2d74657374"); ("636f6f6b6965", "7878787878787831"); ("782d68656c6c6f", "776f726c64")]);
  ("87c18482c06087f3e7cf9f3e7c8b", [("3a736368656d65", "6874747073"); ("3a617574686f72697479", "6578616d706c652e636f6d"); ("3a70617468", "2f"); ("3a6d6574686f64", "474554"); ("757365722d6167656e74", "687061636b2d74657374"); ("636f6f6b6965", "7878787878787832")])]%string.
(* hpack/fixtures/python-hpack/story_02.json *)
Definition story_11_2 : list (string * list (string * string)) := [
  ("828641871d23f67a9721e9847abcd07f66a281b0dae053fad0321aa49d13fda992a49685340c8a6adca7e28102ef7da9677b8171707f6a62293a9d810020004015309ac2ca7f2c05c5c153b0497ca589d34d1f43aeba0c41a4c7a98f33a69a3fdf9a68fa1d75d0620d263d4c79a68fbed00177febe58f9fbed00177b518b2d4b70ddf45abefb4005db90408721eaa8a4498f5788ea52d6b0e83772ff", [("3a6d6574686f64", "474554"); ("3a736368656d65", "68747470"); ("3a617574686f72697479", "616d617a6f6e2e636f6d"); ("3a70617468", "2f"); ("757365722d6167656e74", "4d6f7a696c6c612f352e3020284d6163696e746f73683b20496e74656c204d6163204f5320582031302e383b2072763a31362e3029204765636b6f2f32303130303130312046697265666f782f31362e30"); ("616363657074", "746578742f68746d6c2c6170706c69636174696f6e2f7868746d6c2b786d6c2c6170706c69636174696f6e2f786d6c3b713d302e392c2a2f2a3b713d302e38"); ("6163636570742d6c616e6775616765", "656e2d55532c656e3b713d302e35"); ("6163636570742d656e636f64696e67", "677a69702c206465666c617465"); ("636f6e6e656374696f6e", "6b6565702d616c697665")]);
  ("82864191996293cae6a473150b0e91fb3d4b90f4ff44ab60d48e62a18c4c002c4d51d88ca321ea62e94643d5babb0c92adc372c00af17168017c0cb6cb712f5d537fc3539a352398ac5754df46a473158f9fbed00177bebe58f9fbed00176fc290c173919d29aee30c78f1e171d23f67a9721e963f", [("3a6d6574686f64", "474554"); ("3a736368656d65", "68747470"); ("3a617574686f72697479", "672d6563782e696d616765732d616d617a6f6e2e636f6d"); ("3a70617468", "2f696d616765732f472f30312f676e6f2f626561636f6e2f426561636f6e5370726974652d55532d30312e5f563430313930333533355f2e706e67"); ("757365722d6167656e74", "4d6f7a696c6c612f352e3020284d6163696e746f73683b20496e74656c204d6163204f5320582031302e383b2072763a31362e3029204765636b6f2f32303130303130312046697265666f782f31362e30"); ("616363657074", "696d6167652f706e672c696d6167652f2a3b713d302e382c2a2f2a3b713d302e35"); ("6163636570742d6c616e6775616765", "656e2d55532c656e3b713d302e35"); ("6163636570742d656e636f64696e67", "677a69702c206465666c617465"); ("636f6e6e656374696f6e", "6b6565702d616c697665"); ("72656665726572", "687474703a2f2f7777772e616d617a6f6e2e636f6d2f")]);
  ("8286c144ad60d48e62a18c4c002c795a83907415821e9a4f5309b07522b1d85a92b566f25a178b8b2f38fb4269c6a25e634bc6c0c490c3bf", [("3a6d6574686f64", "474554"); ("3a736368656d65", "68747470"); ("3a617574686f72697479", "672d6563782e696d616765732d616d617a6f6e2e636f6d"); ("3a70617468", "2f696d616765732f472f30312f782d6c6f63616c652f636f6d6d6f6e2f7472616e73706172656e742d706978656c2e5f563338363934323436345f2e676966"); ("757365722d6167656e74", "4d6f7a696c6c612f352e3020284d6163696e746f73683b20496e74656c204d6163204f5320582031302e383b2072763a31362e3029204765636b6f2f32303130303130312046697265666f782f31362e30"); ("616363657074", "696d6167652f706e672c696d6167652f2a3b713d302e382c2a2f2a3b713d302e35"); ("6163636570742d6c616e6775616765", "656e2d55532c656e3b713d302e35"); ("6163636570742d656e636f64696e67", "677a69702c206465666c617465"); ("636f6e6e656374696f6e", "6b6565702d616c697665"); ("72656665726572", "687474703a2f2f7777772e616d617a6f6e2e636f6d2f")]);
  ("8286c244bf60d48e62a18c4c002c1a9982260e99cb63121903424b62d61683165619001621e8b69a9840ea93d2d61683165899003cbadaf171680071e7da7c312f5d537fc7c1c590c4c0", [("3a6d6574686f64", "474554"); ("3a736368656d65", "68747470"); ("3a617574686f72697479", "672d6563782e696d616765732d616d617a6f6e2e636f6d"); ("3a70617468", "2f696d616765732f472f30312f696d6731322f6f746865722f64697361737465722d72656c6965662f3330302d636f6c756d6e2f73616e64792d72656c6965665f3330307837352e5f563430303638393439315f2e706e67"); ("757365722d6167656e74", "4d6f7a696c6c612f352e3020284d6163696e746f73683b20496e74656c204d6163204f5320582031302e383b2072763a31362e3029204765636b6f2f32303130303130312046697265666f782f31362e30"); ("616363657074", "696d6167652f706e672c696d6167652f2a3b713d302e382c2a2f2a3b713d302e35"); ("6163636570742d6c616e6775616765", "656e2d55532c656e3b713d302e35"); ("6163636570742d656e636f64696e67", "677a69702c206465666c617465"); ("636f6e6e656374696f6e", "6b6565702d616c697665"); ("72656665726572", "687474703a2f2f7777772e616d617a6f6e2e636f6d2f")]);
  ("8286418bf1e3c2e3a47ecf52e43d3f84c8c7c690c5", [("3a6d6574686f64", "474554"); ("3a736368656d65", "68747470"); ("3a617574686f72697479", "7777772e616d617a6f6e2e636f6d"); ("3a70617468", "2f"); ("757365722d6167656e74", "4d6f7a696c6c612f352e3020284d6163696e746f73683b20496e74656c204d6163204f5320582031302e383b2072763a31362e3029204765636b6f2f32303130303130312046697265666f782f31362e30"); ("616363657074", "746578742f68746d6c2c6170706c69636174696f6e2f7868746d6c2b786d6c2c6170706c69636174696f6e2f786d6c3b713d302e392c2a2f2a3b713d302e38"); ("6163636570742d6c616e6775616765", "656e2d55532c656e3b713d302e35"); ("6163636570742d656e636f64696e67", "677a69702c206465666c617465"); ("636f6e6e656374696f6e", "6b6565702d616c697665")]);
  ("8286c444ad60d48e62a18c4c002c795a83907415821e9a4f5309b07522b1d85a92b566f25a178b885f109969c75b89798d2fc9c3c790c6c2", [("3a6d6574686f64", "474554"); ("3a736368656d65", "68747470"); ("3a617574686f72697479", "672d6563782e696d616765732d616d617a6f6e2e636f6d"); ("3a70617468", "2f696d616765732f472f30312f782d6c6f63616c652f636f6d6d6f6e2f7472616e73706172656e742d706978656c2e5f563139323233343637355f2e676966"); ("757365722d6167656e74", "4d6f7a696c6c612f352e3020284d6163696e746f73683b20496e74656c204d6163204f5320582031302e383b2072763a31362e3029204765636b6f2f32303130303130312046697265666f782f31362e30"); ("616363657074", "696d6167652f706e672c696d6167652f2a3b713d302e382c2a2f2a3b713d302e35"); ("6163636570742d6c616e6775616765", "656e2d55532c656e3b713d302e35"); ("6163636570742d656e636f64696e67", "677a69702c206465666c617465"); ("636f6e6e656374696f6e", "6b6565702d616c697665"); ("72656665726572", "687474703a2f2f7777772e616d617a6f6e2e636f6d2f")]);
  ("8286c544c160d48e62a18c4c002c1a9982261139ca86103a0a888bdcb5250c0431547eec040c82284842a107b0c546bdbab46a8b172b0d34e95e2e2d000e09c7db044bcc697fcac4c890c7c3", [("3a6d6574686f64", "474554"); ("3a736368656d65", "68747470"); ("3a617574686f72697479", "672d6563782e696d616765732d616d617a6f6e2e636f6d"); ("3a70617468", "2f696d616765732f472f30312f696d6731322f73686f65732f73616c65735f6576656e74732f31315f6e6f762f313033305f4163636573736f7269657350524f4d4f5f475772696768742e5f563430303632363935305f2e676966"); ("757365722d6167656e74", "4d6f7a696c6c612f352e3020284d6163696e746f73683b20496e74656c204d6163204f5320582031302e383b2072763a31362e3029204765636b6f2f32303130303130312046697265666f782f31362e30"); ("616363657074", "696d6167652f706e672c696d6167652f2a3b713d302e382c2a2f2a3b713d302e35"); ("6163636570742d6c616e6775616765", "656e2d55532c656e3b713d302e35"); ("6163636570742d656e636f64696e67", "677a69702c206465666c617465"); ("636f6e6e656374696f6e", "6b6565702d616c697665"); ("72656665726572", "687474703a2f2f7777772e616d617a6f6e2e636f6d2f")]);
  ("8286c644ac60d48e62a18c4c002c436a4f49d26ee562c3a4e862fdb60c85a287000882202f1710be2101a75c6a25fa5737cbc5c990c8c4", [("3a6d6574686f64", "474554"); ("3a736368656d65", "68747470"); ("3a617574686f72697479", "672d6563782e696d616765732d616d617a6f6e2e636f6d"); ("3a70617468", "2f696d616765732f472f30312f4175746f6d6f746976652f726f746f732f4475726163656c6c3630305f3132302e5f563139323230343736345f2e6a7067"); ("757365722d6167656e74", "4d6f7a696c6c612f352e3020284d6163696e746f73683b20496e74656c204d6163204f5320582031302e383b2072763a31362e3029204765636b6f2f32303130303130312046697265666f782f31362e30"); ("616363657074", "696d6167652f706e672c696d6167652f2a3b713d302e382c2a2f2a3b713d302e35"); ("6163636570742d6c616e6775616765", "656e2d55532c656e3b713d302e35"); ("6163636570742d656e636f64696e67", "677a69702c206465666c617465"); ("636f6e6e656374696f6e", "6b6565702d616c697665"); ("72656665726572", "687474703a2f2f7777772e616d617a6f6e2e636f6d2f")]);
  ("8286c744b060d48e62a18c4c002c5a662838e4c9548620d27b10c5071c992a90c41a4f62d40ec98abc5c42f882fb6d3c089798d2ffccc6ca90c9c5", [("3a6d6574686f64", "474554"); ("3a736368656d65", "68747470"); ("3a617574686f72697479", "672d6563782e696d616765732d616d617a6f6e2e636f6d"); ("3a70617468", "2f696d616765732f472f30312f75692f6c6f6164496e64696361746f72732f6c6f6164496e64696361746f722d6c617267652e5f563139323139353438305f2e676966"); ("757365722d6167656e74", "4d6f7a696c6c612f352e3020284d6163696e746f73683b20496e74656c204d6163204f5320582031302e383b2072763a31362e3029204765636b6f2f32303130303130312046697265666f782f31362e30"); ("616363657074", "696d6167652f706e672c696d6167652f2a3b713d302e382c2a2f2a3b713d302e35"); ("6163636570742d6c616e6775616765", "656e2d55532c656e3b713d302e35"); ("6163636570742d656e636f64696e67", "677a69702c206465666c617465"); ("636f6e6e656374696f6e", "6b6565702d616c697665"); ("72656665726572", "687474703a2f2f7777772e616d617a6f6e2e636f6d2f")]);
  ("8286418f293cae6a473150b0e91fb3d4b90f4f449a60d48e62a18c8c341c7fab69beb6ee19d78b7670b2dc4bf4ae6fcec8cc90cbc7", [("3a6d6574686f64", "474554"); ("3a736368656d65", "68747470"); ("3a617574686f72697479", "6563782e696d616765732d616d617a6f6e2e636f6d"); ("3a70617468", "2f696d616765732f492f3431485a2d4e442d53554c2e5f534c3133355f2e6a7067"); ("757365722d6167656e74", "4d6f7a696c6c612f352e3020284d6163696e746f73683b20496e74656c204d6163204f5320582031302e383b2072763a31362e3029204765636b6f2f32303130303130312046697265666f782f31362e30"); ("616363657074", "696d6167652f706e672c696d6167652f2a3b713d302e382c2a2f2a3b713d302e35"); ("6163636570742d6c616e6775616765", "656e2d55532c656e3b713d302e35"); ("6163636570742d656e636f64696e67", "677a69702c206465666c617465"); ("636f6e6e656374696f6e", "6b6565702d616c697665"); ("72656665726572", "687474703a2f2f7777772e616d617a6f6e2e636f6d2f")])]%string.
(* hpack/fixtures/swift-nio-hpack-huffman/story_00.json *)
Definition story_12_0 : list (string * list (string * string)) := [
  ("82864188f439ce75c875fa5784", [("3a6d6574686f64", "474554"); ("3a736368656d65", "68747470"); ("3a617574686f72697479", "7961686f6f2e636f2e6a70"); ("3a70617468", "2f")]);
  ("8286418cf1e3c2fe8739ceb90ebf4aff84", [("3a6d6574686f64", "474554"); ("3a736368656d65", "68747470"); ("3a617574686f72697479", "7777772e7961686f6f2e636f2e6a70"); ("3a70617468", "2f")]);
  ("82864187eabfa35332fd2b449b60d48e62a1849eb611589825353141e63ad52160b206c4f2f5d537", [("3a6d6574686f64", "474554"); ("3a736368656d65", "68747470"); ("3a617574686f72697479", "6b2e79696d672e6a70"); ("3a70617468", "2f696d616765732f746f702f7370322f636d6e2f6c6f676f2d6e732d3133303532382e706e67")])]%string.
(* hpack/fixtures/swift-nio-hpack-huffman/story_01.json *)
Definition story_12_1 : list (string * list (string * string)) := [
  ("8741882f91d35d055c87a784827a879eb193aac92a136087f3e7cf9f3e7c874086f2b4e5a283ff84f07b2893", [("3a736368656d65", "6874747073"); ("3a617574686f72697479", "6578616d706c652e636f6d"); ("3a70617468", "2f"); ("3a6d6574686f64", "474554"); ("757365722d6167656e74", "687061636b2d74657374"); ("636f6f6b6965", "7878787878787831"); ("782d68656c6c6f", "776f726c64")]);
  ("87c18482c06087f3e7cf9f3e7c8b", [("3a736368656d65", "6874747073"); ("3a617574686f72697479", "6578616d706c652e636f6d"); ("3a70617468", "2f"); ("3a6d6574686f64", "474554"); ("757365722d6167656e74", "687061636b2d74657374"); ("636f6f6b6965", "7878787878787832")])]%string.
(* hpack/fixtures/swift-nio-hpack-huffman/story_02.json *)
Definition story_12_2 : list (string * list (string * string)) := [
  ("828641871d23f67a9721e9847abcd07f66a281b0dae053fad0321aa49d13fda992a49685340c8a6adca7e28102ef7da9677b8171707f6a62293a9d810020004015309ac2ca7f2c05c5c153b0497ca589d34d1f43aeba0c41a4c7a98f33a69a3fdf9a68fa1d75d0620d263d4c79a68fbed00177febe58f9fbed00177b518b2d4b70ddf45abefb4005db90408721eaa8a4498f5788ea52d6b0e83772ff", [("3a6d6574686f64", "474554"); ("3a736368656d65", "68747470"); ("3a617574686f72697479", "616d617a6f6e2e636f6d"); ("3a70617468", "2f"); ("757365722d6167656e74", "4d6f7a696c6c612f352e3020284d6163696e746f73683b20496e74656c204d6163204f5320582031302e383b2072763a31362e3029204765636b6f2f32303130303130312046697265666f782f31362e30"); ("616363657074", "746578742f68746d6c2c6170706c69636174696f6e2f7868746d6c2b786d6c2c6170706c69636174696f6e2f786d6c3b713d302e392c2a2f2a3b713d302e38"); ("6163636570742d6c616e6775616765", "656e2d55532c656e3b713d302e35"); ("6163636570742d656e636f64696e67", "677a69702c206465666c617465"); ("636f6e6e656374696f6e", "6b6565702d616c697665")]);
  ("82864191996293cae6a473150b0e91fb3d4b90f4ff44ab60d48e62a18c4c002c4d51d88ca321ea62e94643d5babb0c92adc372c00af17168017c0cb6cb712f5d537fc3539a352398ac5754df46a473158f9fbed00177bebe58f9fbed00176fc290c173919d29aee30c78f1e171d23f67a9721e963f", [("3a6d6574686f64", "474554"); ("3a736368656d65", "68747470"); ("3a617574686f72697479", "672d6563782e696d616765732d616d617a6f6e2e636f6d"); ("3a70617468", "2f696d616765732f472f30312f676e6f2f626561636f6e2f426561636f6e5370726974652d55532d30312e5f563430313930333533355f2e706e67"); ("757365722d6167656e74", "4d6f7a696c6c612f352e3020284d6163696e746f73683b20496e74656c204d6163204f5320582031302e383b2072763a31362e3029204765636b6f2f32303130303130312046697265666f782f31362e30"); ("616363657074", "696d6167652f706e672c696d6167652f2a3b713d302e382c2a2f2a3b713d302e35"); ("6163636570742d6c616e6775616765", "656e2d55532c656e3b713d302e35"); ("6163636570742d656e636f64696e67", "677a69702c206465666c617465"); ("636f6e6e656374696f6e", "6b6565702d616c697665"); ("72656665726572", "687474703a2f2f7777772e616d617a6f6e2e636f6d2f")]);
  ("8286c144ad60d48e62a18c4c002c795a83907415821e9a4f5309b07522b1d85a92b566f25a178b8b2f38fb4269c6a25e634bc6c0c490c3bf", [("3a6d6574686f64", "474554"); ("3a736368656d65", "68747470"); ("3a617574686f72697479", "672d6563782e696d616765732d616d617a6f6e2e636f6d"); ("3a70617468", "2f696d616765732f472f30312f782d6c6f63616c652f636f6d6d6f6e2f7472616e73706172656e742d706978656c2e5f563338363934323436345f2e676966"); ("757365722d6167656e74", "4d6f7a696c6c612f352e3020284d6163696e746f73683b20496e74656c204d6163204f5320582031302e383b2072763a31362e3029204765636b6f2f32303130303130312046697265666f782f31362e30"); ("616363657074", "696d6167652f706e672c696d6167652f2a3b713d302e382c2a2f2a3b713d302e35"); ("6163636570742d6c616e6775616765", "656e2d55532c656e3b713d302e35"); ("6163636570742d656e636f64696e67", "677a69702c206465666c617465"); ("636f6e6e656374696f6e", "6b6565702d616c697665"); ("72656665726572", "687474703a2f2f7777772e616d617a6f6e2e636f6d2f")]);
  ("8286c244bf60d48e62a18c4c002c1a9982260e99cb63121903424b62d61683165619001621e8b69a9840ea93d2d61683165899003cbadaf171680071e7da7c312f5d537fc7c1c590c4c0", [("3a6d6574686f64", "474554"); ("3a736368656d65", "68747470"); ("3a617574686f72697479", "672d6563782e696d616765732d616d617a6f6e2e636f6d"); ("3a70617468", "2f696d616765732f472f30312f696d6731322f6f746865722f64697361737465722d72656c6965662f3330302d636f6c756d6e2f73616e64792d72656c6965665f3330307837352e5f563430303638393439315f2e706e67"); ("757365722d6167656e74", "4d6f7a696c6c612f352e3020284d6163696e746f73683b20496e74656c204d6163204f5320582031302e383b2072763a31362e3029204765636b6f2f32303130303130312046697265666f782f31362e30"); ("616363657074", "696d6167652f706e672c696d6167652f2a3b713d302e382c2a2f2a3b713d302e35"); ("6163636570742d6c616e6775616765", "656e2d55532c656e3b713d302e35"); ("6163636570742d656e636f64696e67", "677a69702c206465666c617465"); ("636f6e6e656374696f6e", "6b6565702d616c697665"); ("72656665726572", "687474703a2f2f7777772e616d617a6f6e2e636f6d2f")]);
  ("8286418bf1e3c2e3a47ecf52e43d3f84c8c7c690c5", [("3a6d6574686f64", "474554"); ("3a736368656d65", "68747470"); ("3a617574686f72697479", "7777772e616d617a6f6e2e636f6d"); ("3a70617468", "2f"); ("757365722d6167656e74", "4d6f7a696c6c612f352e3020284d6163696e746f73683b20496e74656c204d6163204f5320582031302e383b2072763a31362e3029204765636b6f2f32303130303130312046697265666f782f31362e30"); ("616363657074", "746578742f68746d6c2c6170706c69636174696f6e2f7868746d6c2b786d6c2c6170706c69636174696f6e2f786d6c3b713d302e392c2a2f2a3b713d302e38"); ("6163636570742d6c616e6775616765", "656e2d55532c656e3b713d302e35"); ("6163636570742d656e636f64696e67", "677a69702c206465666c617465"); ("636f6e6e656374696f6e", "6b6565702d616c697665")]);
  ("8286c444ad60d48e62a18c4c002c795a83907415821e9a4f5309b07522b1d85a92b566f25a178b885f109969c75b89798d2fc9c3c790c6c2", [("3a6d6574686f64", "474554"); ("3a736368656d65", "68747470"); ("3a617574686f72697479", "672d6563782e696d616765732d616d617a6f6e2e636f6d"); ("3a70617468", "2f696d616765732f472f30312f782d6c6f63616c652f636f6d6d6f6e2f7472616e73706172656e742d706978656c2e5f563139323233343637355f2e676966"); ("757365722d6167656e74", "4d6f7a696c6c612f352e3020284d6163696e746f73683b20496e74656c204d6163204f5320582031302e383b2072763a31362e3029204765636b6f2f32303130303130312046697265666f782f31362e30"); ("616363657074", "696d6167652f706e672c696d6167652f2a3b713d302e382c2a2f2a3b713d302e35"); ("6163636570742d6c616e6775616765", "656e2d55532c656e3b713d302e35"); ("6163636570742d656e636f64696e67", "677a69702c206465666c617465"); ("636f6e6e656374696f6e", "6b6565702d616c697665"); ("72656665726572", "687474703a2f2f7777772e616d617a6f6e2e636f6d2f")]);
  ("8286c544c160d48e62a18c4c002c1a9982261139ca86103a0a888bdcb5250c0431547eec040c82284842a107b0c546bdbab46a8b172b0d34e95e2e2d000e09c7db044bcc697fcac4c890c7c3", [("3a6d6574686f64", "474554"); ("3a736368656d65", "68747470"); ("3a617574686f72697479", "672d6563782e696d616765732d616d617a6f6e2e636f6d"); ("3a70617468", "2f696d616765732f472f30312f696d6731322f73686f65732f73616c65735f6576656e74732f31315f6e6f762f313033305f4163636573736f7269657350524f4d4f5f475772696768742e5f563430303632363935305f2e676966"); ("757365722d6167656e74", "4d6f7a696c6c612f352e3020284d6163696e746f73683b20496e74656c204d6163204f5320582031302e383b2072763a31362e3029204765636b6f2f32303130303130312046697265666f782f31362e30"); ("616363657074", "696d6167652f706e672c696d6167652f2a3b713d302e382c2a2f2a3b713d302e35"); ("6163636570742d6c616e6775616765", "656e2d55532c656e3b713d302e35"); ("6163636570742d656e636f64696e67", "677a69702c206465666c617465"); ("636f6e6e656374696f6e", "6b6565702d616c697665"); ("72656665726572", "687474703a2f2f7777772e616d617a6f6e2e636f6d2f")]);
  ("8286c644ac60d48e62a18c4c002c436a4f49d26ee562c3a4e862fdb60c85a287000882202f1710be2101a75c6a25fa5737cbc5c990c8c4", [("3a6d6574686f64", "474554"); ("3a736368656d65", "68747470"); ("3a617574686f72697479", "672d6563782e696d616765732d616d617a6f6e2e636f6d"); ("3a70617468", "2f696d616765732f472f30312f4175746f6d6f746976652f726f746f732f4475726163656c6c3630305f3132302e5f563139323230343736345f2e6a7067"); ("757365722d6167656e74", "4d6f7a696c6c612f352e3020284d6163696e746f73683b20496e74656c204d6163204f5320582031302e383b2072763a31362e3029204765636b6f2f32303130303130312046697265666f782f31362e30"); ("616363657074", "696d6167652f706e672c696d6167652f2a3b713d302e382c2a2f2a3b713d302e35"); ("6163636570742d6c616e6775616765", "656e2d55532c656e3b713d302e35"); ("6163636570742d656e636f64696e67", "677a69702c206465666c617465"); ("636f6e6e656374696f6e", "6b6565702d616c697665"); ("72656665726572", "687474703a2f2f7777772e616d617a6f6e2e636f6d2f")]);
  ("8286c744b060d48e62a18c4c002c5a662838e4c9548620d27b10c5071c992a90c41a4f62d40ec98abc5c42f882fb6d3c089798d2ffccc6ca90c9c5", [("3a6d6574686f64", "474554"); ("3a736368656d65", "68747470"); ("3a617574686f72697479", "672d6563782e696d616765732d616d617a6f6e2e636f6d"); ("3a70617468", "2f696d616765732f472f30312f75692f6c6f6164496e64696361746f72732f6c6f6164496e64696361746f722d6c617267652e5f563139323139353438305f2e676966"); ("757365722d6167656e74", "4d6f7a696c6c612f352e3020284d6163696e746f73683b20496e74656c204d6163204f5320582031302e383b2072763a31362e3029204765636b6f2f32303130303130312046697265666f782f31362e30"); ("616363657074", "696d6167652f706e672c696d6167652f2a3b713d302e382c2a2f2a3b713d302e35"); ("6163636570742d6c616e6775616765", "656e2d55532c656e3b713d302e35"); ("6163636570742d656e636f64696e67", "677a69702c206465666c617465"); ("636f6e6e656374696f6e", "6b6565702d616c697665"); ("72656665726572", "687474703a2f2f7777772e616d617a6f6e2e636f6d2f")]);
  ("8286418f293cae6a473150b0e91fb3d4b90f4f449a60d48e62a18c8c341c7fab69beb6ee19d78b7670b2dc4bf4ae6fcec8cc90cbc7", [("3a6d6574686f64", "474554"); ("3a736368656d65", "68747470"); ("3a617574686f72697479", "6563782e696d616765732d616d617a6f6e2e636f6d"); ("3a70617468", "2f696d616765732f492f3431485a2d4e442d53554c2e5f534c3133355f2e6a7067"); ("757365722d6167656e74", "4d6f7a696c6c612f352e3020284d6163696e746f73683b20496e74656c204d6163204f5320582031302e383b2072763a31362e3029204765636b6f2f32303130303130312046697265666f782f31362e30"); ("616363657074", "696d6167652f706e672c696d6167652f2a3b713d302e382c2a2f2a3b713d302e35"); ("6163636570742d6c616e6775616765", "656e2d55532c656e3b713d302e35"); ("6163636570742d656e636f64696e67", "677a69702c206465666c617465"); ("636f6e6e656374696f6e", "6b6565702d616c697665"); ("72656665726572", "687474703a2f2f7777772e616d617a6f6e2e636f6d2f")])]%string.
(* hpack/fixtures/swift-nio-hpack-plain-text/story_00.json *)
Definition story_13_0 : list (string * list (string * string)) := [
  ("8286410b7961686f6f2e636f2e6a7084", [("3a6d6574686f64", "474554"); ("3a736368656d65", "68747470"); ("3a617574686f72697479", "7961686f6f2e636f2e6a70"); ("3a70617468", "2f")]);
  ("8286410f7777772e7961686f6f2e636f2e6a7084", [("3a6d6574686f64", "474554"); ("3a736368656d65", "68747470"); ("3a617574686f72697479", "7777772e7961686f6f2e636f2e6a70"); ("3a70617468", "2f")]);
  ("828641096b2e79696d672e6a7044262f696d616765732f746f702f7370322f636d6e2f6c6f676f2d6e732d3133303532382e706e67", [("3a6d6574686f64", "474554"); ("3a736368656d65", "68747470"); ("3a617574686f72697479", "6b2e79696d672e6a70"); ("3a70617468", "2f696d616765732f746f702f7370322f636d6e2f6c6f676f2d6e732d3133303532382e706e67")])]%string.
(* hpack/fixtures/swift-nio-hpack-plain-text/story_01.json *)
Definition story_13_1 : list (string * list (string * string)) := [
  ("87410b6578616d706c652e636f6d84827a0a687061636b2d74657374600878787878787878314007782d68656c6c6f05776f726c64", [("3a736368656d65", "6874747073"); ("3a617574686f72697479", "6578616d706c652e636f6d"); ("3a70617468", "2f"); ("3a6d6574686f64", "474554"); ("757365722d6167656e74", "687061636b2d74657374"); ("636f6f6b6965", "7878787878787831"); ("782d68656c6c6f", "776f726c64")]);
  ("87c18482c060087878787878787832", [("3a736368656d65", "6874747073"); ("3a617574686f72697479", "6578616d706c652e636f6d"); ("3a70617468", "2f"); ("3a6d6574686f64", "474554"); ("757365722d6167656e74", "687061636b2d74657374"); ("636f6f6b6965", "7878787878787832")])]%string.
(* hpack/fixtures/swift-nio-hpack-plain-text/story_02.json *)
Definition story_13_2 : list (string * list (string * string)) := [
  ("8286410a616d617a6f6e2e636f6d847a514d6f7a696c6c612f352e3020284d6163696e746f73683b20496e74656c204d6163204f5320582031302e383b2072763a31362e3029204765636b6f2f32303130303130312046697265666f782f31362e30533f746578742f68746d6c2c6170706c69636174696f6e2f7868746d6c2b786d6c2c6170706c69636174696f6e2f786d6c3b713d302e392c2a2f2a3b713d302e38510e656e2d55532c656e3b713d302e3590400a636f6e6e656374696f6e0a6b6565702d616c697665", [("3a6d6574686f64", "474554"); ("3a736368656d65", "68747470"); ("3a617574686f72697479", "616d617a6f6e2e636f6d"); ("3a70617468", "2f"); ("757365722d6167656e74", "4d6f7a696c6c612f352e3020284d6163696e746f73683b20496e74656c204d6163204f5320582031302e383b2072763a31362e3029204765636b6f2f32303130303130312046697265666f782f31362e30"); ("616363657074", "746578742f68746d6c2c6170706c69636174696f6e2f7868746d6c2b786d6c2c6170706c69636174696f6e2f786d6c3b713d302e392c2a2f2a3b713d302e38"); ("6163636570742d6c616e6775616765", "656e2d55532c656e3b713d302e35"); ("6163636570742d656e636f64696e67", "677a69702c206465666c617465"); ("636f6e6e656374696f6e", "6b6565702d616c697665")]);
  ("82864117672d6563782e696d616765732d616d617a6f6e2e636f6d443b2f696d616765732f472f30312f676e6f2f626561636f6e2f426561636f6e5370726974652d55532d30312e5f563430313930333533355f2e706e67c35321696d6167652f706e672c696d6167652f2a3b713d302e382c2a2f2a3b713d302e35c290c17316687474703a2f2f7777772e616d617a6f6e2e636f6d2f", [("3a6d6574686f64", "474554"); ("3a736368656d65", "68747470"); ("3a617574686f72697479", "672d6563782e696d616765732d616d617a6f6e2e636f6d"); ("3a70617468", "2f696d616765732f472f30312f676e6f2f626561636f6e2f426561636f6e5370726974652d55532d30312e5f563430313930333533355f2e706e67"); ("757365722d6167656e74", "4d6f7a696c6c612f352e3020284d6163696e746f73683b20496e74656c204d6163204f5320582031302e383b2072763a31362e3029204765636b6f2f32303130303130312046697265666f782f31362e30"); ("616363657074", "696d6167652f706e672c696d6167652f2a3b713d302e382c2a2f2a3b713d302e35"); ("6163636570742d6c616e6775616765", "656e2d55532c656e3b713d302e35"); ("6163636570742d656e636f64696e67", "677a69702c206465666c617465"); ("636f6e6e656374696f6e", "6b6565702d616c697665"); ("72656665726572", "687474703a2f2f7777772e616d617a6f6e2e636f6d2f")]);
  ("8286c1443f2f696d616765732f472f30312f782d6c6f63616c652f636f6d6d6f6e2f7472616e73706172656e742d706978656c2e5f563338363934323436345f2e676966c6c0c490c3bf", [("3a6d6574686f64", "474554"); ("3a736368656d65", "68747470"); ("3a617574686f72697479", "672d6563782e696d616765732d616d617a6f6e2e636f6d"); ("3a70617468", "2f696d616765732f472f30312f782d6c6f63616c652f636f6d6d6f6e2f7472616e73706172656e742d706978656c2e5f563338363934323436345f2e676966"); ("757365722d6167656e74", "4d6f7a696c6c612f352e3020284d6163696e746f73683b20496e74656c204d6163204f5320582031302e383b2072763a31362e3029204765636b6f2f32303130303130312046697265666f782f31362e30"); ("616363657074", "696d6167652f706e672c696d6167652f2a3b713d302e382c2a2f2a3b713d302e35"); ("6163636570742d6c616e6775616765", "656e2d55532c656e3b713d302e35"); ("6163636570742d656e636f64696e67", "677a69702c206465666c617465"); ("636f6e6e656374696f6e", "6b6565702d616c697665"); ("72656665726572", "687474703a2f2f7777772e616d617a6f6e2e636f6d2f")]);
  ("8286c244582f696d616765732f472f30312f696d6731322f6f746865722f64697361737465722d72656c6965662f3330302d636f6c756d6e2f73616e64792d72656c6965665f3330307837352e5f563430303638393439315f2e706e67c7c1c590c4c0", [("3a6d6574686f64", "474554"); ("3a736368656d65", "68747470"); ("3a617574686f72697479", "672d6563782e696d616765732d616d617a6f6e2e636f6d"); ("3a70617468", "2f696d616765732f472f30312f696d6731322f6f746865722f64697361737465722d72656c6965662f3330302d636f6c756d6e2f73616e64792d72656c6965665f3330307837352e5f563430303638393439315f2e706e67"); ("757365722d6167656e74", "4d6f7a696c6c612f352e3020284d6163696e746f73683b20496e74656c204d6163204f5320582031302e383b2072763a31362e3029204765636b6f2f32303130303130312046697265666f782f31362e30"); ("616363657074", "696d6167652f706e672c696d6167652f2a3b713d302e382c2a2f2a3b713d302e35"); ("6163636570742d6c616e6775616765", "656e2d55532c656e3b713d302e35"); ("6163636570742d656e636f64696e67", "677a69702c206465666c617465"); ("636f6e6e656374696f6e", "6b6565702d616c697665"); ("72656665726572", "687474703a2f2f7777772e616d617a6f6e2e636f6d2f")]);
  ("8286410e7777772e616d617a6f6e2e636f6d84c8c7c690c5", [("3a6d6574686f64", "474554"); ("3a736368656d65", "68747470"); ("3a617574686f72697479", "7777772e616d617a6f6e2e636f6d"); ("3a70617468", "2f"); ("757365722d6167656e74", "4d6f7a696c6c612f352e3020284d6163696e746f73683b20496e74656c204d6163204f5320582031302e383b2072763a31362e3029204765636b6f2f32303130303130312046697265666f782f31362e30"); ("616363657074", "746578742f68746d6c2c6170706c69636174696f6e2f7868746d6c2b786d6c2c6170706c69636174696f6e2f786d6c3b713d302e392c2a2f2a3b713d302e38"); ("6163636570742d6c616e6775616765", "656e2d55532c656e3b713d302e35"); ("6163636570742d656e636f64696e67", "677a69702c206465666c617465"); ("636f6e6e656374696f6e", "6b6565702d616c697665")]);
  ("8286c4443f2f696d616765732f472f30312f782d6c6f63616c652f636f6d6d6f6e2f7472616e73706172656e742d706978656c2e5f563139323233343637355f2e676966c9c3c790c6c2", [("3a6d6574686f64", "474554"); ("3a736368656d65", "68747470"); ("3a617574686f72697479", "672d6563782e696d616765732d616d617a6f6e2e636f6d"); ("3a70617468", "2f696d616765732f472f30312f782d6c6f63616c652f636f6d6d6f6e2f7472616e73706172656e742d706978656c2e5f563139323233343637355f2e676966"); ("757365722d6167656e74", "4d6f7a696c6c612f352e3020284d6163696e746f73683b20496e74656c204d6163204f5320582031302e383b2072763a31362e3029204765636b6f2f32303130303130312046697265666f782f31362e30"); ("616363657074", "696d6167652f706e672c696d6167652f2a3b713d302e382c2a2f2a3b713d302e35"); ("6163636570742d6c616e6775616765", "656e2d55532c656e3b713d302e35"); ("6163636570742d656e636f64696e67", "677a69702c206465666c617465"); ("636f6e6e656374696f6e", "6b6565702d616c697665"); ("72656665726572", "687474703a2f2f7777772e616d617a6f6e2e636f6d2f")]);
  ("8286c5445b2f696d616765732f472f30312f696d6731322f73686f65732f73616c65735f6576656e74732f31315f6e6f762f313033305f4163636573736f7269657350524f4d4f5f475772696768742e5f563430303632363935305f2e676966cac4c890c7c3", [("3a6d6574686f64", "474554"); ("3a736368656d65", "68747470"); ("3a617574686f72697479", "672d6563782e696d616765732d616d617a6f6e2e636f6d"); ("3a70617468", "2f696d616765732f472f30312f696d6731322f73686f65732f73616c65735f6576656e74732f31315f6e6f762f313033305f4163636573736f7269657350524f4d4f5f475772696768742e5f563430303632363935305f2e676966"); ("757365722d6167656e74", "4d6f7a696c6c612f352e3020284d6163696e746f73683b20496e74656c204d6163204f5320582031302e383b2072763a31362e3029204765636b6f2f32303130303130312046697265666f782f31362e30"); ("616363657074", "696d6167652f706e672c696d6167652f2a3b713d302e382c2a2f2a3b713d302e35"); ("6163636570742d6c616e6775616765", "656e2d55532c656e3b713d302e35"); ("6163636570742d656e636f64696e67", "677a69702c206465666c617465"); ("636f6e6e656374696f6e", "6b6565702d616c697665"); ("72656665726572", "687474703a2f2f7777772e616d617a6f6e2e636f6d2f")]);
  ("8286c6443e2f696d616765732f472f30312f4175746f6d6f746976652f726f746f732f4475726163656c6c3630305f3132302e5f563139323230343736345f2e6a7067cbc5c990c8c4", [("3a6d6574686f64", "474554"); ("3a736368656d65", "68747470"); ("3a617574686f72697479", "672d6563782e696d616765732d616d617a6f6e2e636f6d"); ("3a70617468", "2f696d616765732f472f30312f4175746f6d6f746976652f726f746f732f4475726163656c6c3630305f3132302e5f563139323230343736345f2e6a7067"); ("757365722d6167656e74", "4d6f7a696c6c612f352e3020284d6163696e746f73683b20496e74656c204d6163204f5320582031302e383b2072763a31362e3029204765636b6f2f32303130303130312046697265666f782f31362e30"); ("616363657074", "696d6167652f706e672c696d6167652f2a3b713d302e382c2a2f2a3b713d302e35"); ("6163636570742d6c616e6775616765", "656e2d55532c656e3b713d302e35"); ("6163636570742d656e636f64696e67", "677a69702c206465666c617465"); ("636f6e6e656374696f6e", "6b6565702d616c697665"); ("72656665726572", "687474703a2f2f7777772e616d617a6f6e2e636f6d2f")]);
  ("8286c744432f696d616765732f472f30312f75692f6c6f6164496e64696361746f72732f6c6f6164496e64696361746f722d6c617267652e5f563139323139353438305f2e676966ccc6ca90c9c5", [("3a6d6574686f64", "474554"); ("3a736368656d65", "68747470"); ("3a617574686f72697479", "672d6563782e696d616765732d616d617a6f6e2e636f6d"); ("3a70617468", "2f696d616765732f472f30312f75692f6c6f6164496e64696361746f72732f6c6f6164496e64696361746f722d6c617267652e5f563139323139353438305f2e676966"); ("757365722d6167656e74", "4d6f7a696c6c612f352e3020284d6163696e746f73683b20496e74656c204d6163204f5320582031302e383b2072763a31362e3029204765636b6f2f32303130303130312046697265666f782f31362e30"); ("616363657074", "696d6167652f706e672c696d6167652f2a3b713d302e382c2a2f2a3b713d302e35"); ("6163636570742d6c616e6775616765", "656e2d55532c656e3b713d302e35"); ("6163636570742d656e636f64696e67", "677a69702c206465666c617465"); ("636f6e6e656374696f6e", "6b6565702d616c697665"); ("72656665726572", "687474703a2f2f7777772e616d617a6f6e2e636f6d2f")]);
  ("828641156563782e696d616765732d616d617a6f6e2e636f6d44212f696d616765732f492f3431485a2d4e442d53554c2e5f534c3133355f2e6a7067cec8cc90cbc7", [("3a6d6574686f64", "474554"); ("3a736368656d65", "68747470"); ("3a617574686f72697479", "6563782e696d616765732d616d617a6f6e2e636f6d"); ("3a70617468", "2f696d616765732f492f3431485a2d4e442d53554c2e5f534c3133355f2e6a7067"); ("757365722d6167656e74", "4d6f7a696c6c612f352e3020284d6163696e746f73683b20496e74656c204d6163204f5320582031302e383b2072763a31362e3029204765636b6f2f32303130303130312046697265666f782f31362e30"); ("616363657074", "696d6167652f706e672c696d6167652f2a3b713d302e382c2a2f2a3b713d302e35"); ("6163636570742d6c616e6775616765", "656e2d55532c656e3b713d302e35"); ("6163636570742d656e636f64696e67", "677a69702c206465666c617465"); ("636f6e6e656374696f6e", "6b6565702d616c697665"); ("72656665726572", "687474703a2f2f7777772e616d617a6f6e2e636f6d2f")])]%string.
Example decodes_stories : forallb (fun m => forallb (story m decoder_default)
  [story_0_0; story_0_1; story_0_2; story_1_0; story_1_1; story_1_2; story_2_0; story_2_1; story_2_2; story_3_0; story_3_1; story_3_2; story_4_0; story_4_1; story_4_2; story_5_0; story_5_1; story_5_2; story_6_0; story_6_1; story_6_2; story_7_0; story_7_1; story_7_2; story_8_0; story_8_1; story_8_2; story_9_0; story_9_1; story_9_2; story_10_0; story_10_1; story_10_2; story_11_0; story_11_1; story_11_2; story_12_0; story_12_1; story_12_2; story_13_0; story_13_1; story_13_2]) modes = true.
Proof. vm_compute. reflexivity. Qed.

(* ------------------------------------------------------------------ *)
(* protos/src/encoder/mod.rs:676-746, encodes_supported (1.0 and 2.0 as bit patterns) *)
Definition supported : list (N * encoder_lit) :=
  [(1, lit_of_u8_vec (octets "foo")); (2, lit_of_bool true); (3, lit_of_bool_vec [false; true]); (4, lit_of_i32 1);
   (5, lit_of_i32_vec [-100; 100]%Z); (6, lit_of_i64 1); (7, lit_of_i64_vec [-100; 100]%Z); (8, lit_of_u32 1);
   (9, lit_of_u32_vec [1; 2]); (10, lit_of_u64 1); (11, lit_of_u64_vec [1; 2]); (12, lit_of_f32 0x3f800000);
   (13, lit_of_f32_vec [0x3f800000; 0x40000000]); (14, lit_of_f64 0x3ff0000000000000);
   (15, lit_of_f64_vec [0x3ff0000000000000; 0x4000000000000000]); (16, lit_of_u8_vec (octets "foo"));
   (17, ESInt32 (-10)); (18, ESInt32Vec [-10; 10]%Z); (19, ESInt64 (-10)); (20, ESInt64Vec [-10; 10]%Z);
   (21, EFixed32 10); (22, EFixed32Vec [1; 2]); (23, EFixed64 10); (24, EFixed64Vec [1; 2]);
   (25, ESFixed32 (-10)); (26, ESFixed32Vec [-10; 10]%Z); (27, ESFixed64 (-10)); (28, ESFixed64Vec [-10; 10]%Z)].
Definition supported_wire : list N :=
  [10; 3; 102; 111; 111; 16; 1; 26; 2; 0; 1; 32; 1; 42; 11; 156; 255; 255; 255; 255; 255; 255; 255; 255; 1; 100; 48; 1; 58; 11; 156; 255; 255; 255; 255; 255; 255; 255; 255; 1; 100; 64; 1; 74; 2; 1; 2; 80; 1; 90; 2; 1; 2; 101; 0; 0; 128; 63; 106; 8; 0; 0; 128; 63; 0; 0; 0; 64; 113; 0; 0; 0; 0; 0; 0; 240; 63; 122; 16; 0; 0; 0; 0; 0; 0; 240; 63; 0; 0; 0; 0; 0; 0; 0; 64; 130; 1; 3; 102; 111; 111; 136; 1; 19; 146; 1; 2; 19; 20; 152; 1; 19; 162; 1; 2; 19; 20; 173; 1; 10; 0; 0; 0; 178; 1; 8; 1; 0; 0; 0; 2; 0; 0; 0; 185; 1; 10; 0; 0; 0; 0; 0; 0; 0; 194; 1; 16; 1; 0; 0; 0; 0; 0; 0; 0; 2; 0; 0; 0; 0; 0; 0; 0; 205; 1; 246; 255; 255; 255; 210; 1; 8; 246; 255; 255; 255; 10; 0; 0; 0; 217; 1; 246; 255; 255; 255; 255; 255; 255; 255; 226; 1; 16; 246; 255; 255; 255; 255; 255; 255; 255; 10; 0; 0; 0; 0; 0; 0; 0].
Example encodes_supported : encode_message supported (vec_sink []) = (vec_sink supported_wire, Ok 209).
Proof. vm_compute. reflexivity. Qed.

(* protos/src/decoder/mod.rs:288-424, decodes_supported *)
Example decodes_supported : forall m,
  match pdecode m pdecoder_default supported_wire [] with
  | ((d, rest, fs), Ok n) => n = 209 /\ rest = [] /\ d = pdecoder_default /\
      map (fun f => fst (fst f)) fs = map N.of_nat (seq 1 28) /\
      map (fun f => snd (fst f)) fs =
        [LengthDelimited; Varint; LengthDelimited; Varint; LengthDelimited; Varint; LengthDelimited; Varint;
         LengthDelimited; Varint; LengthDelimited; Bit32; LengthDelimited; Bit64; LengthDelimited; LengthDelimited;
         Varint; LengthDelimited; Varint; LengthDelimited; Bit32; LengthDelimited; Bit64; LengthDelimited;
         Bit32; LengthDelimited; Bit64; LengthDelimited] /\
      let p i := snd (nth (i - 1) fs (0, Unknown, [])) in
      to_u8_vec (DBytes (p 1%nat)) = octets "foo" /\ to_bool m (DBool (p 2%nat)) = Ok true /\
      to_bool_vec m (DBoolVec (p 3%nat)) = Ok [false; true] /\ to_i32 m (DInt32 (p 4%nat)) = Ok 1%Z /\
      to_i32_vec m (DInt32Vec (p 5%nat)) = Ok [-100; 100]%Z /\ to_i64 m (DInt64 (p 6%nat)) = Ok 1%Z /\
      to_i64_vec m (DInt64Vec (p 7%nat)) = Ok [-100; 100]%Z /\ to_u32 m (DUInt32 (p 8%nat)) = Ok 1 /\
      to_u32_vec m (DUInt32Vec (p 9%nat)) = Ok [1; 2] /\ to_u64 m (DUInt64 (p 10%nat)) = Ok 1 /\
      to_u64_vec m (DUInt64Vec (p 11%nat)) = Ok [1; 2] /\ to_f32 m (DFloat (p 12%nat)) = Ok 0x3f800000 /\
      to_f32_vec m (DFloatVec (p 13%nat)) = Ok [0x3f800000; 0x40000000] /\
      to_f64 m (DDouble (p 14%nat)) = Ok 0x3ff0000000000000 /\
      to_f64_vec m (DDoubleVec (p 15%nat)) = Ok [0x3ff0000000000000; 0x4000000000000000] /\
      to_string (DBytes (p 16%nat)) = octets "foo" /\ to_i32 m (DSInt32 (p 17%nat)) = Ok (-10)%Z /\
      to_i32_vec m (DSInt32Vec (p 18%nat)) = Ok [-10; 10]%Z /\ to_i64 m (DSInt64 (p 19%nat)) = Ok (-10)%Z /\
      to_i64_vec m (DSInt64Vec (p 20%nat)) = Ok [-10; 10]%Z /\ to_u32 m (DFixed32 (p 21%nat)) = Ok 10 /\
      to_u32_vec m (DFixed32Vec (p 22%nat)) = Ok [1; 2] /\ to_u64 m (DFixed64 (p 23%nat)) = Ok 10 /\
      to_u64_vec m (DFixed64Vec (p 24%nat)) = Ok [1; 2] /\ to_i32 m (DSFixed32 (p 25%nat)) = Ok (-10)%Z /\
      to_i32_vec m (DSFixed32Vec (p 26%nat)) = Ok [-10; 10]%Z /\ to_i64 m (DSFixed64 (p 27%nat)) = Ok (-10)%Z /\
      to_i64_vec m (DSFixed64Vec (p 28%nat)) = Ok [-10; 10]%Z
  | _ => False
  end.
Proof. intros []; vm_compute; repeat split. Qed.
Example decodes_error : forall m, snd (pdecode m pdecoder_default [0] []) = Err PInvalidInput.
Proof. intros []; reflexivity. Qed.

(* protos/src/encoder/primitives.rs:362-585 *)
Definition writes (f : sink -> penc) (bs : list N) : Prop := f (vec_sink []) = (vec_sink bs, Ok (N.of_nat (List.length bs))).
Example encodes_primitives :
  writes (pencode_varint 0) [0] /\ writes (pencode_varint (2 ^ 64 - 1)) [255; 255; 255; 255; 255; 255; 255; 255; 255; 1] /\
  writes (pencode_key 123456789 Varint) [168; 209; 249; 214; 3] /\ writes (pencode_key 1234 Bit32) [149; 77] /\
  writes (prim_int32 (- 2 ^ 31)) [128; 128; 128; 128; 248; 255; 255; 255; 255; 1] /\
  writes (prim_int32 (2 ^ 31 - 1)) [255; 255; 255; 255; 7] /\
  writes (prim_uint32 0) [0] /\ writes (prim_uint32 (2 ^ 32 - 1)) [255; 255; 255; 255; 15] /\
  writes (prim_sint32 (- 2 ^ 31)) [255; 255; 255; 255; 15] /\ writes (prim_sint32 (2 ^ 31 - 1)) [254; 255; 255; 255; 15] /\
  writes (prim_int64 (- 2 ^ 63)) [128; 128; 128; 128; 128; 128; 128; 128; 128; 1] /\
  writes (prim_int64 (2 ^ 63 - 1)) [255; 255; 255; 255; 255; 255; 255; 255; 127] /\
  writes (prim_uint64 0) [0] /\ writes (prim_uint64 (2 ^ 64 - 1)) [255; 255; 255; 255; 255; 255; 255; 255; 255; 1] /\
  writes (prim_sint64 (- 2 ^ 63)) [255; 255; 255; 255; 255; 255; 255; 255; 255; 1] /\
  writes (prim_sint64 (2 ^ 63 - 1)) [254; 255; 255; 255; 255; 255; 255; 255; 255; 1] /\
  writes (prim_bool true) [1] /\ writes (prim_bool false) [0] /\
  writes (prim_fixed64 0) [0; 0; 0; 0; 0; 0; 0; 0] /\
  writes (prim_fixed64 (2 ^ 64 - 1)) [255; 255; 255; 255; 255; 255; 255; 255] /\
  writes (prim_sfixed64 (- 2 ^ 63)) [0; 0; 0; 0; 0; 0; 0; 128] /\
  writes (prim_sfixed64 (2 ^ 63 - 1)) [255; 255; 255; 255; 255; 255; 255; 127] /\
  writes (prim_double 0xffefffffffffffff) [255; 255; 255; 255; 255; 255; 239; 255] /\
  writes (prim_double 0x7fefffffffffffff) [255; 255; 255; 255; 255; 255; 239; 127] /\
  writes (prim_fixed32 0) [0; 0; 0; 0] /\ writes (prim_fixed32 (2 ^ 32 - 1)) [255; 255; 255; 255] /\
  writes (prim_sfixed32 (- 2 ^ 31)) [0; 0; 0; 128] /\ writes (prim_sfixed32 (2 ^ 31 - 1)) [255; 255; 255; 127] /\
  writes (prim_float 0xff7fffff) [255; 255; 127; 255] /\ writes (prim_float 0x7f7fffff) [255; 255; 127; 127] /\
  writes (prim_bytes [1; 2; 3; 4; 5]) [5; 1; 2; 3; 4; 5].
Proof. vm_compute. repeat split. Qed.

(* protos/src/decoder/primitives.rs:684-914 *)
Example decodes_primitives : forall m,
  pdecode_varint m [0xb9] = Err PInputUnderflow /\ pdecode_varint m [0xb9; 0x60; 0x85] = Ok (12345, 2) /\
  pdecode_varint m [0x85; 0x35; 0x85] = Ok (6789, 2) /\
  pdecode_key m [0xcd; 0x83; 0x06; 0xaa] = Ok (12345, Bit32, 3) /\
  pdecode_key m [0xaa; 0xa8; 0x03; 0x03] = Ok (6789, LengthDelimited, 3) /\
  get_bool m [0] = Ok (false, 1) /\ get_bool m [1] = Ok (true, 1) /\
  get_int32 m [0x80; 0x80; 0x80; 0x80; 0xf8; 0xff; 0xff; 0xff; 0xff; 0x01; 0xff] = Ok ((- 2 ^ 31)%Z, 10) /\
  get_int32 m [0xff; 0xff; 0xff; 0xff; 0x07] = Ok ((2 ^ 31 - 1)%Z, 5) /\
  get_int64 m [0x80; 0x80; 0x80; 0x80; 0x80; 0x80; 0x80; 0x80; 0x80; 0x01] = Ok ((- 2 ^ 63)%Z, 10) /\
  get_int64 m [0xff; 0xff; 0xff; 0xff; 0xff; 0xff; 0xff; 0xff; 0x7f] = Ok ((2 ^ 63 - 1)%Z, 9) /\
  get_uint32 m [0] = Ok (0, 1) /\ get_uint32 m [0xff; 0xff; 0xff; 0xff; 0x0f] = Ok (2 ^ 32 - 1, 5) /\
  get_uint64 m [0] = Ok (0, 1) /\
  get_uint64 m [0xff; 0xff; 0xff; 0xff; 0xff; 0xff; 0xff; 0xff; 0xff; 0x01] = Ok (2 ^ 64 - 1, 10) /\
  get_sint32 m [0xff; 0xff; 0xff; 0xff; 0x0f] = Ok ((- 2 ^ 31)%Z, 5) /\
  get_sint32 m [0xfe; 0xff; 0xff; 0xff; 0x0f] = Ok ((2 ^ 31 - 1)%Z, 5) /\
  get_sint64 m [0xff; 0xff; 0xff; 0xff; 0xff; 0xff; 0xff; 0xff; 0xff; 0x01] = Ok ((- 2 ^ 63)%Z, 10) /\
  get_sint64 m [0xfe; 0xff; 0xff; 0xff; 0xff; 0xff; 0xff; 0xff; 0xff; 0x01] = Ok ((2 ^ 63 - 1)%Z, 10) /\
  get_fixed32 m [0] = Err PInputUnderflow /\ get_fixed32 m [0; 0; 0; 0] = Ok (0, 4) /\
  get_fixed32 m [0xff; 0xff; 0xff; 0xff] = Ok (2 ^ 32 - 1, 4) /\
  get_fixed64 m [0] = Err PInputUnderflow /\ get_fixed64 m [0; 0; 0; 0; 0; 0; 0; 0; 0xff] = Ok (0, 8) /\
  get_fixed64 m [0xff; 0xff; 0xff; 0xff; 0xff; 0xff; 0xff; 0xff; 0xff] = Ok (2 ^ 64 - 1, 8) /\
  get_sfixed32 m [0] = Err PInputUnderflow /\ get_sfixed32 m [0; 0; 0; 0x80] = Ok ((- 2 ^ 31)%Z, 4) /\
  get_sfixed32 m [0xff; 0xff; 0xff; 0x7f] = Ok ((2 ^ 31 - 1)%Z, 4) /\
  get_sfixed64 m [0] = Err PInputUnderflow /\ get_sfixed64 m [0; 0; 0; 0; 0; 0; 0; 0x80] = Ok ((- 2 ^ 63)%Z, 8) /\
  get_sfixed64 m [0xff; 0xff; 0xff; 0xff; 0xff; 0xff; 0xff; 0x7f] = Ok ((2 ^ 63 - 1)%Z, 8) /\
  get_float m [0] = Err PInputUnderflow /\ get_float m [0xff; 0xff; 0x7f; 0xff] = Ok (0xff7fffff, 4) /\
  get_float m [0xff; 0xff; 0x7f; 0x7f] = Ok (0x7f7fffff, 4) /\
  get_double m [0] = Err PInputUnderflow /\
  get_double m [0xff; 0xff; 0xff; 0xff; 0xff; 0xff; 0xef; 0xff] = Ok (0xffefffffffffffff, 8) /\
  get_double m [0xff; 0xff; 0xff; 0xff; 0xff; 0xff; 0xef; 0x7f] = Ok (0x7fefffffffffffff, 8).
Proof. intros []; vm_compute; repeat split. Qed.
