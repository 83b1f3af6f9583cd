(** Model of pgp/crc24.py. Definitions only. *)
From Verif Require Import Base.

(** pgp/crc24.py:1 *)
Definition CRC_24_INITIALIZATION := 11994318.   (* 0x00b704ce *)
(** pgp/crc24.py:2-39 (transcribed mechanically, hexadecimal to decimal) *)
Definition CRC_24_TABLE : list Z := [
  0; 8801531; 9098509; 825846; 9692897; 1419802; 1651692; 10452759; 10584377; 2608578; 2839604;
  11344079; 3303384; 11807523; 12104405; 4128302; 12930697; 4391538; 5217156; 13227903; 5679208;
  13690003; 14450021; 5910942; 6606768; 14844747; 15604413; 6837830; 16197969; 7431594; 8256604;
  16494759; 840169; 9084178; 8783076; 18463; 10434312; 1670131; 1434117; 9678590; 11358416; 2825259;
  2590173; 10602790; 4109873; 12122826; 11821884; 3289031; 13213536; 5231515; 4409965; 12912278;
  5929345; 14431610; 13675660; 5693559; 6823513; 15618722; 14863188; 6588335; 16513208; 8238147;
  7417269; 16212302; 1680338; 10481449; 9664223; 1391140; 9061683; 788936; 36926; 8838341; 12067563;
  4091408; 3340262; 11844381; 2868234; 11372785; 10555655; 2579964; 14478683; 5939616; 5650518;
  13661357; 5180346; 13190977; 12967607; 4428364; 8219746; 16457881; 16234863; 7468436; 15633027;
  6866552; 6578062; 14816117; 1405499; 9649856; 10463030; 1698765; 8819930; 55329; 803287; 9047340;
  11858690; 3325945; 4072975; 12086004; 2561507; 10574104; 11387118; 2853909; 13647026; 5664841;
  5958079; 14460228; 4446803; 12949160; 13176670; 5194661; 7454091; 16249200; 16476294; 8201341;
  14834538; 6559633; 6852199; 15647388; 3360676; 11864927; 12161705; 4185682; 10527045; 2551230;
  2782280; 11286707; 9619101; 1346150; 1577872; 10379115; 73852; 8875143; 9172337; 899466; 16124205;
  7357910; 8182816; 16421083; 6680524; 14918455; 15678145; 6911546; 5736468; 13747439; 14507289;
  5968354; 12873461; 4334094; 5159928; 13170435; 4167245; 12180150; 11879232; 3346363; 11301036;
  2767959; 2532769; 10545498; 10360692; 1596303; 1360505; 9604738; 913813; 9157998; 8856728; 92259;
  16439492; 8164415; 7343561; 16138546; 6897189; 15692510; 14936872; 6662099; 5986813; 14488838;
  13733104; 5750795; 13156124; 5174247; 4352529; 12855018; 2810998; 11315341; 10498427; 2522496;
  12124823; 4148844; 3397530; 11901793; 9135439; 862644; 110658; 8912057; 1606574; 10407765;
  9590435; 1317464; 15706879; 6940164; 6651890; 14889737; 8145950; 16384229; 16161043; 7394792;
  5123014; 13133629; 12910283; 4370992; 14535975; 5997020; 5707818; 13718737; 2504095; 10516836;
  11329682; 2796649; 11916158; 3383173; 4130419; 12143240; 8893606; 129117; 876971; 9121104;
  1331783; 9576124; 10389322; 1625009; 14908182; 6633453; 6925851; 15721184; 7380471; 16175372;
  16402682; 8127489; 4389423; 12891860; 13119266; 5137369; 13704398; 5722165; 6015427; 14517560].

(** pgp/crc24.py:44-47, one iteration. The index is masked to 0..255 and the table has 256 entries
    (lemma crc_table_length), so the lookup cannot raise. *)
Definition crc24_step (result b : Z) : Z :=
  let index := Z.land (Z.lxor (Z.shiftr result 16) b) 255 in
  Z.land (Z.lxor (nth (Z.to_nat index) CRC_24_TABLE 0) (Z.shiftl result 8)) 16777215.
(** pgp/crc24.py:42-48 crc24 *)
Definition crc24 (data : bytes) : Z := fold_left crc24_step data CRC_24_INITIALIZATION.
