(** Cyclic redundancy checks: src/primitives/crc16_.c, crc24_.c, crc32_.c, crc_16_24_32.c, calc_crc.c. *)
From Coq Require Import ZArith List Bool.
Import ListNotations.
Open Scope Z_scope.

(** [crc_table], src/primitives/crc16_.c lines 23-56 *)
Definition table16 : list Z :=
  [ 0x0000; 0xc0c1; 0xc181; 0x0140; 0xc301; 0x03c0; 0x0280; 0xc241;
  0xc601; 0x06c0; 0x0780; 0xc741; 0x0500; 0xc5c1; 0xc481; 0x0440;
  0xcc01; 0x0cc0; 0x0d80; 0xcd41; 0x0f00; 0xcfc1; 0xce81; 0x0e40;
  0x0a00; 0xcac1; 0xcb81; 0x0b40; 0xc901; 0x09c0; 0x0880; 0xc841;
  0xd801; 0x18c0; 0x1980; 0xd941; 0x1b00; 0xdbc1; 0xda81; 0x1a40;
  0x1e00; 0xdec1; 0xdf81; 0x1f40; 0xdd01; 0x1dc0; 0x1c80; 0xdc41;
  0x1400; 0xd4c1; 0xd581; 0x1540; 0xd701; 0x17c0; 0x1680; 0xd641;
  0xd201; 0x12c0; 0x1380; 0xd341; 0x1100; 0xd1c1; 0xd081; 0x1040;
  0xf001; 0x30c0; 0x3180; 0xf141; 0x3300; 0xf3c1; 0xf281; 0x3240;
  0x3600; 0xf6c1; 0xf781; 0x3740; 0xf501; 0x35c0; 0x3480; 0xf441;
  0x3c00; 0xfcc1; 0xfd81; 0x3d40; 0xff01; 0x3fc0; 0x3e80; 0xfe41;
  0xfa01; 0x3ac0; 0x3b80; 0xfb41; 0x3900; 0xf9c1; 0xf881; 0x3840;
  0x2800; 0xe8c1; 0xe981; 0x2940; 0xeb01; 0x2bc0; 0x2a80; 0xea41;
  0xee01; 0x2ec0; 0x2f80; 0xef41; 0x2d00; 0xedc1; 0xec81; 0x2c40;
  0xe401; 0x24c0; 0x2580; 0xe541; 0x2700; 0xe7c1; 0xe681; 0x2640;
  0x2200; 0xe2c1; 0xe381; 0x2340; 0xe101; 0x21c0; 0x2080; 0xe041;
  0xa001; 0x60c0; 0x6180; 0xa141; 0x6300; 0xa3c1; 0xa281; 0x6240;
  0x6600; 0xa6c1; 0xa781; 0x6740; 0xa501; 0x65c0; 0x6480; 0xa441;
  0x6c00; 0xacc1; 0xad81; 0x6d40; 0xaf01; 0x6fc0; 0x6e80; 0xae41;
  0xaa01; 0x6ac0; 0x6b80; 0xab41; 0x6900; 0xa9c1; 0xa881; 0x6840;
  0x7800; 0xb8c1; 0xb981; 0x7940; 0xbb01; 0x7bc0; 0x7a80; 0xba41;
  0xbe01; 0x7ec0; 0x7f80; 0xbf41; 0x7d00; 0xbdc1; 0xbc81; 0x7c40;
  0xb401; 0x74c0; 0x7580; 0xb541; 0x7700; 0xb7c1; 0xb681; 0x7640;
  0x7200; 0xb2c1; 0xb381; 0x7340; 0xb101; 0x71c0; 0x7080; 0xb041;
  0x5000; 0x90c1; 0x9181; 0x5140; 0x9301; 0x53c0; 0x5280; 0x9241;
  0x9601; 0x56c0; 0x5780; 0x9741; 0x5500; 0x95c1; 0x9481; 0x5440;
  0x9c01; 0x5cc0; 0x5d80; 0x9d41; 0x5f00; 0x9fc1; 0x9e81; 0x5e40;
  0x5a00; 0x9ac1; 0x9b81; 0x5b40; 0x9901; 0x59c0; 0x5880; 0x9841;
  0x8801; 0x48c0; 0x4980; 0x8941; 0x4b00; 0x8bc1; 0x8a81; 0x4a40;
  0x4e00; 0x8ec1; 0x8f81; 0x4f40; 0x8d01; 0x4dc0; 0x4c80; 0x8c41;
  0x4400; 0x84c1; 0x8581; 0x4540; 0x8701; 0x47c0; 0x4680; 0x8641;
  0x8201; 0x42c0; 0x4380; 0x8341; 0x4100; 0x81c1; 0x8081; 0x4040 ].
(** [crc_table], src/primitives/crc24_.c lines 23-56 *)
Definition table24 : list Z :=
  [ 0x000000; 0x864cfb; 0x8ad50d; 0x0c99f6; 0x93e6e1; 0x15aa1a; 0x1933ec; 0x9f7f17;
  0xa18139; 0x27cdc2; 0x2b5434; 0xad18cf; 0x3267d8; 0xb42b23; 0xb8b2d5; 0x3efe2e;
  0xc54e89; 0x430272; 0x4f9b84; 0xc9d77f; 0x56a868; 0xd0e493; 0xdc7d65; 0x5a319e;
  0x64cfb0; 0xe2834b; 0xee1abd; 0x685646; 0xf72951; 0x7165aa; 0x7dfc5c; 0xfbb0a7;
  0x0cd1e9; 0x8a9d12; 0x8604e4; 0x00481f; 0x9f3708; 0x197bf3; 0x15e205; 0x93aefe;
  0xad50d0; 0x2b1c2b; 0x2785dd; 0xa1c926; 0x3eb631; 0xb8faca; 0xb4633c; 0x322fc7;
  0xc99f60; 0x4fd39b; 0x434a6d; 0xc50696; 0x5a7981; 0xdc357a; 0xd0ac8c; 0x56e077;
  0x681e59; 0xee52a2; 0xe2cb54; 0x6487af; 0xfbf8b8; 0x7db443; 0x712db5; 0xf7614e;
  0x19a3d2; 0x9fef29; 0x9376df; 0x153a24; 0x8a4533; 0x0c09c8; 0x00903e; 0x86dcc5;
  0xb822eb; 0x3e6e10; 0x32f7e6; 0xb4bb1d; 0x2bc40a; 0xad88f1; 0xa11107; 0x275dfc;
  0xdced5b; 0x5aa1a0; 0x563856; 0xd074ad; 0x4f0bba; 0xc94741; 0xc5deb7; 0x43924c;
  0x7d6c62; 0xfb2099; 0xf7b96f; 0x71f594; 0xee8a83; 0x68c678; 0x645f8e; 0xe21375;
  0x15723b; 0x933ec0; 0x9fa736; 0x19ebcd; 0x8694da; 0x00d821; 0x0c41d7; 0x8a0d2c;
  0xb4f302; 0x32bff9; 0x3e260f; 0xb86af4; 0x2715e3; 0xa15918; 0xadc0ee; 0x2b8c15;
  0xd03cb2; 0x567049; 0x5ae9bf; 0xdca544; 0x43da53; 0xc596a8; 0xc90f5e; 0x4f43a5;
  0x71bd8b; 0xf7f170; 0xfb6886; 0x7d247d; 0xe25b6a; 0x641791; 0x688e67; 0xeec29c;
  0x3347a4; 0xb50b5f; 0xb992a9; 0x3fde52; 0xa0a145; 0x26edbe; 0x2a7448; 0xac38b3;
  0x92c69d; 0x148a66; 0x181390; 0x9e5f6b; 0x01207c; 0x876c87; 0x8bf571; 0x0db98a;
  0xf6092d; 0x7045d6; 0x7cdc20; 0xfa90db; 0x65efcc; 0xe3a337; 0xef3ac1; 0x69763a;
  0x578814; 0xd1c4ef; 0xdd5d19; 0x5b11e2; 0xc46ef5; 0x42220e; 0x4ebbf8; 0xc8f703;
  0x3f964d; 0xb9dab6; 0xb54340; 0x330fbb; 0xac70ac; 0x2a3c57; 0x26a5a1; 0xa0e95a;
  0x9e1774; 0x185b8f; 0x14c279; 0x928e82; 0x0df195; 0x8bbd6e; 0x872498; 0x016863;
  0xfad8c4; 0x7c943f; 0x700dc9; 0xf64132; 0x693e25; 0xef72de; 0xe3eb28; 0x65a7d3;
  0x5b59fd; 0xdd1506; 0xd18cf0; 0x57c00b; 0xc8bf1c; 0x4ef3e7; 0x426a11; 0xc426ea;
  0x2ae476; 0xaca88d; 0xa0317b; 0x267d80; 0xb90297; 0x3f4e6c; 0x33d79a; 0xb59b61;
  0x8b654f; 0x0d29b4; 0x01b042; 0x87fcb9; 0x1883ae; 0x9ecf55; 0x9256a3; 0x141a58;
  0xefaaff; 0x69e604; 0x657ff2; 0xe33309; 0x7c4c1e; 0xfa00e5; 0xf69913; 0x70d5e8;
  0x4e2bc6; 0xc8673d; 0xc4fecb; 0x42b230; 0xddcd27; 0x5b81dc; 0x57182a; 0xd154d1;
  0x26359f; 0xa07964; 0xace092; 0x2aac69; 0xb5d37e; 0x339f85; 0x3f0673; 0xb94a88;
  0x87b4a6; 0x01f85d; 0x0d61ab; 0x8b2d50; 0x145247; 0x921ebc; 0x9e874a; 0x18cbb1;
  0xe37b16; 0x6537ed; 0x69ae1b; 0xefe2e0; 0x709df7; 0xf6d10c; 0xfa48fa; 0x7c0401;
  0x42fa2f; 0xc4b6d4; 0xc82f22; 0x4e63d9; 0xd11cce; 0x575035; 0x5bc9c3; 0xdd8538 ].
(** [crc_table], src/primitives/crc32_.c lines 23-88 *)
Definition table32 : list Z :=
  [ 0x00000000; 0x77073096; 0xee0e612c; 0x990951ba; 0x076dc419; 0x706af48f; 0xe963a535; 0x9e6495a3;
  0x0edb8832; 0x79dcb8a4; 0xe0d5e91e; 0x97d2d988; 0x09b64c2b; 0x7eb17cbd; 0xe7b82d07; 0x90bf1d91;
  0x1db71064; 0x6ab020f2; 0xf3b97148; 0x84be41de; 0x1adad47d; 0x6ddde4eb; 0xf4d4b551; 0x83d385c7;
  0x136c9856; 0x646ba8c0; 0xfd62f97a; 0x8a65c9ec; 0x14015c4f; 0x63066cd9; 0xfa0f3d63; 0x8d080df5;
  0x3b6e20c8; 0x4c69105e; 0xd56041e4; 0xa2677172; 0x3c03e4d1; 0x4b04d447; 0xd20d85fd; 0xa50ab56b;
  0x35b5a8fa; 0x42b2986c; 0xdbbbc9d6; 0xacbcf940; 0x32d86ce3; 0x45df5c75; 0xdcd60dcf; 0xabd13d59;
  0x26d930ac; 0x51de003a; 0xc8d75180; 0xbfd06116; 0x21b4f4b5; 0x56b3c423; 0xcfba9599; 0xb8bda50f;
  0x2802b89e; 0x5f058808; 0xc60cd9b2; 0xb10be924; 0x2f6f7c87; 0x58684c11; 0xc1611dab; 0xb6662d3d;
  0x76dc4190; 0x01db7106; 0x98d220bc; 0xefd5102a; 0x71b18589; 0x06b6b51f; 0x9fbfe4a5; 0xe8b8d433;
  0x7807c9a2; 0x0f00f934; 0x9609a88e; 0xe10e9818; 0x7f6a0dbb; 0x086d3d2d; 0x91646c97; 0xe6635c01;
  0x6b6b51f4; 0x1c6c6162; 0x856530d8; 0xf262004e; 0x6c0695ed; 0x1b01a57b; 0x8208f4c1; 0xf50fc457;
  0x65b0d9c6; 0x12b7e950; 0x8bbeb8ea; 0xfcb9887c; 0x62dd1ddf; 0x15da2d49; 0x8cd37cf3; 0xfbd44c65;
  0x4db26158; 0x3ab551ce; 0xa3bc0074; 0xd4bb30e2; 0x4adfa541; 0x3dd895d7; 0xa4d1c46d; 0xd3d6f4fb;
  0x4369e96a; 0x346ed9fc; 0xad678846; 0xda60b8d0; 0x44042d73; 0x33031de5; 0xaa0a4c5f; 0xdd0d7cc9;
  0x5005713c; 0x270241aa; 0xbe0b1010; 0xc90c2086; 0x5768b525; 0x206f85b3; 0xb966d409; 0xce61e49f;
  0x5edef90e; 0x29d9c998; 0xb0d09822; 0xc7d7a8b4; 0x59b33d17; 0x2eb40d81; 0xb7bd5c3b; 0xc0ba6cad;
  0xedb88320; 0x9abfb3b6; 0x03b6e20c; 0x74b1d29a; 0xead54739; 0x9dd277af; 0x04db2615; 0x73dc1683;
  0xe3630b12; 0x94643b84; 0x0d6d6a3e; 0x7a6a5aa8; 0xe40ecf0b; 0x9309ff9d; 0x0a00ae27; 0x7d079eb1;
  0xf00f9344; 0x8708a3d2; 0x1e01f268; 0x6906c2fe; 0xf762575d; 0x806567cb; 0x196c3671; 0x6e6b06e7;
  0xfed41b76; 0x89d32be0; 0x10da7a5a; 0x67dd4acc; 0xf9b9df6f; 0x8ebeeff9; 0x17b7be43; 0x60b08ed5;
  0xd6d6a3e8; 0xa1d1937e; 0x38d8c2c4; 0x4fdff252; 0xd1bb67f1; 0xa6bc5767; 0x3fb506dd; 0x48b2364b;
  0xd80d2bda; 0xaf0a1b4c; 0x36034af6; 0x41047a60; 0xdf60efc3; 0xa867df55; 0x316e8eef; 0x4669be79;
  0xcb61b38c; 0xbc66831a; 0x256fd2a0; 0x5268e236; 0xcc0c7795; 0xbb0b4703; 0x220216b9; 0x5505262f;
  0xc5ba3bbe; 0xb2bd0b28; 0x2bb45a92; 0x5cb36a04; 0xc2d7ffa7; 0xb5d0cf31; 0x2cd99e8b; 0x5bdeae1d;
  0x9b64c2b0; 0xec63f226; 0x756aa39c; 0x026d930a; 0x9c0906a9; 0xeb0e363f; 0x72076785; 0x05005713;
  0x95bf4a82; 0xe2b87a14; 0x7bb12bae; 0x0cb61b38; 0x92d28e9b; 0xe5d5be0d; 0x7cdcefb7; 0x0bdbdf21;
  0x86d3d2d4; 0xf1d4e242; 0x68ddb3f8; 0x1fda836e; 0x81be16cd; 0xf6b9265b; 0x6fb077e1; 0x18b74777;
  0x88085ae6; 0xff0f6a70; 0x66063bca; 0x11010b5c; 0x8f659eff; 0xf862ae69; 0x616bffd3; 0x166ccf45;
  0xa00ae278; 0xd70dd2ee; 0x4e048354; 0x3903b3c2; 0xa7672661; 0xd06016f7; 0x4969474d; 0x3e6e77db;
  0xaed16a4a; 0xd9d65adc; 0x40df0b66; 0x37d83bf0; 0xa9bcae53; 0xdebb9ec5; 0x47b2cf7f; 0x30b5ffe9;
  0xbdbdf21c; 0xcabac28a; 0x53b39330; 0x24b4a3a6; 0xbad03605; 0xcdd70693; 0x54de5729; 0x23d967bf;
  0xb3667a2e; 0xc4614ab8; 0x5d681b02; 0x2a6f2b94; 0xb40bbe37; 0xc30c8ea1; 0x5a05df1b; 0x2d02ef8d ].
(** [magic], src/primitives/calc_crc.c lines 22-55 *)
Definition magic : list Z :=
  [ 0x0000; 0x1021; 0x2042; 0x3063; 0x4084; 0x50a5; 0x60c6; 0x70e7;
  0x8108; 0x9129; 0xa14a; 0xb16b; 0xc18c; 0xd1ad; 0xe1ce; 0xf1ef;
  0x1231; 0x0210; 0x3273; 0x2252; 0x52b5; 0x4294; 0x72f7; 0x62d6;
  0x9339; 0x8318; 0xb37b; 0xa35a; 0xd3bd; 0xc39c; 0xf3ff; 0xe3de;
  0x2462; 0x3443; 0x0420; 0x1401; 0x64e6; 0x74c7; 0x44a4; 0x5485;
  0xa56a; 0xb54b; 0x8528; 0x9509; 0xe5ee; 0xf5cf; 0xc5ac; 0xd58d;
  0x3653; 0x2672; 0x1611; 0x0630; 0x76d7; 0x66f6; 0x5695; 0x46b4;
  0xb75b; 0xa77a; 0x9719; 0x8738; 0xf7df; 0xe7fe; 0xd79d; 0xc7bc;
  0x48c4; 0x58e5; 0x6886; 0x78a7; 0x0840; 0x1861; 0x2802; 0x3823;
  0xc9cc; 0xd9ed; 0xe98e; 0xf9af; 0x8948; 0x9969; 0xa90a; 0xb92b;
  0x5af5; 0x4ad4; 0x7ab7; 0x6a96; 0x1a71; 0x0a50; 0x3a33; 0x2a12;
  0xdbfd; 0xcbdc; 0xfbbf; 0xeb9e; 0x9b79; 0x8b58; 0xbb3b; 0xab1a;
  0x6ca6; 0x7c87; 0x4ce4; 0x5cc5; 0x2c22; 0x3c03; 0x0c60; 0x1c41;
  0xedae; 0xfd8f; 0xcdec; 0xddcd; 0xad2a; 0xbd0b; 0x8d68; 0x9d49;
  0x7e97; 0x6eb6; 0x5ed5; 0x4ef4; 0x3e13; 0x2e32; 0x1e51; 0x0e70;
  0xff9f; 0xefbe; 0xdfdd; 0xcffc; 0xbf1b; 0xaf3a; 0x9f59; 0x8f78;
  0x9188; 0x81a9; 0xb1ca; 0xa1eb; 0xd10c; 0xc12d; 0xf14e; 0xe16f;
  0x1080; 0x00a1; 0x30c2; 0x20e3; 0x5004; 0x4025; 0x7046; 0x6067;
  0x83b9; 0x9398; 0xa3fb; 0xb3da; 0xc33d; 0xd31c; 0xe37f; 0xf35e;
  0x02b1; 0x1290; 0x22f3; 0x32d2; 0x4235; 0x5214; 0x6277; 0x7256;
  0xb5ea; 0xa5cb; 0x95a8; 0x8589; 0xf56e; 0xe54f; 0xd52c; 0xc50d;
  0x34e2; 0x24c3; 0x14a0; 0x0481; 0x7466; 0x6447; 0x5424; 0x4405;
  0xa7db; 0xb7fa; 0x8799; 0x97b8; 0xe75f; 0xf77e; 0xc71d; 0xd73c;
  0x26d3; 0x36f2; 0x0691; 0x16b0; 0x6657; 0x7676; 0x4615; 0x5634;
  0xd94c; 0xc96d; 0xf90e; 0xe92f; 0x99c8; 0x89e9; 0xb98a; 0xa9ab;
  0x5844; 0x4865; 0x7806; 0x6827; 0x18c0; 0x08e1; 0x3882; 0x28a3;
  0xcb7d; 0xdb5c; 0xeb3f; 0xfb1e; 0x8bf9; 0x9bd8; 0xabbb; 0xbb9a;
  0x4a75; 0x5a54; 0x6a37; 0x7a16; 0x0af1; 0x1ad0; 0x2ab3; 0x3a92;
  0xfd2e; 0xed0f; 0xdd6c; 0xcd4d; 0xbdaa; 0xad8b; 0x9de8; 0x8dc9;
  0x7c26; 0x6c07; 0x5c64; 0x4c45; 0x3ca2; 0x2c83; 0x1ce0; 0x0cc1;
  0xef1f; 0xff3e; 0xcf5d; 0xdf7c; 0xaf9b; 0xbfba; 0x8fd9; 0x9ff8;
  0x6e17; 0x7e36; 0x4e55; 0x5e74; 0x2e93; 0x3eb2; 0x0ed1; 0x1ef0 ].

(** One turn of the loops of [crc16_update] and [crc16_update_le], crc16_.c lines 92-93 and 108-109 *)
Definition turn16 (crc v : Z) : Z :=
  let tbl_idx := Z.land (Z.lxor crc v) 0xff in
  Z.land (Z.lxor (nth (Z.to_nat tbl_idx) table16 0) (Z.shiftr crc 8)) 0xffff.
(** The same in crc24_.c lines 73-74 and 89-90; [crc << 8] of 32 bits is masked at once, so its lost bits do not matter *)
Definition turn24 (crc v : Z) : Z :=
  let tbl_idx := Z.land (Z.lxor (Z.shiftr crc 16) v) 0xff in
  Z.land (Z.lxor (nth (Z.to_nat tbl_idx) table24 0) (Z.shiftl crc 8)) 0xffffff.
(** The same in crc32_.c lines 124-125 and 140-141 *)
Definition turn32 (crc v : Z) : Z :=
  let tbl_idx := Z.land (Z.lxor crc v) 0xff in
  Z.land (Z.lxor (nth (Z.to_nat tbl_idx) table32 0) (Z.shiftr crc 8)) 0xffffffff.

(** The loop of [crc*_update], crc16_.c lines 91-96 (crc24_.c 72-77, crc32_.c 123-128); [None]: a read past the end of the data *)
Fixpoint update_loop (turn : Z -> Z -> Z) (n : nat) (crc : Z) (data : list Z) : option Z :=
  match n with
  | O => Some crc
  | S n => match data with [] => None | v :: data => update_loop turn n (turn crc v) data end
  end.
(** The loop of [crc*_update_le], crc16_.c lines 107-112 (crc24_.c 88-93, crc32_.c 139-144) *)
Fixpoint update_le_loop (turn : Z -> Z -> Z) (n : nat) (indx crc : Z) (data : list Z) (mask : Z) : option Z :=
  match n with
  | O => Some crc
  | S n => match nth_error data (Z.to_nat (Z.lxor indx mask)) with
           | None => None
           | Some v => update_le_loop turn n (indx + 1) (turn crc v) data mask
           end
  end.
(** [crc*_update_le], crc16_.c lines 100-114, crc24_.c 81-95, crc32_.c 132-146; the last mask does nothing as each turn masks *)
Definition update_le (turn : Z -> Z -> Z) (crc : Z) (data : list Z) (data_len : nat) (mask : Z) : option Z :=
  if mask =? 0 then update_loop turn data_len crc data else update_le_loop turn data_len 0 crc data mask.

Definition bind {A B} (x : option A) (f : A -> option B) : option B := match x with Some a => f a | None => None end.

(** [update_crc_ne], crc_16_24_32.c lines 20-57, with [crc*_init] and [crc*_finalize] of the headers; [le] is [*little_endian];
    [None] also when the size overflows an int *)
Definition update_crc_ne (le : bool) (old_crc crclen : Z) (data : list Z) (datasiz datalen mode : Z) : option Z :=
  let data_len := datasiz * datalen in
  if negb ((0 <=? data_len) && (data_len <? 2 ^ 31)) then None else
  let n := Z.to_nat data_len in
  let mask := if le && (1 <? datasiz) then datasiz - 1 else 0 in
  if crclen =? 16 then
    let crc := if mode =? 0 then 0x0000 else Z.land old_crc 0xFFFF in
    bind (update_le turn16 crc data n mask) (fun crc => Some (if mode =? 2 then Z.lxor crc 0x0000 else crc))
  else if crclen =? 24 then
    let crc := if mode =? 0 then 0xb704ce else Z.land old_crc 0xFFFFFF in
    bind (update_le turn24 crc data n mask) (fun crc => Some (if mode =? 2 then Z.lxor crc 0x000000 else crc))
  else if crclen =? 32 then
    let crc := if mode =? 0 then 0xffffffff else Z.land old_crc 0xFFFFFFFF in
    bind (update_le turn32 crc data n mask) (fun crc => Some (if mode =? 2 then Z.lxor crc 0xffffffff else crc))
  else Some old_crc.

(** One turn of the loop of [calc_crc], calc_crc.c lines 80-82 *)
Definition turn_calc (hold v : Z) : Z :=
  let hold := Z.lxor hold (Z.shiftl v 8) in
  Z.land (Z.lxor (Z.shiftl hold 8) (nth (Z.to_nat (Z.land (Z.shiftr hold 8) 0xff)) magic 0)) 0xffff.
(** The loop of [calc_crc], calc_crc.c lines 79-83; [fuel] bounds the turns, [None] when it runs out (a stride of 0 or less) or on a read past the end *)
Fixpoint calc_loop (fuel : nat) (i hold : Z) (buffer : list Z) (len stride : Z) : option Z :=
  if i <? len then
    match fuel with
    | O => None
    | S fuel =>
      match nth_error buffer (Z.to_nat i) with
      | None => None
      | Some v => calc_loop fuel (i + stride) (turn_calc hold v) buffer len stride
      end
    end
  else Some hold.
(** [calc_crc], calc_crc.c lines 64-85 *)
Definition calc_crc (buffer : list Z) (len seed stride : Z) : option Z :=
  calc_loop (Z.to_nat len) 0 (Z.land seed 0xffff) buffer len stride.
