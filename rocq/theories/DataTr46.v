(** Rows of /repo/lib/IdnaMappingTable.txt (generated by tools/mkdata.py). *)
From Verif Require Import Base DataTypes.
Definition idna_rows_0 : list row := [
  Row 0x0 0x2c Std3Valid [];
  Row 0x2d 0x2e Valid [];
  Row 0x2f 0x2f Std3Valid [];
  Row 0x30 0x39 Valid [];
  Row 0x3a 0x40 Std3Valid [];
  Row 0x41 0x41 Mapped [0x61];
  Row 0x42 0x42 Mapped [0x62];
  Row 0x43 0x43 Mapped [0x63];
  Row 0x44 0x44 Mapped [0x64];
  Row 0x45 0x45 Mapped [0x65];
  Row 0x46 0x46 Mapped [0x66];
  Row 0x47 0x47 Mapped [0x67];
  Row 0x48 0x48 Mapped [0x68];
  Row 0x49 0x49 Mapped [0x69];
  Row 0x4a 0x4a Mapped [0x6a];
  Row 0x4b 0x4b Mapped [0x6b];
  Row 0x4c 0x4c Mapped [0x6c];
  Row 0x4d 0x4d Mapped [0x6d];
  Row 0x4e 0x4e Mapped [0x6e];
  Row 0x4f 0x4f Mapped [0x6f];
  Row 0x50 0x50 Mapped [0x70];
  Row 0x51 0x51 Mapped [0x71];
  Row 0x52 0x52 Mapped [0x72];
  Row 0x53 0x53 Mapped [0x73];
  Row 0x54 0x54 Mapped [0x74];
  Row 0x55 0x55 Mapped [0x75];
  Row 0x56 0x56 Mapped [0x76];
  Row 0x57 0x57 Mapped [0x77];
  Row 0x58 0x58 Mapped [0x78];
  Row 0x59 0x59 Mapped [0x79];
  Row 0x5a 0x5a Mapped [0x7a];
  Row 0x5b 0x60 Std3Valid [];
  Row 0x61 0x7a Valid [];
  Row 0x7b 0x7f Std3Valid [];
  Row 0x80 0x9f Disallowed [];
  Row 0xa0 0xa0 Std3Mapped [0x20];
  Row 0xa1 0xa7 Valid [];
  Row 0xa8 0xa8 Std3Mapped [0x20; 0x308];
  Row 0xa9 0xa9 Valid [];
  Row 0xaa 0xaa Mapped [0x61];
  Row 0xab 0xac Valid [];
  Row 0xad 0xad Ignored [];
  Row 0xae 0xae Valid [];
  Row 0xaf 0xaf Std3Mapped [0x20; 0x304];
  Row 0xb0 0xb1 Valid [];
  Row 0xb2 0xb2 Mapped [0x32];
  Row 0xb3 0xb3 Mapped [0x33];
  Row 0xb4 0xb4 Std3Mapped [0x20; 0x301];
  Row 0xb5 0xb5 Mapped [0x3bc];
  Row 0xb6 0xb6 Valid [];
  Row 0xb7 0xb7 Valid [];
  Row 0xb8 0xb8 Std3Mapped [0x20; 0x327];
  Row 0xb9 0xb9 Mapped [0x31];
  Row 0xba 0xba Mapped [0x6f];
  Row 0xbb 0xbb Valid [];
  Row 0xbc 0xbc Mapped [0x31; 0x2044; 0x34];
  Row 0xbd 0xbd Mapped [0x31; 0x2044; 0x32];
  Row 0xbe 0xbe Mapped [0x33; 0x2044; 0x34];
  Row 0xbf 0xbf Valid [];
  Row 0xc0 0xc0 Mapped [0xe0];
  Row 0xc1 0xc1 Mapped [0xe1];
  Row 0xc2 0xc2 Mapped [0xe2];
  Row 0xc3 0xc3 Mapped [0xe3];
  Row 0xc4 0xc4 Mapped [0xe4];
  Row 0xc5 0xc5 Mapped [0xe5];
  Row 0xc6 0xc6 Mapped [0xe6];
  Row 0xc7 0xc7 Mapped [0xe7];
  Row 0xc8 0xc8 Mapped [0xe8];
  Row 0xc9 0xc9 Mapped [0xe9];
  Row 0xca 0xca Mapped [0xea];
  Row 0xcb 0xcb Mapped [0xeb];
  Row 0xcc 0xcc Mapped [0xec];
  Row 0xcd 0xcd Mapped [0xed];
  Row 0xce 0xce Mapped [0xee];
  Row 0xcf 0xcf Mapped [0xef];
  Row 0xd0 0xd0 Mapped [0xf0];
  Row 0xd1 0xd1 Mapped [0xf1];
  Row 0xd2 0xd2 Mapped [0xf2];
  Row 0xd3 0xd3 Mapped [0xf3];
  Row 0xd4 0xd4 Mapped [0xf4];
  Row 0xd5 0xd5 Mapped [0xf5];
  Row 0xd6 0xd6 Mapped [0xf6];
  Row 0xd7 0xd7 Valid [];
  Row 0xd8 0xd8 Mapped [0xf8];
  Row 0xd9 0xd9 Mapped [0xf9];
  Row 0xda 0xda Mapped [0xfa];
  Row 0xdb 0xdb Mapped [0xfb];
  Row 0xdc 0xdc Mapped [0xfc];
  Row 0xdd 0xdd Mapped [0xfd];
  Row 0xde 0xde Mapped [0xfe];
  Row 0xdf 0xdf Deviation [0x73; 0x73];
  Row 0xe0 0xf6 Valid [];
  Row 0xf7 0xf7 Valid [];
  Row 0xf8 0xff Valid [];
  Row 0x100 0x100 Mapped [0x101];
  Row 0x101 0x101 Valid [];
  Row 0x102 0x102 Mapped [0x103];
  Row 0x103 0x103 Valid [];
  Row 0x104 0x104 Mapped [0x105];
  Row 0x105 0x105 Valid []].
Definition idna_rows_1 : list row := [
  Row 0x106 0x106 Mapped [0x107];
  Row 0x107 0x107 Valid [];
  Row 0x108 0x108 Mapped [0x109];
  Row 0x109 0x109 Valid [];
  Row 0x10a 0x10a Mapped [0x10b];
  Row 0x10b 0x10b Valid [];
  Row 0x10c 0x10c Mapped [0x10d];
  Row 0x10d 0x10d Valid [];
  Row 0x10e 0x10e Mapped [0x10f];
  Row 0x10f 0x10f Valid [];
  Row 0x110 0x110 Mapped [0x111];
  Row 0x111 0x111 Valid [];
  Row 0x112 0x112 Mapped [0x113];
  Row 0x113 0x113 Valid [];
  Row 0x114 0x114 Mapped [0x115];
  Row 0x115 0x115 Valid [];
  Row 0x116 0x116 Mapped [0x117];
  Row 0x117 0x117 Valid [];
  Row 0x118 0x118 Mapped [0x119];
  Row 0x119 0x119 Valid [];
  Row 0x11a 0x11a Mapped [0x11b];
  Row 0x11b 0x11b Valid [];
  Row 0x11c 0x11c Mapped [0x11d];
  Row 0x11d 0x11d Valid [];
  Row 0x11e 0x11e Mapped [0x11f];
  Row 0x11f 0x11f Valid [];
  Row 0x120 0x120 Mapped [0x121];
  Row 0x121 0x121 Valid [];
  Row 0x122 0x122 Mapped [0x123];
  Row 0x123 0x123 Valid [];
  Row 0x124 0x124 Mapped [0x125];
  Row 0x125 0x125 Valid [];
  Row 0x126 0x126 Mapped [0x127];
  Row 0x127 0x127 Valid [];
  Row 0x128 0x128 Mapped [0x129];
  Row 0x129 0x129 Valid [];
  Row 0x12a 0x12a Mapped [0x12b];
  Row 0x12b 0x12b Valid [];
  Row 0x12c 0x12c Mapped [0x12d];
  Row 0x12d 0x12d Valid [];
  Row 0x12e 0x12e Mapped [0x12f];
  Row 0x12f 0x12f Valid [];
  Row 0x130 0x130 Mapped [0x69; 0x307];
  Row 0x131 0x131 Valid [];
  Row 0x132 0x133 Mapped [0x69; 0x6a];
  Row 0x134 0x134 Mapped [0x135];
  Row 0x135 0x135 Valid [];
  Row 0x136 0x136 Mapped [0x137];
  Row 0x137 0x138 Valid [];
  Row 0x139 0x139 Mapped [0x13a];
  Row 0x13a 0x13a Valid [];
  Row 0x13b 0x13b Mapped [0x13c];
  Row 0x13c 0x13c Valid [];
  Row 0x13d 0x13d Mapped [0x13e];
  Row 0x13e 0x13e Valid [];
  Row 0x13f 0x140 Mapped [0x6c; 0xb7];
  Row 0x141 0x141 Mapped [0x142];
  Row 0x142 0x142 Valid [];
  Row 0x143 0x143 Mapped [0x144];
  Row 0x144 0x144 Valid [];
  Row 0x145 0x145 Mapped [0x146];
  Row 0x146 0x146 Valid [];
  Row 0x147 0x147 Mapped [0x148];
  Row 0x148 0x148 Valid [];
  Row 0x149 0x149 Mapped [0x2bc; 0x6e];
  Row 0x14a 0x14a Mapped [0x14b];
  Row 0x14b 0x14b Valid [];
  Row 0x14c 0x14c Mapped [0x14d];
  Row 0x14d 0x14d Valid [];
  Row 0x14e 0x14e Mapped [0x14f];
  Row 0x14f 0x14f Valid [];
  Row 0x150 0x150 Mapped [0x151];
  Row 0x151 0x151 Valid [];
  Row 0x152 0x152 Mapped [0x153];
  Row 0x153 0x153 Valid [];
  Row 0x154 0x154 Mapped [0x155];
  Row 0x155 0x155 Valid [];
  Row 0x156 0x156 Mapped [0x157];
  Row 0x157 0x157 Valid [];
  Row 0x158 0x158 Mapped [0x159];
  Row 0x159 0x159 Valid [];
  Row 0x15a 0x15a Mapped [0x15b];
  Row 0x15b 0x15b Valid [];
  Row 0x15c 0x15c Mapped [0x15d];
  Row 0x15d 0x15d Valid [];
  Row 0x15e 0x15e Mapped [0x15f];
  Row 0x15f 0x15f Valid [];
  Row 0x160 0x160 Mapped [0x161];
  Row 0x161 0x161 Valid [];
  Row 0x162 0x162 Mapped [0x163];
  Row 0x163 0x163 Valid [];
  Row 0x164 0x164 Mapped [0x165];
  Row 0x165 0x165 Valid [];
  Row 0x166 0x166 Mapped [0x167];
  Row 0x167 0x167 Valid [];
  Row 0x168 0x168 Mapped [0x169];
  Row 0x169 0x169 Valid [];
  Row 0x16a 0x16a Mapped [0x16b];
  Row 0x16b 0x16b Valid [];
  Row 0x16c 0x16c Mapped [0x16d]].
Definition idna_rows_2 : list row := [
  Row 0x16d 0x16d Valid [];
  Row 0x16e 0x16e Mapped [0x16f];
  Row 0x16f 0x16f Valid [];
  Row 0x170 0x170 Mapped [0x171];
  Row 0x171 0x171 Valid [];
  Row 0x172 0x172 Mapped [0x173];
  Row 0x173 0x173 Valid [];
  Row 0x174 0x174 Mapped [0x175];
  Row 0x175 0x175 Valid [];
  Row 0x176 0x176 Mapped [0x177];
  Row 0x177 0x177 Valid [];
  Row 0x178 0x178 Mapped [0xff];
  Row 0x179 0x179 Mapped [0x17a];
  Row 0x17a 0x17a Valid [];
  Row 0x17b 0x17b Mapped [0x17c];
  Row 0x17c 0x17c Valid [];
  Row 0x17d 0x17d Mapped [0x17e];
  Row 0x17e 0x17e Valid [];
  Row 0x17f 0x17f Mapped [0x73];
  Row 0x180 0x180 Valid [];
  Row 0x181 0x181 Mapped [0x253];
  Row 0x182 0x182 Mapped [0x183];
  Row 0x183 0x183 Valid [];
  Row 0x184 0x184 Mapped [0x185];
  Row 0x185 0x185 Valid [];
  Row 0x186 0x186 Mapped [0x254];
  Row 0x187 0x187 Mapped [0x188];
  Row 0x188 0x188 Valid [];
  Row 0x189 0x189 Mapped [0x256];
  Row 0x18a 0x18a Mapped [0x257];
  Row 0x18b 0x18b Mapped [0x18c];
  Row 0x18c 0x18d Valid [];
  Row 0x18e 0x18e Mapped [0x1dd];
  Row 0x18f 0x18f Mapped [0x259];
  Row 0x190 0x190 Mapped [0x25b];
  Row 0x191 0x191 Mapped [0x192];
  Row 0x192 0x192 Valid [];
  Row 0x193 0x193 Mapped [0x260];
  Row 0x194 0x194 Mapped [0x263];
  Row 0x195 0x195 Valid [];
  Row 0x196 0x196 Mapped [0x269];
  Row 0x197 0x197 Mapped [0x268];
  Row 0x198 0x198 Mapped [0x199];
  Row 0x199 0x19b Valid [];
  Row 0x19c 0x19c Mapped [0x26f];
  Row 0x19d 0x19d Mapped [0x272];
  Row 0x19e 0x19e Valid [];
  Row 0x19f 0x19f Mapped [0x275];
  Row 0x1a0 0x1a0 Mapped [0x1a1];
  Row 0x1a1 0x1a1 Valid [];
  Row 0x1a2 0x1a2 Mapped [0x1a3];
  Row 0x1a3 0x1a3 Valid [];
  Row 0x1a4 0x1a4 Mapped [0x1a5];
  Row 0x1a5 0x1a5 Valid [];
  Row 0x1a6 0x1a6 Mapped [0x280];
  Row 0x1a7 0x1a7 Mapped [0x1a8];
  Row 0x1a8 0x1a8 Valid [];
  Row 0x1a9 0x1a9 Mapped [0x283];
  Row 0x1aa 0x1ab Valid [];
  Row 0x1ac 0x1ac Mapped [0x1ad];
  Row 0x1ad 0x1ad Valid [];
  Row 0x1ae 0x1ae Mapped [0x288];
  Row 0x1af 0x1af Mapped [0x1b0];
  Row 0x1b0 0x1b0 Valid [];
  Row 0x1b1 0x1b1 Mapped [0x28a];
  Row 0x1b2 0x1b2 Mapped [0x28b];
  Row 0x1b3 0x1b3 Mapped [0x1b4];
  Row 0x1b4 0x1b4 Valid [];
  Row 0x1b5 0x1b5 Mapped [0x1b6];
  Row 0x1b6 0x1b6 Valid [];
  Row 0x1b7 0x1b7 Mapped [0x292];
  Row 0x1b8 0x1b8 Mapped [0x1b9];
  Row 0x1b9 0x1bb Valid [];
  Row 0x1bc 0x1bc Mapped [0x1bd];
  Row 0x1bd 0x1c3 Valid [];
  Row 0x1c4 0x1c6 Mapped [0x64; 0x17e];
  Row 0x1c7 0x1c9 Mapped [0x6c; 0x6a];
  Row 0x1ca 0x1cc Mapped [0x6e; 0x6a];
  Row 0x1cd 0x1cd Mapped [0x1ce];
  Row 0x1ce 0x1ce Valid [];
  Row 0x1cf 0x1cf Mapped [0x1d0];
  Row 0x1d0 0x1d0 Valid [];
  Row 0x1d1 0x1d1 Mapped [0x1d2];
  Row 0x1d2 0x1d2 Valid [];
  Row 0x1d3 0x1d3 Mapped [0x1d4];
  Row 0x1d4 0x1d4 Valid [];
  Row 0x1d5 0x1d5 Mapped [0x1d6];
  Row 0x1d6 0x1d6 Valid [];
  Row 0x1d7 0x1d7 Mapped [0x1d8];
  Row 0x1d8 0x1d8 Valid [];
  Row 0x1d9 0x1d9 Mapped [0x1da];
  Row 0x1da 0x1da Valid [];
  Row 0x1db 0x1db Mapped [0x1dc];
  Row 0x1dc 0x1dd Valid [];
  Row 0x1de 0x1de Mapped [0x1df];
  Row 0x1df 0x1df Valid [];
  Row 0x1e0 0x1e0 Mapped [0x1e1];
  Row 0x1e1 0x1e1 Valid [];
  Row 0x1e2 0x1e2 Mapped [0x1e3];
  Row 0x1e3 0x1e3 Valid []].
Definition idna_rows_3 : list row := [
  Row 0x1e4 0x1e4 Mapped [0x1e5];
  Row 0x1e5 0x1e5 Valid [];
  Row 0x1e6 0x1e6 Mapped [0x1e7];
  Row 0x1e7 0x1e7 Valid [];
  Row 0x1e8 0x1e8 Mapped [0x1e9];
  Row 0x1e9 0x1e9 Valid [];
  Row 0x1ea 0x1ea Mapped [0x1eb];
  Row 0x1eb 0x1eb Valid [];
  Row 0x1ec 0x1ec Mapped [0x1ed];
  Row 0x1ed 0x1ed Valid [];
  Row 0x1ee 0x1ee Mapped [0x1ef];
  Row 0x1ef 0x1f0 Valid [];
  Row 0x1f1 0x1f3 Mapped [0x64; 0x7a];
  Row 0x1f4 0x1f4 Mapped [0x1f5];
  Row 0x1f5 0x1f5 Valid [];
  Row 0x1f6 0x1f6 Mapped [0x195];
  Row 0x1f7 0x1f7 Mapped [0x1bf];
  Row 0x1f8 0x1f8 Mapped [0x1f9];
  Row 0x1f9 0x1f9 Valid [];
  Row 0x1fa 0x1fa Mapped [0x1fb];
  Row 0x1fb 0x1fb Valid [];
  Row 0x1fc 0x1fc Mapped [0x1fd];
  Row 0x1fd 0x1fd Valid [];
  Row 0x1fe 0x1fe Mapped [0x1ff];
  Row 0x1ff 0x1ff Valid [];
  Row 0x200 0x200 Mapped [0x201];
  Row 0x201 0x201 Valid [];
  Row 0x202 0x202 Mapped [0x203];
  Row 0x203 0x203 Valid [];
  Row 0x204 0x204 Mapped [0x205];
  Row 0x205 0x205 Valid [];
  Row 0x206 0x206 Mapped [0x207];
  Row 0x207 0x207 Valid [];
  Row 0x208 0x208 Mapped [0x209];
  Row 0x209 0x209 Valid [];
  Row 0x20a 0x20a Mapped [0x20b];
  Row 0x20b 0x20b Valid [];
  Row 0x20c 0x20c Mapped [0x20d];
  Row 0x20d 0x20d Valid [];
  Row 0x20e 0x20e Mapped [0x20f];
  Row 0x20f 0x20f Valid [];
  Row 0x210 0x210 Mapped [0x211];
  Row 0x211 0x211 Valid [];
  Row 0x212 0x212 Mapped [0x213];
  Row 0x213 0x213 Valid [];
  Row 0x214 0x214 Mapped [0x215];
  Row 0x215 0x215 Valid [];
  Row 0x216 0x216 Mapped [0x217];
  Row 0x217 0x217 Valid [];
  Row 0x218 0x218 Mapped [0x219];
  Row 0x219 0x219 Valid [];
  Row 0x21a 0x21a Mapped [0x21b];
  Row 0x21b 0x21b Valid [];
  Row 0x21c 0x21c Mapped [0x21d];
  Row 0x21d 0x21d Valid [];
  Row 0x21e 0x21e Mapped [0x21f];
  Row 0x21f 0x21f Valid [];
  Row 0x220 0x220 Mapped [0x19e];
  Row 0x221 0x221 Valid [];
  Row 0x222 0x222 Mapped [0x223];
  Row 0x223 0x223 Valid [];
  Row 0x224 0x224 Mapped [0x225];
  Row 0x225 0x225 Valid [];
  Row 0x226 0x226 Mapped [0x227];
  Row 0x227 0x227 Valid [];
  Row 0x228 0x228 Mapped [0x229];
  Row 0x229 0x229 Valid [];
  Row 0x22a 0x22a Mapped [0x22b];
  Row 0x22b 0x22b Valid [];
  Row 0x22c 0x22c Mapped [0x22d];
  Row 0x22d 0x22d Valid [];
  Row 0x22e 0x22e Mapped [0x22f];
  Row 0x22f 0x22f Valid [];
  Row 0x230 0x230 Mapped [0x231];
  Row 0x231 0x231 Valid [];
  Row 0x232 0x232 Mapped [0x233];
  Row 0x233 0x233 Valid [];
  Row 0x234 0x236 Valid [];
  Row 0x237 0x239 Valid [];
  Row 0x23a 0x23a Mapped [0x2c65];
  Row 0x23b 0x23b Mapped [0x23c];
  Row 0x23c 0x23c Valid [];
  Row 0x23d 0x23d Mapped [0x19a];
  Row 0x23e 0x23e Mapped [0x2c66];
  Row 0x23f 0x240 Valid [];
  Row 0x241 0x241 Mapped [0x242];
  Row 0x242 0x242 Valid [];
  Row 0x243 0x243 Mapped [0x180];
  Row 0x244 0x244 Mapped [0x289];
  Row 0x245 0x245 Mapped [0x28c];
  Row 0x246 0x246 Mapped [0x247];
  Row 0x247 0x247 Valid [];
  Row 0x248 0x248 Mapped [0x249];
  Row 0x249 0x249 Valid [];
  Row 0x24a 0x24a Mapped [0x24b];
  Row 0x24b 0x24b Valid [];
  Row 0x24c 0x24c Mapped [0x24d];
  Row 0x24d 0x24d Valid [];
  Row 0x24e 0x24e Mapped [0x24f];
  Row 0x24f 0x24f Valid []].
Definition idna_rows_4 : list row := [
  Row 0x250 0x2a8 Valid [];
  Row 0x2a9 0x2ad Valid [];
  Row 0x2ae 0x2af Valid [];
  Row 0x2b0 0x2b0 Mapped [0x68];
  Row 0x2b1 0x2b1 Mapped [0x266];
  Row 0x2b2 0x2b2 Mapped [0x6a];
  Row 0x2b3 0x2b3 Mapped [0x72];
  Row 0x2b4 0x2b4 Mapped [0x279];
  Row 0x2b5 0x2b5 Mapped [0x27b];
  Row 0x2b6 0x2b6 Mapped [0x281];
  Row 0x2b7 0x2b7 Mapped [0x77];
  Row 0x2b8 0x2b8 Mapped [0x79];
  Row 0x2b9 0x2c1 Valid [];
  Row 0x2c2 0x2c5 Valid [];
  Row 0x2c6 0x2d1 Valid [];
  Row 0x2d2 0x2d7 Valid [];
  Row 0x2d8 0x2d8 Std3Mapped [0x20; 0x306];
  Row 0x2d9 0x2d9 Std3Mapped [0x20; 0x307];
  Row 0x2da 0x2da Std3Mapped [0x20; 0x30a];
  Row 0x2db 0x2db Std3Mapped [0x20; 0x328];
  Row 0x2dc 0x2dc Std3Mapped [0x20; 0x303];
  Row 0x2dd 0x2dd Std3Mapped [0x20; 0x30b];
  Row 0x2de 0x2de Valid [];
  Row 0x2df 0x2df Valid [];
  Row 0x2e0 0x2e0 Mapped [0x263];
  Row 0x2e1 0x2e1 Mapped [0x6c];
  Row 0x2e2 0x2e2 Mapped [0x73];
  Row 0x2e3 0x2e3 Mapped [0x78];
  Row 0x2e4 0x2e4 Mapped [0x295];
  Row 0x2e5 0x2e9 Valid [];
  Row 0x2ea 0x2eb Valid [];
  Row 0x2ec 0x2ec Valid [];
  Row 0x2ed 0x2ed Valid [];
  Row 0x2ee 0x2ee Valid [];
  Row 0x2ef 0x2ff Valid [];
  Row 0x300 0x33f Valid [];
  Row 0x340 0x340 Mapped [0x300];
  Row 0x341 0x341 Mapped [0x301];
  Row 0x342 0x342 Valid [];
  Row 0x343 0x343 Mapped [0x313];
  Row 0x344 0x344 Mapped [0x308; 0x301];
  Row 0x345 0x345 Mapped [0x3b9];
  Row 0x346 0x34e Valid [];
  Row 0x34f 0x34f Ignored [];
  Row 0x350 0x357 Valid [];
  Row 0x358 0x35c Valid [];
  Row 0x35d 0x35f Valid [];
  Row 0x360 0x361 Valid [];
  Row 0x362 0x362 Valid [];
  Row 0x363 0x36f Valid [];
  Row 0x370 0x370 Mapped [0x371];
  Row 0x371 0x371 Valid [];
  Row 0x372 0x372 Mapped [0x373];
  Row 0x373 0x373 Valid [];
  Row 0x374 0x374 Mapped [0x2b9];
  Row 0x375 0x375 Valid [];
  Row 0x376 0x376 Mapped [0x377];
  Row 0x377 0x377 Valid [];
  Row 0x378 0x379 Disallowed [];
  Row 0x37a 0x37a Std3Mapped [0x20; 0x3b9];
  Row 0x37b 0x37d Valid [];
  Row 0x37e 0x37e Std3Mapped [0x3b];
  Row 0x37f 0x37f Mapped [0x3f3];
  Row 0x380 0x383 Disallowed [];
  Row 0x384 0x384 Std3Mapped [0x20; 0x301];
  Row 0x385 0x385 Std3Mapped [0x20; 0x308; 0x301];
  Row 0x386 0x386 Mapped [0x3ac];
  Row 0x387 0x387 Mapped [0xb7];
  Row 0x388 0x388 Mapped [0x3ad];
  Row 0x389 0x389 Mapped [0x3ae];
  Row 0x38a 0x38a Mapped [0x3af];
  Row 0x38b 0x38b Disallowed [];
  Row 0x38c 0x38c Mapped [0x3cc];
  Row 0x38d 0x38d Disallowed [];
  Row 0x38e 0x38e Mapped [0x3cd];
  Row 0x38f 0x38f Mapped [0x3ce];
  Row 0x390 0x390 Valid [];
  Row 0x391 0x391 Mapped [0x3b1];
  Row 0x392 0x392 Mapped [0x3b2];
  Row 0x393 0x393 Mapped [0x3b3];
  Row 0x394 0x394 Mapped [0x3b4];
  Row 0x395 0x395 Mapped [0x3b5];
  Row 0x396 0x396 Mapped [0x3b6];
  Row 0x397 0x397 Mapped [0x3b7];
  Row 0x398 0x398 Mapped [0x3b8];
  Row 0x399 0x399 Mapped [0x3b9];
  Row 0x39a 0x39a Mapped [0x3ba];
  Row 0x39b 0x39b Mapped [0x3bb];
  Row 0x39c 0x39c Mapped [0x3bc];
  Row 0x39d 0x39d Mapped [0x3bd];
  Row 0x39e 0x39e Mapped [0x3be];
  Row 0x39f 0x39f Mapped [0x3bf];
  Row 0x3a0 0x3a0 Mapped [0x3c0];
  Row 0x3a1 0x3a1 Mapped [0x3c1];
  Row 0x3a2 0x3a2 Disallowed [];
  Row 0x3a3 0x3a3 Mapped [0x3c3];
  Row 0x3a4 0x3a4 Mapped [0x3c4];
  Row 0x3a5 0x3a5 Mapped [0x3c5];
  Row 0x3a6 0x3a6 Mapped [0x3c6];
  Row 0x3a7 0x3a7 Mapped [0x3c7]].
Definition idna_rows_5 : list row := [
  Row 0x3a8 0x3a8 Mapped [0x3c8];
  Row 0x3a9 0x3a9 Mapped [0x3c9];
  Row 0x3aa 0x3aa Mapped [0x3ca];
  Row 0x3ab 0x3ab Mapped [0x3cb];
  Row 0x3ac 0x3c1 Valid [];
  Row 0x3c2 0x3c2 Deviation [0x3c3];
  Row 0x3c3 0x3ce Valid [];
  Row 0x3cf 0x3cf Mapped [0x3d7];
  Row 0x3d0 0x3d0 Mapped [0x3b2];
  Row 0x3d1 0x3d1 Mapped [0x3b8];
  Row 0x3d2 0x3d2 Mapped [0x3c5];
  Row 0x3d3 0x3d3 Mapped [0x3cd];
  Row 0x3d4 0x3d4 Mapped [0x3cb];
  Row 0x3d5 0x3d5 Mapped [0x3c6];
  Row 0x3d6 0x3d6 Mapped [0x3c0];
  Row 0x3d7 0x3d7 Valid [];
  Row 0x3d8 0x3d8 Mapped [0x3d9];
  Row 0x3d9 0x3d9 Valid [];
  Row 0x3da 0x3da Mapped [0x3db];
  Row 0x3db 0x3db Valid [];
  Row 0x3dc 0x3dc Mapped [0x3dd];
  Row 0x3dd 0x3dd Valid [];
  Row 0x3de 0x3de Mapped [0x3df];
  Row 0x3df 0x3df Valid [];
  Row 0x3e0 0x3e0 Mapped [0x3e1];
  Row 0x3e1 0x3e1 Valid [];
  Row 0x3e2 0x3e2 Mapped [0x3e3];
  Row 0x3e3 0x3e3 Valid [];
  Row 0x3e4 0x3e4 Mapped [0x3e5];
  Row 0x3e5 0x3e5 Valid [];
  Row 0x3e6 0x3e6 Mapped [0x3e7];
  Row 0x3e7 0x3e7 Valid [];
  Row 0x3e8 0x3e8 Mapped [0x3e9];
  Row 0x3e9 0x3e9 Valid [];
  Row 0x3ea 0x3ea Mapped [0x3eb];
  Row 0x3eb 0x3eb Valid [];
  Row 0x3ec 0x3ec Mapped [0x3ed];
  Row 0x3ed 0x3ed Valid [];
  Row 0x3ee 0x3ee Mapped [0x3ef];
  Row 0x3ef 0x3ef Valid [];
  Row 0x3f0 0x3f0 Mapped [0x3ba];
  Row 0x3f1 0x3f1 Mapped [0x3c1];
  Row 0x3f2 0x3f2 Mapped [0x3c3];
  Row 0x3f3 0x3f3 Valid [];
  Row 0x3f4 0x3f4 Mapped [0x3b8];
  Row 0x3f5 0x3f5 Mapped [0x3b5];
  Row 0x3f6 0x3f6 Valid [];
  Row 0x3f7 0x3f7 Mapped [0x3f8];
  Row 0x3f8 0x3f8 Valid [];
  Row 0x3f9 0x3f9 Mapped [0x3c3];
  Row 0x3fa 0x3fa Mapped [0x3fb];
  Row 0x3fb 0x3fb Valid [];
  Row 0x3fc 0x3fc Valid [];
  Row 0x3fd 0x3fd Mapped [0x37b];
  Row 0x3fe 0x3fe Mapped [0x37c];
  Row 0x3ff 0x3ff Mapped [0x37d];
  Row 0x400 0x400 Mapped [0x450];
  Row 0x401 0x401 Mapped [0x451];
  Row 0x402 0x402 Mapped [0x452];
  Row 0x403 0x403 Mapped [0x453];
  Row 0x404 0x404 Mapped [0x454];
  Row 0x405 0x405 Mapped [0x455];
  Row 0x406 0x406 Mapped [0x456];
  Row 0x407 0x407 Mapped [0x457];
  Row 0x408 0x408 Mapped [0x458];
  Row 0x409 0x409 Mapped [0x459];
  Row 0x40a 0x40a Mapped [0x45a];
  Row 0x40b 0x40b Mapped [0x45b];
  Row 0x40c 0x40c Mapped [0x45c];
  Row 0x40d 0x40d Mapped [0x45d];
  Row 0x40e 0x40e Mapped [0x45e];
  Row 0x40f 0x40f Mapped [0x45f];
  Row 0x410 0x410 Mapped [0x430];
  Row 0x411 0x411 Mapped [0x431];
  Row 0x412 0x412 Mapped [0x432];
  Row 0x413 0x413 Mapped [0x433];
  Row 0x414 0x414 Mapped [0x434];
  Row 0x415 0x415 Mapped [0x435];
  Row 0x416 0x416 Mapped [0x436];
  Row 0x417 0x417 Mapped [0x437];
  Row 0x418 0x418 Mapped [0x438];
  Row 0x419 0x419 Mapped [0x439];
  Row 0x41a 0x41a Mapped [0x43a];
  Row 0x41b 0x41b Mapped [0x43b];
  Row 0x41c 0x41c Mapped [0x43c];
  Row 0x41d 0x41d Mapped [0x43d];
  Row 0x41e 0x41e Mapped [0x43e];
  Row 0x41f 0x41f Mapped [0x43f];
  Row 0x420 0x420 Mapped [0x440];
  Row 0x421 0x421 Mapped [0x441];
  Row 0x422 0x422 Mapped [0x442];
  Row 0x423 0x423 Mapped [0x443];
  Row 0x424 0x424 Mapped [0x444];
  Row 0x425 0x425 Mapped [0x445];
  Row 0x426 0x426 Mapped [0x446];
  Row 0x427 0x427 Mapped [0x447];
  Row 0x428 0x428 Mapped [0x448];
  Row 0x429 0x429 Mapped [0x449];
  Row 0x42a 0x42a Mapped [0x44a];
  Row 0x42b 0x42b Mapped [0x44b]].
Definition idna_rows_6 : list row := [
  Row 0x42c 0x42c Mapped [0x44c];
  Row 0x42d 0x42d Mapped [0x44d];
  Row 0x42e 0x42e Mapped [0x44e];
  Row 0x42f 0x42f Mapped [0x44f];
  Row 0x430 0x44f Valid [];
  Row 0x450 0x450 Valid [];
  Row 0x451 0x45c Valid [];
  Row 0x45d 0x45d Valid [];
  Row 0x45e 0x45f Valid [];
  Row 0x460 0x460 Mapped [0x461];
  Row 0x461 0x461 Valid [];
  Row 0x462 0x462 Mapped [0x463];
  Row 0x463 0x463 Valid [];
  Row 0x464 0x464 Mapped [0x465];
  Row 0x465 0x465 Valid [];
  Row 0x466 0x466 Mapped [0x467];
  Row 0x467 0x467 Valid [];
  Row 0x468 0x468 Mapped [0x469];
  Row 0x469 0x469 Valid [];
  Row 0x46a 0x46a Mapped [0x46b];
  Row 0x46b 0x46b Valid [];
  Row 0x46c 0x46c Mapped [0x46d];
  Row 0x46d 0x46d Valid [];
  Row 0x46e 0x46e Mapped [0x46f];
  Row 0x46f 0x46f Valid [];
  Row 0x470 0x470 Mapped [0x471];
  Row 0x471 0x471 Valid [];
  Row 0x472 0x472 Mapped [0x473];
  Row 0x473 0x473 Valid [];
  Row 0x474 0x474 Mapped [0x475];
  Row 0x475 0x475 Valid [];
  Row 0x476 0x476 Mapped [0x477];
  Row 0x477 0x477 Valid [];
  Row 0x478 0x478 Mapped [0x479];
  Row 0x479 0x479 Valid [];
  Row 0x47a 0x47a Mapped [0x47b];
  Row 0x47b 0x47b Valid [];
  Row 0x47c 0x47c Mapped [0x47d];
  Row 0x47d 0x47d Valid [];
  Row 0x47e 0x47e Mapped [0x47f];
  Row 0x47f 0x47f Valid [];
  Row 0x480 0x480 Mapped [0x481];
  Row 0x481 0x481 Valid [];
  Row 0x482 0x482 Valid [];
  Row 0x483 0x486 Valid [];
  Row 0x487 0x487 Valid [];
  Row 0x488 0x489 Valid [];
  Row 0x48a 0x48a Mapped [0x48b];
  Row 0x48b 0x48b Valid [];
  Row 0x48c 0x48c Mapped [0x48d];
  Row 0x48d 0x48d Valid [];
  Row 0x48e 0x48e Mapped [0x48f];
  Row 0x48f 0x48f Valid [];
  Row 0x490 0x490 Mapped [0x491];
  Row 0x491 0x491 Valid [];
  Row 0x492 0x492 Mapped [0x493];
  Row 0x493 0x493 Valid [];
  Row 0x494 0x494 Mapped [0x495];
  Row 0x495 0x495 Valid [];
  Row 0x496 0x496 Mapped [0x497];
  Row 0x497 0x497 Valid [];
  Row 0x498 0x498 Mapped [0x499];
  Row 0x499 0x499 Valid [];
  Row 0x49a 0x49a Mapped [0x49b];
  Row 0x49b 0x49b Valid [];
  Row 0x49c 0x49c Mapped [0x49d];
  Row 0x49d 0x49d Valid [];
  Row 0x49e 0x49e Mapped [0x49f];
  Row 0x49f 0x49f Valid [];
  Row 0x4a0 0x4a0 Mapped [0x4a1];
  Row 0x4a1 0x4a1 Valid [];
  Row 0x4a2 0x4a2 Mapped [0x4a3];
  Row 0x4a3 0x4a3 Valid [];
  Row 0x4a4 0x4a4 Mapped [0x4a5];
  Row 0x4a5 0x4a5 Valid [];
  Row 0x4a6 0x4a6 Mapped [0x4a7];
  Row 0x4a7 0x4a7 Valid [];
  Row 0x4a8 0x4a8 Mapped [0x4a9];
  Row 0x4a9 0x4a9 Valid [];
  Row 0x4aa 0x4aa Mapped [0x4ab];
  Row 0x4ab 0x4ab Valid [];
  Row 0x4ac 0x4ac Mapped [0x4ad];
  Row 0x4ad 0x4ad Valid [];
  Row 0x4ae 0x4ae Mapped [0x4af];
  Row 0x4af 0x4af Valid [];
  Row 0x4b0 0x4b0 Mapped [0x4b1];
  Row 0x4b1 0x4b1 Valid [];
  Row 0x4b2 0x4b2 Mapped [0x4b3];
  Row 0x4b3 0x4b3 Valid [];
  Row 0x4b4 0x4b4 Mapped [0x4b5];
  Row 0x4b5 0x4b5 Valid [];
  Row 0x4b6 0x4b6 Mapped [0x4b7];
  Row 0x4b7 0x4b7 Valid [];
  Row 0x4b8 0x4b8 Mapped [0x4b9];
  Row 0x4b9 0x4b9 Valid [];
  Row 0x4ba 0x4ba Mapped [0x4bb];
  Row 0x4bb 0x4bb Valid [];
  Row 0x4bc 0x4bc Mapped [0x4bd];
  Row 0x4bd 0x4bd Valid [];
  Row 0x4be 0x4be Mapped [0x4bf]].
Definition idna_rows_7 : list row := [
  Row 0x4bf 0x4bf Valid [];
  Row 0x4c0 0x4c0 Disallowed [];
  Row 0x4c1 0x4c1 Mapped [0x4c2];
  Row 0x4c2 0x4c2 Valid [];
  Row 0x4c3 0x4c3 Mapped [0x4c4];
  Row 0x4c4 0x4c4 Valid [];
  Row 0x4c5 0x4c5 Mapped [0x4c6];
  Row 0x4c6 0x4c6 Valid [];
  Row 0x4c7 0x4c7 Mapped [0x4c8];
  Row 0x4c8 0x4c8 Valid [];
  Row 0x4c9 0x4c9 Mapped [0x4ca];
  Row 0x4ca 0x4ca Valid [];
  Row 0x4cb 0x4cb Mapped [0x4cc];
  Row 0x4cc 0x4cc Valid [];
  Row 0x4cd 0x4cd Mapped [0x4ce];
  Row 0x4ce 0x4ce Valid [];
  Row 0x4cf 0x4cf Valid [];
  Row 0x4d0 0x4d0 Mapped [0x4d1];
  Row 0x4d1 0x4d1 Valid [];
  Row 0x4d2 0x4d2 Mapped [0x4d3];
  Row 0x4d3 0x4d3 Valid [];
  Row 0x4d4 0x4d4 Mapped [0x4d5];
  Row 0x4d5 0x4d5 Valid [];
  Row 0x4d6 0x4d6 Mapped [0x4d7];
  Row 0x4d7 0x4d7 Valid [];
  Row 0x4d8 0x4d8 Mapped [0x4d9];
  Row 0x4d9 0x4d9 Valid [];
  Row 0x4da 0x4da Mapped [0x4db];
  Row 0x4db 0x4db Valid [];
  Row 0x4dc 0x4dc Mapped [0x4dd];
  Row 0x4dd 0x4dd Valid [];
  Row 0x4de 0x4de Mapped [0x4df];
  Row 0x4df 0x4df Valid [];
  Row 0x4e0 0x4e0 Mapped [0x4e1];
  Row 0x4e1 0x4e1 Valid [];
  Row 0x4e2 0x4e2 Mapped [0x4e3];
  Row 0x4e3 0x4e3 Valid [];
  Row 0x4e4 0x4e4 Mapped [0x4e5];
  Row 0x4e5 0x4e5 Valid [];
  Row 0x4e6 0x4e6 Mapped [0x4e7];
  Row 0x4e7 0x4e7 Valid [];
  Row 0x4e8 0x4e8 Mapped [0x4e9];
  Row 0x4e9 0x4e9 Valid [];
  Row 0x4ea 0x4ea Mapped [0x4eb];
  Row 0x4eb 0x4eb Valid [];
  Row 0x4ec 0x4ec Mapped [0x4ed];
  Row 0x4ed 0x4ed Valid [];
  Row 0x4ee 0x4ee Mapped [0x4ef];
  Row 0x4ef 0x4ef Valid [];
  Row 0x4f0 0x4f0 Mapped [0x4f1];
  Row 0x4f1 0x4f1 Valid [];
  Row 0x4f2 0x4f2 Mapped [0x4f3];
  Row 0x4f3 0x4f3 Valid [];
  Row 0x4f4 0x4f4 Mapped [0x4f5];
  Row 0x4f5 0x4f5 Valid [];
  Row 0x4f6 0x4f6 Mapped [0x4f7];
  Row 0x4f7 0x4f7 Valid [];
  Row 0x4f8 0x4f8 Mapped [0x4f9];
  Row 0x4f9 0x4f9 Valid [];
  Row 0x4fa 0x4fa Mapped [0x4fb];
  Row 0x4fb 0x4fb Valid [];
  Row 0x4fc 0x4fc Mapped [0x4fd];
  Row 0x4fd 0x4fd Valid [];
  Row 0x4fe 0x4fe Mapped [0x4ff];
  Row 0x4ff 0x4ff Valid [];
  Row 0x500 0x500 Mapped [0x501];
  Row 0x501 0x501 Valid [];
  Row 0x502 0x502 Mapped [0x503];
  Row 0x503 0x503 Valid [];
  Row 0x504 0x504 Mapped [0x505];
  Row 0x505 0x505 Valid [];
  Row 0x506 0x506 Mapped [0x507];
  Row 0x507 0x507 Valid [];
  Row 0x508 0x508 Mapped [0x509];
  Row 0x509 0x509 Valid [];
  Row 0x50a 0x50a Mapped [0x50b];
  Row 0x50b 0x50b Valid [];
  Row 0x50c 0x50c Mapped [0x50d];
  Row 0x50d 0x50d Valid [];
  Row 0x50e 0x50e Mapped [0x50f];
  Row 0x50f 0x50f Valid [];
  Row 0x510 0x510 Mapped [0x511];
  Row 0x511 0x511 Valid [];
  Row 0x512 0x512 Mapped [0x513];
  Row 0x513 0x513 Valid [];
  Row 0x514 0x514 Mapped [0x515];
  Row 0x515 0x515 Valid [];
  Row 0x516 0x516 Mapped [0x517];
  Row 0x517 0x517 Valid [];
  Row 0x518 0x518 Mapped [0x519];
  Row 0x519 0x519 Valid [];
  Row 0x51a 0x51a Mapped [0x51b];
  Row 0x51b 0x51b Valid [];
  Row 0x51c 0x51c Mapped [0x51d];
  Row 0x51d 0x51d Valid [];
  Row 0x51e 0x51e Mapped [0x51f];
  Row 0x51f 0x51f Valid [];
  Row 0x520 0x520 Mapped [0x521];
  Row 0x521 0x521 Valid [];
  Row 0x522 0x522 Mapped [0x523]].
Definition idna_rows_8 : list row := [
  Row 0x523 0x523 Valid [];
  Row 0x524 0x524 Mapped [0x525];
  Row 0x525 0x525 Valid [];
  Row 0x526 0x526 Mapped [0x527];
  Row 0x527 0x527 Valid [];
  Row 0x528 0x528 Mapped [0x529];
  Row 0x529 0x529 Valid [];
  Row 0x52a 0x52a Mapped [0x52b];
  Row 0x52b 0x52b Valid [];
  Row 0x52c 0x52c Mapped [0x52d];
  Row 0x52d 0x52d Valid [];
  Row 0x52e 0x52e Mapped [0x52f];
  Row 0x52f 0x52f Valid [];
  Row 0x530 0x530 Disallowed [];
  Row 0x531 0x531 Mapped [0x561];
  Row 0x532 0x532 Mapped [0x562];
  Row 0x533 0x533 Mapped [0x563];
  Row 0x534 0x534 Mapped [0x564];
  Row 0x535 0x535 Mapped [0x565];
  Row 0x536 0x536 Mapped [0x566];
  Row 0x537 0x537 Mapped [0x567];
  Row 0x538 0x538 Mapped [0x568];
  Row 0x539 0x539 Mapped [0x569];
  Row 0x53a 0x53a Mapped [0x56a];
  Row 0x53b 0x53b Mapped [0x56b];
  Row 0x53c 0x53c Mapped [0x56c];
  Row 0x53d 0x53d Mapped [0x56d];
  Row 0x53e 0x53e Mapped [0x56e];
  Row 0x53f 0x53f Mapped [0x56f];
  Row 0x540 0x540 Mapped [0x570];
  Row 0x541 0x541 Mapped [0x571];
  Row 0x542 0x542 Mapped [0x572];
  Row 0x543 0x543 Mapped [0x573];
  Row 0x544 0x544 Mapped [0x574];
  Row 0x545 0x545 Mapped [0x575];
  Row 0x546 0x546 Mapped [0x576];
  Row 0x547 0x547 Mapped [0x577];
  Row 0x548 0x548 Mapped [0x578];
  Row 0x549 0x549 Mapped [0x579];
  Row 0x54a 0x54a Mapped [0x57a];
  Row 0x54b 0x54b Mapped [0x57b];
  Row 0x54c 0x54c Mapped [0x57c];
  Row 0x54d 0x54d Mapped [0x57d];
  Row 0x54e 0x54e Mapped [0x57e];
  Row 0x54f 0x54f Mapped [0x57f];
  Row 0x550 0x550 Mapped [0x580];
  Row 0x551 0x551 Mapped [0x581];
  Row 0x552 0x552 Mapped [0x582];
  Row 0x553 0x553 Mapped [0x583];
  Row 0x554 0x554 Mapped [0x584];
  Row 0x555 0x555 Mapped [0x585];
  Row 0x556 0x556 Mapped [0x586];
  Row 0x557 0x558 Disallowed [];
  Row 0x559 0x559 Valid [];
  Row 0x55a 0x55f Valid [];
  Row 0x560 0x560 Valid [];
  Row 0x561 0x586 Valid [];
  Row 0x587 0x587 Mapped [0x565; 0x582];
  Row 0x588 0x588 Valid [];
  Row 0x589 0x589 Valid [];
  Row 0x58a 0x58a Valid [];
  Row 0x58b 0x58c Disallowed [];
  Row 0x58d 0x58e Valid [];
  Row 0x58f 0x58f Valid [];
  Row 0x590 0x590 Disallowed [];
  Row 0x591 0x5a1 Valid [];
  Row 0x5a2 0x5a2 Valid [];
  Row 0x5a3 0x5af Valid [];
  Row 0x5b0 0x5b9 Valid [];
  Row 0x5ba 0x5ba Valid [];
  Row 0x5bb 0x5bd Valid [];
  Row 0x5be 0x5be Valid [];
  Row 0x5bf 0x5bf Valid [];
  Row 0x5c0 0x5c0 Valid [];
  Row 0x5c1 0x5c2 Valid [];
  Row 0x5c3 0x5c3 Valid [];
  Row 0x5c4 0x5c4 Valid [];
  Row 0x5c5 0x5c5 Valid [];
  Row 0x5c6 0x5c6 Valid [];
  Row 0x5c7 0x5c7 Valid [];
  Row 0x5c8 0x5cf Disallowed [];
  Row 0x5d0 0x5ea Valid [];
  Row 0x5eb 0x5ee Disallowed [];
  Row 0x5ef 0x5ef Valid [];
  Row 0x5f0 0x5f4 Valid [];
  Row 0x5f5 0x5ff Disallowed [];
  Row 0x600 0x603 Disallowed [];
  Row 0x604 0x604 Disallowed [];
  Row 0x605 0x605 Disallowed [];
  Row 0x606 0x60a Valid [];
  Row 0x60b 0x60b Valid [];
  Row 0x60c 0x60c Valid [];
  Row 0x60d 0x60f Valid [];
  Row 0x610 0x615 Valid [];
  Row 0x616 0x61a Valid [];
  Row 0x61b 0x61b Valid [];
  Row 0x61c 0x61c Disallowed [];
  Row 0x61d 0x61d Disallowed [];
  Row 0x61e 0x61e Valid [];
  Row 0x61f 0x61f Valid []].
Definition idna_rows_9 : list row := [
  Row 0x620 0x620 Valid [];
  Row 0x621 0x63a Valid [];
  Row 0x63b 0x63f Valid [];
  Row 0x640 0x640 Valid [];
  Row 0x641 0x652 Valid [];
  Row 0x653 0x655 Valid [];
  Row 0x656 0x658 Valid [];
  Row 0x659 0x65e Valid [];
  Row 0x65f 0x65f Valid [];
  Row 0x660 0x669 Valid [];
  Row 0x66a 0x66d Valid [];
  Row 0x66e 0x66f Valid [];
  Row 0x670 0x674 Valid [];
  Row 0x675 0x675 Mapped [0x627; 0x674];
  Row 0x676 0x676 Mapped [0x648; 0x674];
  Row 0x677 0x677 Mapped [0x6c7; 0x674];
  Row 0x678 0x678 Mapped [0x64a; 0x674];
  Row 0x679 0x6b7 Valid [];
  Row 0x6b8 0x6b9 Valid [];
  Row 0x6ba 0x6be Valid [];
  Row 0x6bf 0x6bf Valid [];
  Row 0x6c0 0x6ce Valid [];
  Row 0x6cf 0x6cf Valid [];
  Row 0x6d0 0x6d3 Valid [];
  Row 0x6d4 0x6d4 Valid [];
  Row 0x6d5 0x6dc Valid [];
  Row 0x6dd 0x6dd Disallowed [];
  Row 0x6de 0x6de Valid [];
  Row 0x6df 0x6e8 Valid [];
  Row 0x6e9 0x6e9 Valid [];
  Row 0x6ea 0x6ed Valid [];
  Row 0x6ee 0x6ef Valid [];
  Row 0x6f0 0x6f9 Valid [];
  Row 0x6fa 0x6fe Valid [];
  Row 0x6ff 0x6ff Valid [];
  Row 0x700 0x70d Valid [];
  Row 0x70e 0x70e Disallowed [];
  Row 0x70f 0x70f Disallowed [];
  Row 0x710 0x72c Valid [];
  Row 0x72d 0x72f Valid [];
  Row 0x730 0x74a Valid [];
  Row 0x74b 0x74c Disallowed [];
  Row 0x74d 0x74f Valid [];
  Row 0x750 0x76d Valid [];
  Row 0x76e 0x77f Valid [];
  Row 0x780 0x7b0 Valid [];
  Row 0x7b1 0x7b1 Valid [];
  Row 0x7b2 0x7bf Disallowed [];
  Row 0x7c0 0x7f5 Valid [];
  Row 0x7f6 0x7fa Valid [];
  Row 0x7fb 0x7fc Disallowed [];
  Row 0x7fd 0x7fd Valid [];
  Row 0x7fe 0x7ff Valid [];
  Row 0x800 0x82d Valid [];
  Row 0x82e 0x82f Disallowed [];
  Row 0x830 0x83e Valid [];
  Row 0x83f 0x83f Disallowed [];
  Row 0x840 0x85b Valid [];
  Row 0x85c 0x85d Disallowed [];
  Row 0x85e 0x85e Valid [];
  Row 0x85f 0x85f Disallowed [];
  Row 0x860 0x86a Valid [];
  Row 0x86b 0x89f Disallowed [];
  Row 0x8a0 0x8a0 Valid [];
  Row 0x8a1 0x8a1 Valid [];
  Row 0x8a2 0x8ac Valid [];
  Row 0x8ad 0x8b2 Valid [];
  Row 0x8b3 0x8b4 Valid [];
  Row 0x8b5 0x8b5 Disallowed [];
  Row 0x8b6 0x8bd Valid [];
  Row 0x8be 0x8c7 Valid [];
  Row 0x8c8 0x8d2 Disallowed [];
  Row 0x8d3 0x8d3 Valid [];
  Row 0x8d4 0x8e1 Valid [];
  Row 0x8e2 0x8e2 Disallowed [];
  Row 0x8e3 0x8e3 Valid [];
  Row 0x8e4 0x8fe Valid [];
  Row 0x8ff 0x8ff Valid [];
  Row 0x900 0x900 Valid [];
  Row 0x901 0x903 Valid [];
  Row 0x904 0x904 Valid [];
  Row 0x905 0x939 Valid [];
  Row 0x93a 0x93b Valid [];
  Row 0x93c 0x94d Valid [];
  Row 0x94e 0x94e Valid [];
  Row 0x94f 0x94f Valid [];
  Row 0x950 0x954 Valid [];
  Row 0x955 0x955 Valid [];
  Row 0x956 0x957 Valid [];
  Row 0x958 0x958 Mapped [0x915; 0x93c];
  Row 0x959 0x959 Mapped [0x916; 0x93c];
  Row 0x95a 0x95a Mapped [0x917; 0x93c];
  Row 0x95b 0x95b Mapped [0x91c; 0x93c];
  Row 0x95c 0x95c Mapped [0x921; 0x93c];
  Row 0x95d 0x95d Mapped [0x922; 0x93c];
  Row 0x95e 0x95e Mapped [0x92b; 0x93c];
  Row 0x95f 0x95f Mapped [0x92f; 0x93c];
  Row 0x960 0x963 Valid [];
  Row 0x964 0x965 Valid [];
  Row 0x966 0x96f Valid []].
Definition idna_rows_10 : list row := [
  Row 0x970 0x970 Valid [];
  Row 0x971 0x972 Valid [];
  Row 0x973 0x977 Valid [];
  Row 0x978 0x978 Valid [];
  Row 0x979 0x97a Valid [];
  Row 0x97b 0x97c Valid [];
  Row 0x97d 0x97d Valid [];
  Row 0x97e 0x97f Valid [];
  Row 0x980 0x980 Valid [];
  Row 0x981 0x983 Valid [];
  Row 0x984 0x984 Disallowed [];
  Row 0x985 0x98c Valid [];
  Row 0x98d 0x98e Disallowed [];
  Row 0x98f 0x990 Valid [];
  Row 0x991 0x992 Disallowed [];
  Row 0x993 0x9a8 Valid [];
  Row 0x9a9 0x9a9 Disallowed [];
  Row 0x9aa 0x9b0 Valid [];
  Row 0x9b1 0x9b1 Disallowed [];
  Row 0x9b2 0x9b2 Valid [];
  Row 0x9b3 0x9b5 Disallowed [];
  Row 0x9b6 0x9b9 Valid [];
  Row 0x9ba 0x9bb Disallowed [];
  Row 0x9bc 0x9bc Valid [];
  Row 0x9bd 0x9bd Valid [];
  Row 0x9be 0x9c4 Valid [];
  Row 0x9c5 0x9c6 Disallowed [];
  Row 0x9c7 0x9c8 Valid [];
  Row 0x9c9 0x9ca Disallowed [];
  Row 0x9cb 0x9cd Valid [];
  Row 0x9ce 0x9ce Valid [];
  Row 0x9cf 0x9d6 Disallowed [];
  Row 0x9d7 0x9d7 Valid [];
  Row 0x9d8 0x9db Disallowed [];
  Row 0x9dc 0x9dc Mapped [0x9a1; 0x9bc];
  Row 0x9dd 0x9dd Mapped [0x9a2; 0x9bc];
  Row 0x9de 0x9de Disallowed [];
  Row 0x9df 0x9df Mapped [0x9af; 0x9bc];
  Row 0x9e0 0x9e3 Valid [];
  Row 0x9e4 0x9e5 Disallowed [];
  Row 0x9e6 0x9f1 Valid [];
  Row 0x9f2 0x9fa Valid [];
  Row 0x9fb 0x9fb Valid [];
  Row 0x9fc 0x9fc Valid [];
  Row 0x9fd 0x9fd Valid [];
  Row 0x9fe 0x9fe Valid [];
  Row 0x9ff 0xa00 Disallowed [];
  Row 0xa01 0xa01 Valid [];
  Row 0xa02 0xa02 Valid [];
  Row 0xa03 0xa03 Valid [];
  Row 0xa04 0xa04 Disallowed [];
  Row 0xa05 0xa0a Valid [];
  Row 0xa0b 0xa0e Disallowed [];
  Row 0xa0f 0xa10 Valid [];
  Row 0xa11 0xa12 Disallowed [];
  Row 0xa13 0xa28 Valid [];
  Row 0xa29 0xa29 Disallowed [];
  Row 0xa2a 0xa30 Valid [];
  Row 0xa31 0xa31 Disallowed [];
  Row 0xa32 0xa32 Valid [];
  Row 0xa33 0xa33 Mapped [0xa32; 0xa3c];
  Row 0xa34 0xa34 Disallowed [];
  Row 0xa35 0xa35 Valid [];
  Row 0xa36 0xa36 Mapped [0xa38; 0xa3c];
  Row 0xa37 0xa37 Disallowed [];
  Row 0xa38 0xa39 Valid [];
  Row 0xa3a 0xa3b Disallowed [];
  Row 0xa3c 0xa3c Valid [];
  Row 0xa3d 0xa3d Disallowed [];
  Row 0xa3e 0xa42 Valid [];
  Row 0xa43 0xa46 Disallowed [];
  Row 0xa47 0xa48 Valid [];
  Row 0xa49 0xa4a Disallowed [];
  Row 0xa4b 0xa4d Valid [];
  Row 0xa4e 0xa50 Disallowed [];
  Row 0xa51 0xa51 Valid [];
  Row 0xa52 0xa58 Disallowed [];
  Row 0xa59 0xa59 Mapped [0xa16; 0xa3c];
  Row 0xa5a 0xa5a Mapped [0xa17; 0xa3c];
  Row 0xa5b 0xa5b Mapped [0xa1c; 0xa3c];
  Row 0xa5c 0xa5c Valid [];
  Row 0xa5d 0xa5d Disallowed [];
  Row 0xa5e 0xa5e Mapped [0xa2b; 0xa3c];
  Row 0xa5f 0xa65 Disallowed [];
  Row 0xa66 0xa74 Valid [];
  Row 0xa75 0xa75 Valid [];
  Row 0xa76 0xa76 Valid [];
  Row 0xa77 0xa80 Disallowed [];
  Row 0xa81 0xa83 Valid [];
  Row 0xa84 0xa84 Disallowed [];
  Row 0xa85 0xa8b Valid [];
  Row 0xa8c 0xa8c Valid [];
  Row 0xa8d 0xa8d Valid [];
  Row 0xa8e 0xa8e Disallowed [];
  Row 0xa8f 0xa91 Valid [];
  Row 0xa92 0xa92 Disallowed [];
  Row 0xa93 0xaa8 Valid [];
  Row 0xaa9 0xaa9 Disallowed [];
  Row 0xaaa 0xab0 Valid [];
  Row 0xab1 0xab1 Disallowed []].
Definition idna_rows_11 : list row := [
  Row 0xab2 0xab3 Valid [];
  Row 0xab4 0xab4 Disallowed [];
  Row 0xab5 0xab9 Valid [];
  Row 0xaba 0xabb Disallowed [];
  Row 0xabc 0xac5 Valid [];
  Row 0xac6 0xac6 Disallowed [];
  Row 0xac7 0xac9 Valid [];
  Row 0xaca 0xaca Disallowed [];
  Row 0xacb 0xacd Valid [];
  Row 0xace 0xacf Disallowed [];
  Row 0xad0 0xad0 Valid [];
  Row 0xad1 0xadf Disallowed [];
  Row 0xae0 0xae0 Valid [];
  Row 0xae1 0xae3 Valid [];
  Row 0xae4 0xae5 Disallowed [];
  Row 0xae6 0xaef Valid [];
  Row 0xaf0 0xaf0 Valid [];
  Row 0xaf1 0xaf1 Valid [];
  Row 0xaf2 0xaf8 Disallowed [];
  Row 0xaf9 0xaf9 Valid [];
  Row 0xafa 0xaff Valid [];
  Row 0xb00 0xb00 Disallowed [];
  Row 0xb01 0xb03 Valid [];
  Row 0xb04 0xb04 Disallowed [];
  Row 0xb05 0xb0c Valid [];
  Row 0xb0d 0xb0e Disallowed [];
  Row 0xb0f 0xb10 Valid [];
  Row 0xb11 0xb12 Disallowed [];
  Row 0xb13 0xb28 Valid [];
  Row 0xb29 0xb29 Disallowed [];
  Row 0xb2a 0xb30 Valid [];
  Row 0xb31 0xb31 Disallowed [];
  Row 0xb32 0xb33 Valid [];
  Row 0xb34 0xb34 Disallowed [];
  Row 0xb35 0xb35 Valid [];
  Row 0xb36 0xb39 Valid [];
  Row 0xb3a 0xb3b Disallowed [];
  Row 0xb3c 0xb43 Valid [];
  Row 0xb44 0xb44 Valid [];
  Row 0xb45 0xb46 Disallowed [];
  Row 0xb47 0xb48 Valid [];
  Row 0xb49 0xb4a Disallowed [];
  Row 0xb4b 0xb4d Valid [];
  Row 0xb4e 0xb54 Disallowed [];
  Row 0xb55 0xb55 Valid [];
  Row 0xb56 0xb57 Valid [];
  Row 0xb58 0xb5b Disallowed [];
  Row 0xb5c 0xb5c Mapped [0xb21; 0xb3c];
  Row 0xb5d 0xb5d Mapped [0xb22; 0xb3c];
  Row 0xb5e 0xb5e Disallowed [];
  Row 0xb5f 0xb61 Valid [];
  Row 0xb62 0xb63 Valid [];
  Row 0xb64 0xb65 Disallowed [];
  Row 0xb66 0xb6f Valid [];
  Row 0xb70 0xb70 Valid [];
  Row 0xb71 0xb71 Valid [];
  Row 0xb72 0xb77 Valid [];
  Row 0xb78 0xb81 Disallowed [];
  Row 0xb82 0xb83 Valid [];
  Row 0xb84 0xb84 Disallowed [];
  Row 0xb85 0xb8a Valid [];
  Row 0xb8b 0xb8d Disallowed [];
  Row 0xb8e 0xb90 Valid [];
  Row 0xb91 0xb91 Disallowed [];
  Row 0xb92 0xb95 Valid [];
  Row 0xb96 0xb98 Disallowed [];
  Row 0xb99 0xb9a Valid [];
  Row 0xb9b 0xb9b Disallowed [];
  Row 0xb9c 0xb9c Valid [];
  Row 0xb9d 0xb9d Disallowed [];
  Row 0xb9e 0xb9f Valid [];
  Row 0xba0 0xba2 Disallowed [];
  Row 0xba3 0xba4 Valid [];
  Row 0xba5 0xba7 Disallowed [];
  Row 0xba8 0xbaa Valid [];
  Row 0xbab 0xbad Disallowed [];
  Row 0xbae 0xbb5 Valid [];
  Row 0xbb6 0xbb6 Valid [];
  Row 0xbb7 0xbb9 Valid [];
  Row 0xbba 0xbbd Disallowed [];
  Row 0xbbe 0xbc2 Valid [];
  Row 0xbc3 0xbc5 Disallowed [];
  Row 0xbc6 0xbc8 Valid [];
  Row 0xbc9 0xbc9 Disallowed [];
  Row 0xbca 0xbcd Valid [];
  Row 0xbce 0xbcf Disallowed [];
  Row 0xbd0 0xbd0 Valid [];
  Row 0xbd1 0xbd6 Disallowed [];
  Row 0xbd7 0xbd7 Valid [];
  Row 0xbd8 0xbe5 Disallowed [];
  Row 0xbe6 0xbe6 Valid [];
  Row 0xbe7 0xbef Valid [];
  Row 0xbf0 0xbf2 Valid [];
  Row 0xbf3 0xbfa Valid [];
  Row 0xbfb 0xbff Disallowed [];
  Row 0xc00 0xc00 Valid [];
  Row 0xc01 0xc03 Valid [];
  Row 0xc04 0xc04 Valid [];
  Row 0xc05 0xc0c Valid [];
  Row 0xc0d 0xc0d Disallowed []].
Definition idna_rows_12 : list row := [
  Row 0xc0e 0xc10 Valid [];
  Row 0xc11 0xc11 Disallowed [];
  Row 0xc12 0xc28 Valid [];
  Row 0xc29 0xc29 Disallowed [];
  Row 0xc2a 0xc33 Valid [];
  Row 0xc34 0xc34 Valid [];
  Row 0xc35 0xc39 Valid [];
  Row 0xc3a 0xc3c Disallowed [];
  Row 0xc3d 0xc3d Valid [];
  Row 0xc3e 0xc44 Valid [];
  Row 0xc45 0xc45 Disallowed [];
  Row 0xc46 0xc48 Valid [];
  Row 0xc49 0xc49 Disallowed [];
  Row 0xc4a 0xc4d Valid [];
  Row 0xc4e 0xc54 Disallowed [];
  Row 0xc55 0xc56 Valid [];
  Row 0xc57 0xc57 Disallowed [];
  Row 0xc58 0xc59 Valid [];
  Row 0xc5a 0xc5a Valid [];
  Row 0xc5b 0xc5f Disallowed [];
  Row 0xc60 0xc61 Valid [];
  Row 0xc62 0xc63 Valid [];
  Row 0xc64 0xc65 Disallowed [];
  Row 0xc66 0xc6f Valid [];
  Row 0xc70 0xc76 Disallowed [];
  Row 0xc77 0xc77 Valid [];
  Row 0xc78 0xc7f Valid [];
  Row 0xc80 0xc80 Valid [];
  Row 0xc81 0xc81 Valid [];
  Row 0xc82 0xc83 Valid [];
  Row 0xc84 0xc84 Valid [];
  Row 0xc85 0xc8c Valid [];
  Row 0xc8d 0xc8d Disallowed [];
  Row 0xc8e 0xc90 Valid [];
  Row 0xc91 0xc91 Disallowed [];
  Row 0xc92 0xca8 Valid [];
  Row 0xca9 0xca9 Disallowed [];
  Row 0xcaa 0xcb3 Valid [];
  Row 0xcb4 0xcb4 Disallowed [];
  Row 0xcb5 0xcb9 Valid [];
  Row 0xcba 0xcbb Disallowed [];
  Row 0xcbc 0xcbd Valid [];
  Row 0xcbe 0xcc4 Valid [];
  Row 0xcc5 0xcc5 Disallowed [];
  Row 0xcc6 0xcc8 Valid [];
  Row 0xcc9 0xcc9 Disallowed [];
  Row 0xcca 0xccd Valid [];
  Row 0xcce 0xcd4 Disallowed [];
  Row 0xcd5 0xcd6 Valid [];
  Row 0xcd7 0xcdd Disallowed [];
  Row 0xcde 0xcde Valid [];
  Row 0xcdf 0xcdf Disallowed [];
  Row 0xce0 0xce1 Valid [];
  Row 0xce2 0xce3 Valid [];
  Row 0xce4 0xce5 Disallowed [];
  Row 0xce6 0xcef Valid [];
  Row 0xcf0 0xcf0 Disallowed [];
  Row 0xcf1 0xcf2 Valid [];
  Row 0xcf3 0xcff Disallowed [];
  Row 0xd00 0xd00 Valid [];
  Row 0xd01 0xd01 Valid [];
  Row 0xd02 0xd03 Valid [];
  Row 0xd04 0xd04 Valid [];
  Row 0xd05 0xd0c Valid [];
  Row 0xd0d 0xd0d Disallowed [];
  Row 0xd0e 0xd10 Valid [];
  Row 0xd11 0xd11 Disallowed [];
  Row 0xd12 0xd28 Valid [];
  Row 0xd29 0xd29 Valid [];
  Row 0xd2a 0xd39 Valid [];
  Row 0xd3a 0xd3a Valid [];
  Row 0xd3b 0xd3c Valid [];
  Row 0xd3d 0xd3d Valid [];
  Row 0xd3e 0xd43 Valid [];
  Row 0xd44 0xd44 Valid [];
  Row 0xd45 0xd45 Disallowed [];
  Row 0xd46 0xd48 Valid [];
  Row 0xd49 0xd49 Disallowed [];
  Row 0xd4a 0xd4d Valid [];
  Row 0xd4e 0xd4e Valid [];
  Row 0xd4f 0xd4f Valid [];
  Row 0xd50 0xd53 Disallowed [];
  Row 0xd54 0xd56 Valid [];
  Row 0xd57 0xd57 Valid [];
  Row 0xd58 0xd5e Valid [];
  Row 0xd5f 0xd5f Valid [];
  Row 0xd60 0xd61 Valid [];
  Row 0xd62 0xd63 Valid [];
  Row 0xd64 0xd65 Disallowed [];
  Row 0xd66 0xd6f Valid [];
  Row 0xd70 0xd75 Valid [];
  Row 0xd76 0xd78 Valid [];
  Row 0xd79 0xd79 Valid [];
  Row 0xd7a 0xd7f Valid [];
  Row 0xd80 0xd80 Disallowed [];
  Row 0xd81 0xd81 Valid [];
  Row 0xd82 0xd83 Valid [];
  Row 0xd84 0xd84 Disallowed [];
  Row 0xd85 0xd96 Valid [];
  Row 0xd97 0xd99 Disallowed []].
Definition idna_rows_13 : list row := [
  Row 0xd9a 0xdb1 Valid [];
  Row 0xdb2 0xdb2 Disallowed [];
  Row 0xdb3 0xdbb Valid [];
  Row 0xdbc 0xdbc Disallowed [];
  Row 0xdbd 0xdbd Valid [];
  Row 0xdbe 0xdbf Disallowed [];
  Row 0xdc0 0xdc6 Valid [];
  Row 0xdc7 0xdc9 Disallowed [];
  Row 0xdca 0xdca Valid [];
  Row 0xdcb 0xdce Disallowed [];
  Row 0xdcf 0xdd4 Valid [];
  Row 0xdd5 0xdd5 Disallowed [];
  Row 0xdd6 0xdd6 Valid [];
  Row 0xdd7 0xdd7 Disallowed [];
  Row 0xdd8 0xddf Valid [];
  Row 0xde0 0xde5 Disallowed [];
  Row 0xde6 0xdef Valid [];
  Row 0xdf0 0xdf1 Disallowed [];
  Row 0xdf2 0xdf3 Valid [];
  Row 0xdf4 0xdf4 Valid [];
  Row 0xdf5 0xe00 Disallowed [];
  Row 0xe01 0xe32 Valid [];
  Row 0xe33 0xe33 Mapped [0xe4d; 0xe32];
  Row 0xe34 0xe3a Valid [];
  Row 0xe3b 0xe3e Disallowed [];
  Row 0xe3f 0xe3f Valid [];
  Row 0xe40 0xe4e Valid [];
  Row 0xe4f 0xe4f Valid [];
  Row 0xe50 0xe59 Valid [];
  Row 0xe5a 0xe5b Valid [];
  Row 0xe5c 0xe80 Disallowed [];
  Row 0xe81 0xe82 Valid [];
  Row 0xe83 0xe83 Disallowed [];
  Row 0xe84 0xe84 Valid [];
  Row 0xe85 0xe85 Disallowed [];
  Row 0xe86 0xe86 Valid [];
  Row 0xe87 0xe88 Valid [];
  Row 0xe89 0xe89 Valid [];
  Row 0xe8a 0xe8a Valid [];
  Row 0xe8b 0xe8b Disallowed [];
  Row 0xe8c 0xe8c Valid [];
  Row 0xe8d 0xe8d Valid [];
  Row 0xe8e 0xe93 Valid [];
  Row 0xe94 0xe97 Valid [];
  Row 0xe98 0xe98 Valid [];
  Row 0xe99 0xe9f Valid [];
  Row 0xea0 0xea0 Valid [];
  Row 0xea1 0xea3 Valid [];
  Row 0xea4 0xea4 Disallowed [];
  Row 0xea5 0xea5 Valid [];
  Row 0xea6 0xea6 Disallowed [];
  Row 0xea7 0xea7 Valid [];
  Row 0xea8 0xea9 Valid [];
  Row 0xeaa 0xeab Valid [];
  Row 0xeac 0xeac Valid [];
  Row 0xead 0xeb2 Valid [];
  Row 0xeb3 0xeb3 Mapped [0xecd; 0xeb2];
  Row 0xeb4 0xeb9 Valid [];
  Row 0xeba 0xeba Valid [];
  Row 0xebb 0xebd Valid [];
  Row 0xebe 0xebf Disallowed [];
  Row 0xec0 0xec4 Valid [];
  Row 0xec5 0xec5 Disallowed [];
  Row 0xec6 0xec6 Valid [];
  Row 0xec7 0xec7 Disallowed [];
  Row 0xec8 0xecd Valid [];
  Row 0xece 0xecf Disallowed [];
  Row 0xed0 0xed9 Valid [];
  Row 0xeda 0xedb Disallowed [];
  Row 0xedc 0xedc Mapped [0xeab; 0xe99];
  Row 0xedd 0xedd Mapped [0xeab; 0xea1];
  Row 0xede 0xedf Valid [];
  Row 0xee0 0xeff Disallowed [];
  Row 0xf00 0xf00 Valid [];
  Row 0xf01 0xf0a Valid [];
  Row 0xf0b 0xf0b Valid [];
  Row 0xf0c 0xf0c Mapped [0xf0b];
  Row 0xf0d 0xf17 Valid [];
  Row 0xf18 0xf19 Valid [];
  Row 0xf1a 0xf1f Valid [];
  Row 0xf20 0xf29 Valid [];
  Row 0xf2a 0xf34 Valid [];
  Row 0xf35 0xf35 Valid [];
  Row 0xf36 0xf36 Valid [];
  Row 0xf37 0xf37 Valid [];
  Row 0xf38 0xf38 Valid [];
  Row 0xf39 0xf39 Valid [];
  Row 0xf3a 0xf3d Valid [];
  Row 0xf3e 0xf42 Valid [];
  Row 0xf43 0xf43 Mapped [0xf42; 0xfb7];
  Row 0xf44 0xf47 Valid [];
  Row 0xf48 0xf48 Disallowed [];
  Row 0xf49 0xf4c Valid [];
  Row 0xf4d 0xf4d Mapped [0xf4c; 0xfb7];
  Row 0xf4e 0xf51 Valid [];
  Row 0xf52 0xf52 Mapped [0xf51; 0xfb7];
  Row 0xf53 0xf56 Valid [];
  Row 0xf57 0xf57 Mapped [0xf56; 0xfb7];
  Row 0xf58 0xf5b Valid [];
  Row 0xf5c 0xf5c Mapped [0xf5b; 0xfb7]].
Definition idna_rows_14 : list row := [
  Row 0xf5d 0xf68 Valid [];
  Row 0xf69 0xf69 Mapped [0xf40; 0xfb5];
  Row 0xf6a 0xf6a Valid [];
  Row 0xf6b 0xf6c Valid [];
  Row 0xf6d 0xf70 Disallowed [];
  Row 0xf71 0xf72 Valid [];
  Row 0xf73 0xf73 Mapped [0xf71; 0xf72];
  Row 0xf74 0xf74 Valid [];
  Row 0xf75 0xf75 Mapped [0xf71; 0xf74];
  Row 0xf76 0xf76 Mapped [0xfb2; 0xf80];
  Row 0xf77 0xf77 Mapped [0xfb2; 0xf71; 0xf80];
  Row 0xf78 0xf78 Mapped [0xfb3; 0xf80];
  Row 0xf79 0xf79 Mapped [0xfb3; 0xf71; 0xf80];
  Row 0xf7a 0xf80 Valid [];
  Row 0xf81 0xf81 Mapped [0xf71; 0xf80];
  Row 0xf82 0xf84 Valid [];
  Row 0xf85 0xf85 Valid [];
  Row 0xf86 0xf8b Valid [];
  Row 0xf8c 0xf8f Valid [];
  Row 0xf90 0xf92 Valid [];
  Row 0xf93 0xf93 Mapped [0xf92; 0xfb7];
  Row 0xf94 0xf95 Valid [];
  Row 0xf96 0xf96 Valid [];
  Row 0xf97 0xf97 Valid [];
  Row 0xf98 0xf98 Disallowed [];
  Row 0xf99 0xf9c Valid [];
  Row 0xf9d 0xf9d Mapped [0xf9c; 0xfb7];
  Row 0xf9e 0xfa1 Valid [];
  Row 0xfa2 0xfa2 Mapped [0xfa1; 0xfb7];
  Row 0xfa3 0xfa6 Valid [];
  Row 0xfa7 0xfa7 Mapped [0xfa6; 0xfb7];
  Row 0xfa8 0xfab Valid [];
  Row 0xfac 0xfac Mapped [0xfab; 0xfb7];
  Row 0xfad 0xfad Valid [];
  Row 0xfae 0xfb0 Valid [];
  Row 0xfb1 0xfb7 Valid [];
  Row 0xfb8 0xfb8 Valid [];
  Row 0xfb9 0xfb9 Mapped [0xf90; 0xfb5];
  Row 0xfba 0xfbc Valid [];
  Row 0xfbd 0xfbd Disallowed [];
  Row 0xfbe 0xfc5 Valid [];
  Row 0xfc6 0xfc6 Valid [];
  Row 0xfc7 0xfcc Valid [];
  Row 0xfcd 0xfcd Disallowed [];
  Row 0xfce 0xfce Valid [];
  Row 0xfcf 0xfcf Valid [];
  Row 0xfd0 0xfd1 Valid [];
  Row 0xfd2 0xfd4 Valid [];
  Row 0xfd5 0xfd8 Valid [];
  Row 0xfd9 0xfda Valid [];
  Row 0xfdb 0xfff Disallowed [];
  Row 0x1000 0x1021 Valid [];
  Row 0x1022 0x1022 Valid [];
  Row 0x1023 0x1027 Valid [];
  Row 0x1028 0x1028 Valid [];
  Row 0x1029 0x102a Valid [];
  Row 0x102b 0x102b Valid [];
  Row 0x102c 0x1032 Valid [];
  Row 0x1033 0x1035 Valid [];
  Row 0x1036 0x1039 Valid [];
  Row 0x103a 0x103f Valid [];
  Row 0x1040 0x1049 Valid [];
  Row 0x104a 0x104f Valid [];
  Row 0x1050 0x1059 Valid [];
  Row 0x105a 0x1099 Valid [];
  Row 0x109a 0x109d Valid [];
  Row 0x109e 0x109f Valid [];
  Row 0x10a0 0x10c5 Disallowed [];
  Row 0x10c6 0x10c6 Disallowed [];
  Row 0x10c7 0x10c7 Mapped [0x2d27];
  Row 0x10c8 0x10cc Disallowed [];
  Row 0x10cd 0x10cd Mapped [0x2d2d];
  Row 0x10ce 0x10cf Disallowed [];
  Row 0x10d0 0x10f6 Valid [];
  Row 0x10f7 0x10f8 Valid [];
  Row 0x10f9 0x10fa Valid [];
  Row 0x10fb 0x10fb Valid [];
  Row 0x10fc 0x10fc Mapped [0x10dc];
  Row 0x10fd 0x10ff Valid [];
  Row 0x1100 0x1159 Valid [];
  Row 0x115a 0x115e Valid [];
  Row 0x115f 0x1160 Disallowed [];
  Row 0x1161 0x11a2 Valid [];
  Row 0x11a3 0x11a7 Valid [];
  Row 0x11a8 0x11f9 Valid [];
  Row 0x11fa 0x11ff Valid [];
  Row 0x1200 0x1206 Valid [];
  Row 0x1207 0x1207 Valid [];
  Row 0x1208 0x1246 Valid [];
  Row 0x1247 0x1247 Valid [];
  Row 0x1248 0x1248 Valid [];
  Row 0x1249 0x1249 Disallowed [];
  Row 0x124a 0x124d Valid [];
  Row 0x124e 0x124f Disallowed [];
  Row 0x1250 0x1256 Valid [];
  Row 0x1257 0x1257 Disallowed [];
  Row 0x1258 0x1258 Valid [];
  Row 0x1259 0x1259 Disallowed [];
  Row 0x125a 0x125d Valid [];
  Row 0x125e 0x125f Disallowed []].
Definition idna_rows_15 : list row := [
  Row 0x1260 0x1286 Valid [];
  Row 0x1287 0x1287 Valid [];
  Row 0x1288 0x1288 Valid [];
  Row 0x1289 0x1289 Disallowed [];
  Row 0x128a 0x128d Valid [];
  Row 0x128e 0x128f Disallowed [];
  Row 0x1290 0x12ae Valid [];
  Row 0x12af 0x12af Valid [];
  Row 0x12b0 0x12b0 Valid [];
  Row 0x12b1 0x12b1 Disallowed [];
  Row 0x12b2 0x12b5 Valid [];
  Row 0x12b6 0x12b7 Disallowed [];
  Row 0x12b8 0x12be Valid [];
  Row 0x12bf 0x12bf Disallowed [];
  Row 0x12c0 0x12c0 Valid [];
  Row 0x12c1 0x12c1 Disallowed [];
  Row 0x12c2 0x12c5 Valid [];
  Row 0x12c6 0x12c7 Disallowed [];
  Row 0x12c8 0x12ce Valid [];
  Row 0x12cf 0x12cf Valid [];
  Row 0x12d0 0x12d6 Valid [];
  Row 0x12d7 0x12d7 Disallowed [];
  Row 0x12d8 0x12ee Valid [];
  Row 0x12ef 0x12ef Valid [];
  Row 0x12f0 0x130e Valid [];
  Row 0x130f 0x130f Valid [];
  Row 0x1310 0x1310 Valid [];
  Row 0x1311 0x1311 Disallowed [];
  Row 0x1312 0x1315 Valid [];
  Row 0x1316 0x1317 Disallowed [];
  Row 0x1318 0x131e Valid [];
  Row 0x131f 0x131f Valid [];
  Row 0x1320 0x1346 Valid [];
  Row 0x1347 0x1347 Valid [];
  Row 0x1348 0x135a Valid [];
  Row 0x135b 0x135c Disallowed [];
  Row 0x135d 0x135e Valid [];
  Row 0x135f 0x135f Valid [];
  Row 0x1360 0x1360 Valid [];
  Row 0x1361 0x137c Valid [];
  Row 0x137d 0x137f Disallowed [];
  Row 0x1380 0x138f Valid [];
  Row 0x1390 0x1399 Valid [];
  Row 0x139a 0x139f Disallowed [];
  Row 0x13a0 0x13f4 Valid [];
  Row 0x13f5 0x13f5 Valid [];
  Row 0x13f6 0x13f7 Disallowed [];
  Row 0x13f8 0x13f8 Mapped [0x13f0];
  Row 0x13f9 0x13f9 Mapped [0x13f1];
  Row 0x13fa 0x13fa Mapped [0x13f2];
  Row 0x13fb 0x13fb Mapped [0x13f3];
  Row 0x13fc 0x13fc Mapped [0x13f4];
  Row 0x13fd 0x13fd Mapped [0x13f5];
  Row 0x13fe 0x13ff Disallowed [];
  Row 0x1400 0x1400 Valid [];
  Row 0x1401 0x166c Valid [];
  Row 0x166d 0x166e Valid [];
  Row 0x166f 0x1676 Valid [];
  Row 0x1677 0x167f Valid [];
  Row 0x1680 0x1680 Disallowed [];
  Row 0x1681 0x169a Valid [];
  Row 0x169b 0x169c Valid [];
  Row 0x169d 0x169f Disallowed [];
  Row 0x16a0 0x16ea Valid [];
  Row 0x16eb 0x16f0 Valid [];
  Row 0x16f1 0x16f8 Valid [];
  Row 0x16f9 0x16ff Disallowed [];
  Row 0x1700 0x170c Valid [];
  Row 0x170d 0x170d Disallowed [];
  Row 0x170e 0x1714 Valid [];
  Row 0x1715 0x171f Disallowed [];
  Row 0x1720 0x1734 Valid [];
  Row 0x1735 0x1736 Valid [];
  Row 0x1737 0x173f Disallowed [];
  Row 0x1740 0x1753 Valid [];
  Row 0x1754 0x175f Disallowed [];
  Row 0x1760 0x176c Valid [];
  Row 0x176d 0x176d Disallowed [];
  Row 0x176e 0x1770 Valid [];
  Row 0x1771 0x1771 Disallowed [];
  Row 0x1772 0x1773 Valid [];
  Row 0x1774 0x177f Disallowed [];
  Row 0x1780 0x17b3 Valid [];
  Row 0x17b4 0x17b5 Disallowed [];
  Row 0x17b6 0x17d3 Valid [];
  Row 0x17d4 0x17d6 Valid [];
  Row 0x17d7 0x17d7 Valid [];
  Row 0x17d8 0x17db Valid [];
  Row 0x17dc 0x17dc Valid [];
  Row 0x17dd 0x17dd Valid [];
  Row 0x17de 0x17df Disallowed [];
  Row 0x17e0 0x17e9 Valid [];
  Row 0x17ea 0x17ef Disallowed [];
  Row 0x17f0 0x17f9 Valid [];
  Row 0x17fa 0x17ff Disallowed [];
  Row 0x1800 0x1805 Valid [];
  Row 0x1806 0x1806 Disallowed [];
  Row 0x1807 0x180a Valid [];
  Row 0x180b 0x180d Ignored [];
  Row 0x180e 0x180e Disallowed []].
Definition idna_rows_16 : list row := [
  Row 0x180f 0x180f Disallowed [];
  Row 0x1810 0x1819 Valid [];
  Row 0x181a 0x181f Disallowed [];
  Row 0x1820 0x1877 Valid [];
  Row 0x1878 0x1878 Valid [];
  Row 0x1879 0x187f Disallowed [];
  Row 0x1880 0x18a9 Valid [];
  Row 0x18aa 0x18aa Valid [];
  Row 0x18ab 0x18af Disallowed [];
  Row 0x18b0 0x18f5 Valid [];
  Row 0x18f6 0x18ff Disallowed [];
  Row 0x1900 0x191c Valid [];
  Row 0x191d 0x191e Valid [];
  Row 0x191f 0x191f Disallowed [];
  Row 0x1920 0x192b Valid [];
  Row 0x192c 0x192f Disallowed [];
  Row 0x1930 0x193b Valid [];
  Row 0x193c 0x193f Disallowed [];
  Row 0x1940 0x1940 Valid [];
  Row 0x1941 0x1943 Disallowed [];
  Row 0x1944 0x1945 Valid [];
  Row 0x1946 0x196d Valid [];
  Row 0x196e 0x196f Disallowed [];
  Row 0x1970 0x1974 Valid [];
  Row 0x1975 0x197f Disallowed [];
  Row 0x1980 0x19a9 Valid [];
  Row 0x19aa 0x19ab Valid [];
  Row 0x19ac 0x19af Disallowed [];
  Row 0x19b0 0x19c9 Valid [];
  Row 0x19ca 0x19cf Disallowed [];
  Row 0x19d0 0x19d9 Valid [];
  Row 0x19da 0x19da Valid [];
  Row 0x19db 0x19dd Disallowed [];
  Row 0x19de 0x19df Valid [];
  Row 0x19e0 0x19ff Valid [];
  Row 0x1a00 0x1a1b Valid [];
  Row 0x1a1c 0x1a1d Disallowed [];
  Row 0x1a1e 0x1a1f Valid [];
  Row 0x1a20 0x1a5e Valid [];
  Row 0x1a5f 0x1a5f Disallowed [];
  Row 0x1a60 0x1a7c Valid [];
  Row 0x1a7d 0x1a7e Disallowed [];
  Row 0x1a7f 0x1a89 Valid [];
  Row 0x1a8a 0x1a8f Disallowed [];
  Row 0x1a90 0x1a99 Valid [];
  Row 0x1a9a 0x1a9f Disallowed [];
  Row 0x1aa0 0x1aa6 Valid [];
  Row 0x1aa7 0x1aa7 Valid [];
  Row 0x1aa8 0x1aad Valid [];
  Row 0x1aae 0x1aaf Disallowed [];
  Row 0x1ab0 0x1abd Valid [];
  Row 0x1abe 0x1abe Valid [];
  Row 0x1abf 0x1ac0 Valid [];
  Row 0x1ac1 0x1aff Disallowed [];
  Row 0x1b00 0x1b4b Valid [];
  Row 0x1b4c 0x1b4f Disallowed [];
  Row 0x1b50 0x1b59 Valid [];
  Row 0x1b5a 0x1b6a Valid [];
  Row 0x1b6b 0x1b73 Valid [];
  Row 0x1b74 0x1b7c Valid [];
  Row 0x1b7d 0x1b7f Disallowed [];
  Row 0x1b80 0x1baa Valid [];
  Row 0x1bab 0x1bad Valid [];
  Row 0x1bae 0x1bb9 Valid [];
  Row 0x1bba 0x1bbf Valid [];
  Row 0x1bc0 0x1bf3 Valid [];
  Row 0x1bf4 0x1bfb Disallowed [];
  Row 0x1bfc 0x1bff Valid [];
  Row 0x1c00 0x1c37 Valid [];
  Row 0x1c38 0x1c3a Disallowed [];
  Row 0x1c3b 0x1c3f Valid [];
  Row 0x1c40 0x1c49 Valid [];
  Row 0x1c4a 0x1c4c Disallowed [];
  Row 0x1c4d 0x1c7d Valid [];
  Row 0x1c7e 0x1c7f Valid [];
  Row 0x1c80 0x1c80 Mapped [0x432];
  Row 0x1c81 0x1c81 Mapped [0x434];
  Row 0x1c82 0x1c82 Mapped [0x43e];
  Row 0x1c83 0x1c83 Mapped [0x441];
  Row 0x1c84 0x1c85 Mapped [0x442];
  Row 0x1c86 0x1c86 Mapped [0x44a];
  Row 0x1c87 0x1c87 Mapped [0x463];
  Row 0x1c88 0x1c88 Mapped [0xa64b];
  Row 0x1c89 0x1c8f Disallowed [];
  Row 0x1c90 0x1c90 Mapped [0x10d0];
  Row 0x1c91 0x1c91 Mapped [0x10d1];
  Row 0x1c92 0x1c92 Mapped [0x10d2];
  Row 0x1c93 0x1c93 Mapped [0x10d3];
  Row 0x1c94 0x1c94 Mapped [0x10d4];
  Row 0x1c95 0x1c95 Mapped [0x10d5];
  Row 0x1c96 0x1c96 Mapped [0x10d6];
  Row 0x1c97 0x1c97 Mapped [0x10d7];
  Row 0x1c98 0x1c98 Mapped [0x10d8];
  Row 0x1c99 0x1c99 Mapped [0x10d9];
  Row 0x1c9a 0x1c9a Mapped [0x10da];
  Row 0x1c9b 0x1c9b Mapped [0x10db];
  Row 0x1c9c 0x1c9c Mapped [0x10dc];
  Row 0x1c9d 0x1c9d Mapped [0x10dd];
  Row 0x1c9e 0x1c9e Mapped [0x10de];
  Row 0x1c9f 0x1c9f Mapped [0x10df]].
Definition idna_rows_17 : list row := [
  Row 0x1ca0 0x1ca0 Mapped [0x10e0];
  Row 0x1ca1 0x1ca1 Mapped [0x10e1];
  Row 0x1ca2 0x1ca2 Mapped [0x10e2];
  Row 0x1ca3 0x1ca3 Mapped [0x10e3];
  Row 0x1ca4 0x1ca4 Mapped [0x10e4];
  Row 0x1ca5 0x1ca5 Mapped [0x10e5];
  Row 0x1ca6 0x1ca6 Mapped [0x10e6];
  Row 0x1ca7 0x1ca7 Mapped [0x10e7];
  Row 0x1ca8 0x1ca8 Mapped [0x10e8];
  Row 0x1ca9 0x1ca9 Mapped [0x10e9];
  Row 0x1caa 0x1caa Mapped [0x10ea];
  Row 0x1cab 0x1cab Mapped [0x10eb];
  Row 0x1cac 0x1cac Mapped [0x10ec];
  Row 0x1cad 0x1cad Mapped [0x10ed];
  Row 0x1cae 0x1cae Mapped [0x10ee];
  Row 0x1caf 0x1caf Mapped [0x10ef];
  Row 0x1cb0 0x1cb0 Mapped [0x10f0];
  Row 0x1cb1 0x1cb1 Mapped [0x10f1];
  Row 0x1cb2 0x1cb2 Mapped [0x10f2];
  Row 0x1cb3 0x1cb3 Mapped [0x10f3];
  Row 0x1cb4 0x1cb4 Mapped [0x10f4];
  Row 0x1cb5 0x1cb5 Mapped [0x10f5];
  Row 0x1cb6 0x1cb6 Mapped [0x10f6];
  Row 0x1cb7 0x1cb7 Mapped [0x10f7];
  Row 0x1cb8 0x1cb8 Mapped [0x10f8];
  Row 0x1cb9 0x1cb9 Mapped [0x10f9];
  Row 0x1cba 0x1cba Mapped [0x10fa];
  Row 0x1cbb 0x1cbc Disallowed [];
  Row 0x1cbd 0x1cbd Mapped [0x10fd];
  Row 0x1cbe 0x1cbe Mapped [0x10fe];
  Row 0x1cbf 0x1cbf Mapped [0x10ff];
  Row 0x1cc0 0x1cc7 Valid [];
  Row 0x1cc8 0x1ccf Disallowed [];
  Row 0x1cd0 0x1cd2 Valid [];
  Row 0x1cd3 0x1cd3 Valid [];
  Row 0x1cd4 0x1cf2 Valid [];
  Row 0x1cf3 0x1cf6 Valid [];
  Row 0x1cf7 0x1cf7 Valid [];
  Row 0x1cf8 0x1cf9 Valid [];
  Row 0x1cfa 0x1cfa Valid [];
  Row 0x1cfb 0x1cff Disallowed [];
  Row 0x1d00 0x1d2b Valid [];
  Row 0x1d2c 0x1d2c Mapped [0x61];
  Row 0x1d2d 0x1d2d Mapped [0xe6];
  Row 0x1d2e 0x1d2e Mapped [0x62];
  Row 0x1d2f 0x1d2f Valid [];
  Row 0x1d30 0x1d30 Mapped [0x64];
  Row 0x1d31 0x1d31 Mapped [0x65];
  Row 0x1d32 0x1d32 Mapped [0x1dd];
  Row 0x1d33 0x1d33 Mapped [0x67];
  Row 0x1d34 0x1d34 Mapped [0x68];
  Row 0x1d35 0x1d35 Mapped [0x69];
  Row 0x1d36 0x1d36 Mapped [0x6a];
  Row 0x1d37 0x1d37 Mapped [0x6b];
  Row 0x1d38 0x1d38 Mapped [0x6c];
  Row 0x1d39 0x1d39 Mapped [0x6d];
  Row 0x1d3a 0x1d3a Mapped [0x6e];
  Row 0x1d3b 0x1d3b Valid [];
  Row 0x1d3c 0x1d3c Mapped [0x6f];
  Row 0x1d3d 0x1d3d Mapped [0x223];
  Row 0x1d3e 0x1d3e Mapped [0x70];
  Row 0x1d3f 0x1d3f Mapped [0x72];
  Row 0x1d40 0x1d40 Mapped [0x74];
  Row 0x1d41 0x1d41 Mapped [0x75];
  Row 0x1d42 0x1d42 Mapped [0x77];
  Row 0x1d43 0x1d43 Mapped [0x61];
  Row 0x1d44 0x1d44 Mapped [0x250];
  Row 0x1d45 0x1d45 Mapped [0x251];
  Row 0x1d46 0x1d46 Mapped [0x1d02];
  Row 0x1d47 0x1d47 Mapped [0x62];
  Row 0x1d48 0x1d48 Mapped [0x64];
  Row 0x1d49 0x1d49 Mapped [0x65];
  Row 0x1d4a 0x1d4a Mapped [0x259];
  Row 0x1d4b 0x1d4b Mapped [0x25b];
  Row 0x1d4c 0x1d4c Mapped [0x25c];
  Row 0x1d4d 0x1d4d Mapped [0x67];
  Row 0x1d4e 0x1d4e Valid [];
  Row 0x1d4f 0x1d4f Mapped [0x6b];
  Row 0x1d50 0x1d50 Mapped [0x6d];
  Row 0x1d51 0x1d51 Mapped [0x14b];
  Row 0x1d52 0x1d52 Mapped [0x6f];
  Row 0x1d53 0x1d53 Mapped [0x254];
  Row 0x1d54 0x1d54 Mapped [0x1d16];
  Row 0x1d55 0x1d55 Mapped [0x1d17];
  Row 0x1d56 0x1d56 Mapped [0x70];
  Row 0x1d57 0x1d57 Mapped [0x74];
  Row 0x1d58 0x1d58 Mapped [0x75];
  Row 0x1d59 0x1d59 Mapped [0x1d1d];
  Row 0x1d5a 0x1d5a Mapped [0x26f];
  Row 0x1d5b 0x1d5b Mapped [0x76];
  Row 0x1d5c 0x1d5c Mapped [0x1d25];
  Row 0x1d5d 0x1d5d Mapped [0x3b2];
  Row 0x1d5e 0x1d5e Mapped [0x3b3];
  Row 0x1d5f 0x1d5f Mapped [0x3b4];
  Row 0x1d60 0x1d60 Mapped [0x3c6];
  Row 0x1d61 0x1d61 Mapped [0x3c7];
  Row 0x1d62 0x1d62 Mapped [0x69];
  Row 0x1d63 0x1d63 Mapped [0x72];
  Row 0x1d64 0x1d64 Mapped [0x75];
  Row 0x1d65 0x1d65 Mapped [0x76]].
Definition idna_rows_18 : list row := [
  Row 0x1d66 0x1d66 Mapped [0x3b2];
  Row 0x1d67 0x1d67 Mapped [0x3b3];
  Row 0x1d68 0x1d68 Mapped [0x3c1];
  Row 0x1d69 0x1d69 Mapped [0x3c6];
  Row 0x1d6a 0x1d6a Mapped [0x3c7];
  Row 0x1d6b 0x1d6b Valid [];
  Row 0x1d6c 0x1d77 Valid [];
  Row 0x1d78 0x1d78 Mapped [0x43d];
  Row 0x1d79 0x1d9a Valid [];
  Row 0x1d9b 0x1d9b Mapped [0x252];
  Row 0x1d9c 0x1d9c Mapped [0x63];
  Row 0x1d9d 0x1d9d Mapped [0x255];
  Row 0x1d9e 0x1d9e Mapped [0xf0];
  Row 0x1d9f 0x1d9f Mapped [0x25c];
  Row 0x1da0 0x1da0 Mapped [0x66];
  Row 0x1da1 0x1da1 Mapped [0x25f];
  Row 0x1da2 0x1da2 Mapped [0x261];
  Row 0x1da3 0x1da3 Mapped [0x265];
  Row 0x1da4 0x1da4 Mapped [0x268];
  Row 0x1da5 0x1da5 Mapped [0x269];
  Row 0x1da6 0x1da6 Mapped [0x26a];
  Row 0x1da7 0x1da7 Mapped [0x1d7b];
  Row 0x1da8 0x1da8 Mapped [0x29d];
  Row 0x1da9 0x1da9 Mapped [0x26d];
  Row 0x1daa 0x1daa Mapped [0x1d85];
  Row 0x1dab 0x1dab Mapped [0x29f];
  Row 0x1dac 0x1dac Mapped [0x271];
  Row 0x1dad 0x1dad Mapped [0x270];
  Row 0x1dae 0x1dae Mapped [0x272];
  Row 0x1daf 0x1daf Mapped [0x273];
  Row 0x1db0 0x1db0 Mapped [0x274];
  Row 0x1db1 0x1db1 Mapped [0x275];
  Row 0x1db2 0x1db2 Mapped [0x278];
  Row 0x1db3 0x1db3 Mapped [0x282];
  Row 0x1db4 0x1db4 Mapped [0x283];
  Row 0x1db5 0x1db5 Mapped [0x1ab];
  Row 0x1db6 0x1db6 Mapped [0x289];
  Row 0x1db7 0x1db7 Mapped [0x28a];
  Row 0x1db8 0x1db8 Mapped [0x1d1c];
  Row 0x1db9 0x1db9 Mapped [0x28b];
  Row 0x1dba 0x1dba Mapped [0x28c];
  Row 0x1dbb 0x1dbb Mapped [0x7a];
  Row 0x1dbc 0x1dbc Mapped [0x290];
  Row 0x1dbd 0x1dbd Mapped [0x291];
  Row 0x1dbe 0x1dbe Mapped [0x292];
  Row 0x1dbf 0x1dbf Mapped [0x3b8];
  Row 0x1dc0 0x1dc3 Valid [];
  Row 0x1dc4 0x1dca Valid [];
  Row 0x1dcb 0x1de6 Valid [];
  Row 0x1de7 0x1df5 Valid [];
  Row 0x1df6 0x1df9 Valid [];
  Row 0x1dfa 0x1dfa Disallowed [];
  Row 0x1dfb 0x1dfb Valid [];
  Row 0x1dfc 0x1dfc Valid [];
  Row 0x1dfd 0x1dfd Valid [];
  Row 0x1dfe 0x1dff Valid [];
  Row 0x1e00 0x1e00 Mapped [0x1e01];
  Row 0x1e01 0x1e01 Valid [];
  Row 0x1e02 0x1e02 Mapped [0x1e03];
  Row 0x1e03 0x1e03 Valid [];
  Row 0x1e04 0x1e04 Mapped [0x1e05];
  Row 0x1e05 0x1e05 Valid [];
  Row 0x1e06 0x1e06 Mapped [0x1e07];
  Row 0x1e07 0x1e07 Valid [];
  Row 0x1e08 0x1e08 Mapped [0x1e09];
  Row 0x1e09 0x1e09 Valid [];
  Row 0x1e0a 0x1e0a Mapped [0x1e0b];
  Row 0x1e0b 0x1e0b Valid [];
  Row 0x1e0c 0x1e0c Mapped [0x1e0d];
  Row 0x1e0d 0x1e0d Valid [];
  Row 0x1e0e 0x1e0e Mapped [0x1e0f];
  Row 0x1e0f 0x1e0f Valid [];
  Row 0x1e10 0x1e10 Mapped [0x1e11];
  Row 0x1e11 0x1e11 Valid [];
  Row 0x1e12 0x1e12 Mapped [0x1e13];
  Row 0x1e13 0x1e13 Valid [];
  Row 0x1e14 0x1e14 Mapped [0x1e15];
  Row 0x1e15 0x1e15 Valid [];
  Row 0x1e16 0x1e16 Mapped [0x1e17];
  Row 0x1e17 0x1e17 Valid [];
  Row 0x1e18 0x1e18 Mapped [0x1e19];
  Row 0x1e19 0x1e19 Valid [];
  Row 0x1e1a 0x1e1a Mapped [0x1e1b];
  Row 0x1e1b 0x1e1b Valid [];
  Row 0x1e1c 0x1e1c Mapped [0x1e1d];
  Row 0x1e1d 0x1e1d Valid [];
  Row 0x1e1e 0x1e1e Mapped [0x1e1f];
  Row 0x1e1f 0x1e1f Valid [];
  Row 0x1e20 0x1e20 Mapped [0x1e21];
  Row 0x1e21 0x1e21 Valid [];
  Row 0x1e22 0x1e22 Mapped [0x1e23];
  Row 0x1e23 0x1e23 Valid [];
  Row 0x1e24 0x1e24 Mapped [0x1e25];
  Row 0x1e25 0x1e25 Valid [];
  Row 0x1e26 0x1e26 Mapped [0x1e27];
  Row 0x1e27 0x1e27 Valid [];
  Row 0x1e28 0x1e28 Mapped [0x1e29];
  Row 0x1e29 0x1e29 Valid [];
  Row 0x1e2a 0x1e2a Mapped [0x1e2b];
  Row 0x1e2b 0x1e2b Valid []].
Definition idna_rows_19 : list row := [
  Row 0x1e2c 0x1e2c Mapped [0x1e2d];
  Row 0x1e2d 0x1e2d Valid [];
  Row 0x1e2e 0x1e2e Mapped [0x1e2f];
  Row 0x1e2f 0x1e2f Valid [];
  Row 0x1e30 0x1e30 Mapped [0x1e31];
  Row 0x1e31 0x1e31 Valid [];
  Row 0x1e32 0x1e32 Mapped [0x1e33];
  Row 0x1e33 0x1e33 Valid [];
  Row 0x1e34 0x1e34 Mapped [0x1e35];
  Row 0x1e35 0x1e35 Valid [];
  Row 0x1e36 0x1e36 Mapped [0x1e37];
  Row 0x1e37 0x1e37 Valid [];
  Row 0x1e38 0x1e38 Mapped [0x1e39];
  Row 0x1e39 0x1e39 Valid [];
  Row 0x1e3a 0x1e3a Mapped [0x1e3b];
  Row 0x1e3b 0x1e3b Valid [];
  Row 0x1e3c 0x1e3c Mapped [0x1e3d];
  Row 0x1e3d 0x1e3d Valid [];
  Row 0x1e3e 0x1e3e Mapped [0x1e3f];
  Row 0x1e3f 0x1e3f Valid [];
  Row 0x1e40 0x1e40 Mapped [0x1e41];
  Row 0x1e41 0x1e41 Valid [];
  Row 0x1e42 0x1e42 Mapped [0x1e43];
  Row 0x1e43 0x1e43 Valid [];
  Row 0x1e44 0x1e44 Mapped [0x1e45];
  Row 0x1e45 0x1e45 Valid [];
  Row 0x1e46 0x1e46 Mapped [0x1e47];
  Row 0x1e47 0x1e47 Valid [];
  Row 0x1e48 0x1e48 Mapped [0x1e49];
  Row 0x1e49 0x1e49 Valid [];
  Row 0x1e4a 0x1e4a Mapped [0x1e4b];
  Row 0x1e4b 0x1e4b Valid [];
  Row 0x1e4c 0x1e4c Mapped [0x1e4d];
  Row 0x1e4d 0x1e4d Valid [];
  Row 0x1e4e 0x1e4e Mapped [0x1e4f];
  Row 0x1e4f 0x1e4f Valid [];
  Row 0x1e50 0x1e50 Mapped [0x1e51];
  Row 0x1e51 0x1e51 Valid [];
  Row 0x1e52 0x1e52 Mapped [0x1e53];
  Row 0x1e53 0x1e53 Valid [];
  Row 0x1e54 0x1e54 Mapped [0x1e55];
  Row 0x1e55 0x1e55 Valid [];
  Row 0x1e56 0x1e56 Mapped [0x1e57];
  Row 0x1e57 0x1e57 Valid [];
  Row 0x1e58 0x1e58 Mapped [0x1e59];
  Row 0x1e59 0x1e59 Valid [];
  Row 0x1e5a 0x1e5a Mapped [0x1e5b];
  Row 0x1e5b 0x1e5b Valid [];
  Row 0x1e5c 0x1e5c Mapped [0x1e5d];
  Row 0x1e5d 0x1e5d Valid [];
  Row 0x1e5e 0x1e5e Mapped [0x1e5f];
  Row 0x1e5f 0x1e5f Valid [];
  Row 0x1e60 0x1e60 Mapped [0x1e61];
  Row 0x1e61 0x1e61 Valid [];
  Row 0x1e62 0x1e62 Mapped [0x1e63];
  Row 0x1e63 0x1e63 Valid [];
  Row 0x1e64 0x1e64 Mapped [0x1e65];
  Row 0x1e65 0x1e65 Valid [];
  Row 0x1e66 0x1e66 Mapped [0x1e67];
  Row 0x1e67 0x1e67 Valid [];
  Row 0x1e68 0x1e68 Mapped [0x1e69];
  Row 0x1e69 0x1e69 Valid [];
  Row 0x1e6a 0x1e6a Mapped [0x1e6b];
  Row 0x1e6b 0x1e6b Valid [];
  Row 0x1e6c 0x1e6c Mapped [0x1e6d];
  Row 0x1e6d 0x1e6d Valid [];
  Row 0x1e6e 0x1e6e Mapped [0x1e6f];
  Row 0x1e6f 0x1e6f Valid [];
  Row 0x1e70 0x1e70 Mapped [0x1e71];
  Row 0x1e71 0x1e71 Valid [];
  Row 0x1e72 0x1e72 Mapped [0x1e73];
  Row 0x1e73 0x1e73 Valid [];
  Row 0x1e74 0x1e74 Mapped [0x1e75];
  Row 0x1e75 0x1e75 Valid [];
  Row 0x1e76 0x1e76 Mapped [0x1e77];
  Row 0x1e77 0x1e77 Valid [];
  Row 0x1e78 0x1e78 Mapped [0x1e79];
  Row 0x1e79 0x1e79 Valid [];
  Row 0x1e7a 0x1e7a Mapped [0x1e7b];
  Row 0x1e7b 0x1e7b Valid [];
  Row 0x1e7c 0x1e7c Mapped [0x1e7d];
  Row 0x1e7d 0x1e7d Valid [];
  Row 0x1e7e 0x1e7e Mapped [0x1e7f];
  Row 0x1e7f 0x1e7f Valid [];
  Row 0x1e80 0x1e80 Mapped [0x1e81];
  Row 0x1e81 0x1e81 Valid [];
  Row 0x1e82 0x1e82 Mapped [0x1e83];
  Row 0x1e83 0x1e83 Valid [];
  Row 0x1e84 0x1e84 Mapped [0x1e85];
  Row 0x1e85 0x1e85 Valid [];
  Row 0x1e86 0x1e86 Mapped [0x1e87];
  Row 0x1e87 0x1e87 Valid [];
  Row 0x1e88 0x1e88 Mapped [0x1e89];
  Row 0x1e89 0x1e89 Valid [];
  Row 0x1e8a 0x1e8a Mapped [0x1e8b];
  Row 0x1e8b 0x1e8b Valid [];
  Row 0x1e8c 0x1e8c Mapped [0x1e8d];
  Row 0x1e8d 0x1e8d Valid [];
  Row 0x1e8e 0x1e8e Mapped [0x1e8f];
  Row 0x1e8f 0x1e8f Valid []].
Definition idna_rows_20 : list row := [
  Row 0x1e90 0x1e90 Mapped [0x1e91];
  Row 0x1e91 0x1e91 Valid [];
  Row 0x1e92 0x1e92 Mapped [0x1e93];
  Row 0x1e93 0x1e93 Valid [];
  Row 0x1e94 0x1e94 Mapped [0x1e95];
  Row 0x1e95 0x1e99 Valid [];
  Row 0x1e9a 0x1e9a Mapped [0x61; 0x2be];
  Row 0x1e9b 0x1e9b Mapped [0x1e61];
  Row 0x1e9c 0x1e9d Valid [];
  Row 0x1e9e 0x1e9e Mapped [0x73; 0x73];
  Row 0x1e9f 0x1e9f Valid [];
  Row 0x1ea0 0x1ea0 Mapped [0x1ea1];
  Row 0x1ea1 0x1ea1 Valid [];
  Row 0x1ea2 0x1ea2 Mapped [0x1ea3];
  Row 0x1ea3 0x1ea3 Valid [];
  Row 0x1ea4 0x1ea4 Mapped [0x1ea5];
  Row 0x1ea5 0x1ea5 Valid [];
  Row 0x1ea6 0x1ea6 Mapped [0x1ea7];
  Row 0x1ea7 0x1ea7 Valid [];
  Row 0x1ea8 0x1ea8 Mapped [0x1ea9];
  Row 0x1ea9 0x1ea9 Valid [];
  Row 0x1eaa 0x1eaa Mapped [0x1eab];
  Row 0x1eab 0x1eab Valid [];
  Row 0x1eac 0x1eac Mapped [0x1ead];
  Row 0x1ead 0x1ead Valid [];
  Row 0x1eae 0x1eae Mapped [0x1eaf];
  Row 0x1eaf 0x1eaf Valid [];
  Row 0x1eb0 0x1eb0 Mapped [0x1eb1];
  Row 0x1eb1 0x1eb1 Valid [];
  Row 0x1eb2 0x1eb2 Mapped [0x1eb3];
  Row 0x1eb3 0x1eb3 Valid [];
  Row 0x1eb4 0x1eb4 Mapped [0x1eb5];
  Row 0x1eb5 0x1eb5 Valid [];
  Row 0x1eb6 0x1eb6 Mapped [0x1eb7];
  Row 0x1eb7 0x1eb7 Valid [];
  Row 0x1eb8 0x1eb8 Mapped [0x1eb9];
  Row 0x1eb9 0x1eb9 Valid [];
  Row 0x1eba 0x1eba Mapped [0x1ebb];
  Row 0x1ebb 0x1ebb Valid [];
  Row 0x1ebc 0x1ebc Mapped [0x1ebd];
  Row 0x1ebd 0x1ebd Valid [];
  Row 0x1ebe 0x1ebe Mapped [0x1ebf];
  Row 0x1ebf 0x1ebf Valid [];
  Row 0x1ec0 0x1ec0 Mapped [0x1ec1];
  Row 0x1ec1 0x1ec1 Valid [];
  Row 0x1ec2 0x1ec2 Mapped [0x1ec3];
  Row 0x1ec3 0x1ec3 Valid [];
  Row 0x1ec4 0x1ec4 Mapped [0x1ec5];
  Row 0x1ec5 0x1ec5 Valid [];
  Row 0x1ec6 0x1ec6 Mapped [0x1ec7];
  Row 0x1ec7 0x1ec7 Valid [];
  Row 0x1ec8 0x1ec8 Mapped [0x1ec9];
  Row 0x1ec9 0x1ec9 Valid [];
  Row 0x1eca 0x1eca Mapped [0x1ecb];
  Row 0x1ecb 0x1ecb Valid [];
  Row 0x1ecc 0x1ecc Mapped [0x1ecd];
  Row 0x1ecd 0x1ecd Valid [];
  Row 0x1ece 0x1ece Mapped [0x1ecf];
  Row 0x1ecf 0x1ecf Valid [];
  Row 0x1ed0 0x1ed0 Mapped [0x1ed1];
  Row 0x1ed1 0x1ed1 Valid [];
  Row 0x1ed2 0x1ed2 Mapped [0x1ed3];
  Row 0x1ed3 0x1ed3 Valid [];
  Row 0x1ed4 0x1ed4 Mapped [0x1ed5];
  Row 0x1ed5 0x1ed5 Valid [];
  Row 0x1ed6 0x1ed6 Mapped [0x1ed7];
  Row 0x1ed7 0x1ed7 Valid [];
  Row 0x1ed8 0x1ed8 Mapped [0x1ed9];
  Row 0x1ed9 0x1ed9 Valid [];
  Row 0x1eda 0x1eda Mapped [0x1edb];
  Row 0x1edb 0x1edb Valid [];
  Row 0x1edc 0x1edc Mapped [0x1edd];
  Row 0x1edd 0x1edd Valid [];
  Row 0x1ede 0x1ede Mapped [0x1edf];
  Row 0x1edf 0x1edf Valid [];
  Row 0x1ee0 0x1ee0 Mapped [0x1ee1];
  Row 0x1ee1 0x1ee1 Valid [];
  Row 0x1ee2 0x1ee2 Mapped [0x1ee3];
  Row 0x1ee3 0x1ee3 Valid [];
  Row 0x1ee4 0x1ee4 Mapped [0x1ee5];
  Row 0x1ee5 0x1ee5 Valid [];
  Row 0x1ee6 0x1ee6 Mapped [0x1ee7];
  Row 0x1ee7 0x1ee7 Valid [];
  Row 0x1ee8 0x1ee8 Mapped [0x1ee9];
  Row 0x1ee9 0x1ee9 Valid [];
  Row 0x1eea 0x1eea Mapped [0x1eeb];
  Row 0x1eeb 0x1eeb Valid [];
  Row 0x1eec 0x1eec Mapped [0x1eed];
  Row 0x1eed 0x1eed Valid [];
  Row 0x1eee 0x1eee Mapped [0x1eef];
  Row 0x1eef 0x1eef Valid [];
  Row 0x1ef0 0x1ef0 Mapped [0x1ef1];
  Row 0x1ef1 0x1ef1 Valid [];
  Row 0x1ef2 0x1ef2 Mapped [0x1ef3];
  Row 0x1ef3 0x1ef3 Valid [];
  Row 0x1ef4 0x1ef4 Mapped [0x1ef5];
  Row 0x1ef5 0x1ef5 Valid [];
  Row 0x1ef6 0x1ef6 Mapped [0x1ef7];
  Row 0x1ef7 0x1ef7 Valid [];
  Row 0x1ef8 0x1ef8 Mapped [0x1ef9]].
Definition idna_rows_21 : list row := [
  Row 0x1ef9 0x1ef9 Valid [];
  Row 0x1efa 0x1efa Mapped [0x1efb];
  Row 0x1efb 0x1efb Valid [];
  Row 0x1efc 0x1efc Mapped [0x1efd];
  Row 0x1efd 0x1efd Valid [];
  Row 0x1efe 0x1efe Mapped [0x1eff];
  Row 0x1eff 0x1eff Valid [];
  Row 0x1f00 0x1f07 Valid [];
  Row 0x1f08 0x1f08 Mapped [0x1f00];
  Row 0x1f09 0x1f09 Mapped [0x1f01];
  Row 0x1f0a 0x1f0a Mapped [0x1f02];
  Row 0x1f0b 0x1f0b Mapped [0x1f03];
  Row 0x1f0c 0x1f0c Mapped [0x1f04];
  Row 0x1f0d 0x1f0d Mapped [0x1f05];
  Row 0x1f0e 0x1f0e Mapped [0x1f06];
  Row 0x1f0f 0x1f0f Mapped [0x1f07];
  Row 0x1f10 0x1f15 Valid [];
  Row 0x1f16 0x1f17 Disallowed [];
  Row 0x1f18 0x1f18 Mapped [0x1f10];
  Row 0x1f19 0x1f19 Mapped [0x1f11];
  Row 0x1f1a 0x1f1a Mapped [0x1f12];
  Row 0x1f1b 0x1f1b Mapped [0x1f13];
  Row 0x1f1c 0x1f1c Mapped [0x1f14];
  Row 0x1f1d 0x1f1d Mapped [0x1f15];
  Row 0x1f1e 0x1f1f Disallowed [];
  Row 0x1f20 0x1f27 Valid [];
  Row 0x1f28 0x1f28 Mapped [0x1f20];
  Row 0x1f29 0x1f29 Mapped [0x1f21];
  Row 0x1f2a 0x1f2a Mapped [0x1f22];
  Row 0x1f2b 0x1f2b Mapped [0x1f23];
  Row 0x1f2c 0x1f2c Mapped [0x1f24];
  Row 0x1f2d 0x1f2d Mapped [0x1f25];
  Row 0x1f2e 0x1f2e Mapped [0x1f26];
  Row 0x1f2f 0x1f2f Mapped [0x1f27];
  Row 0x1f30 0x1f37 Valid [];
  Row 0x1f38 0x1f38 Mapped [0x1f30];
  Row 0x1f39 0x1f39 Mapped [0x1f31];
  Row 0x1f3a 0x1f3a Mapped [0x1f32];
  Row 0x1f3b 0x1f3b Mapped [0x1f33];
  Row 0x1f3c 0x1f3c Mapped [0x1f34];
  Row 0x1f3d 0x1f3d Mapped [0x1f35];
  Row 0x1f3e 0x1f3e Mapped [0x1f36];
  Row 0x1f3f 0x1f3f Mapped [0x1f37];
  Row 0x1f40 0x1f45 Valid [];
  Row 0x1f46 0x1f47 Disallowed [];
  Row 0x1f48 0x1f48 Mapped [0x1f40];
  Row 0x1f49 0x1f49 Mapped [0x1f41];
  Row 0x1f4a 0x1f4a Mapped [0x1f42];
  Row 0x1f4b 0x1f4b Mapped [0x1f43];
  Row 0x1f4c 0x1f4c Mapped [0x1f44];
  Row 0x1f4d 0x1f4d Mapped [0x1f45];
  Row 0x1f4e 0x1f4f Disallowed [];
  Row 0x1f50 0x1f57 Valid [];
  Row 0x1f58 0x1f58 Disallowed [];
  Row 0x1f59 0x1f59 Mapped [0x1f51];
  Row 0x1f5a 0x1f5a Disallowed [];
  Row 0x1f5b 0x1f5b Mapped [0x1f53];
  Row 0x1f5c 0x1f5c Disallowed [];
  Row 0x1f5d 0x1f5d Mapped [0x1f55];
  Row 0x1f5e 0x1f5e Disallowed [];
  Row 0x1f5f 0x1f5f Mapped [0x1f57];
  Row 0x1f60 0x1f67 Valid [];
  Row 0x1f68 0x1f68 Mapped [0x1f60];
  Row 0x1f69 0x1f69 Mapped [0x1f61];
  Row 0x1f6a 0x1f6a Mapped [0x1f62];
  Row 0x1f6b 0x1f6b Mapped [0x1f63];
  Row 0x1f6c 0x1f6c Mapped [0x1f64];
  Row 0x1f6d 0x1f6d Mapped [0x1f65];
  Row 0x1f6e 0x1f6e Mapped [0x1f66];
  Row 0x1f6f 0x1f6f Mapped [0x1f67];
  Row 0x1f70 0x1f70 Valid [];
  Row 0x1f71 0x1f71 Mapped [0x3ac];
  Row 0x1f72 0x1f72 Valid [];
  Row 0x1f73 0x1f73 Mapped [0x3ad];
  Row 0x1f74 0x1f74 Valid [];
  Row 0x1f75 0x1f75 Mapped [0x3ae];
  Row 0x1f76 0x1f76 Valid [];
  Row 0x1f77 0x1f77 Mapped [0x3af];
  Row 0x1f78 0x1f78 Valid [];
  Row 0x1f79 0x1f79 Mapped [0x3cc];
  Row 0x1f7a 0x1f7a Valid [];
  Row 0x1f7b 0x1f7b Mapped [0x3cd];
  Row 0x1f7c 0x1f7c Valid [];
  Row 0x1f7d 0x1f7d Mapped [0x3ce];
  Row 0x1f7e 0x1f7f Disallowed [];
  Row 0x1f80 0x1f80 Mapped [0x1f00; 0x3b9];
  Row 0x1f81 0x1f81 Mapped [0x1f01; 0x3b9];
  Row 0x1f82 0x1f82 Mapped [0x1f02; 0x3b9];
  Row 0x1f83 0x1f83 Mapped [0x1f03; 0x3b9];
  Row 0x1f84 0x1f84 Mapped [0x1f04; 0x3b9];
  Row 0x1f85 0x1f85 Mapped [0x1f05; 0x3b9];
  Row 0x1f86 0x1f86 Mapped [0x1f06; 0x3b9];
  Row 0x1f87 0x1f87 Mapped [0x1f07; 0x3b9];
  Row 0x1f88 0x1f88 Mapped [0x1f00; 0x3b9];
  Row 0x1f89 0x1f89 Mapped [0x1f01; 0x3b9];
  Row 0x1f8a 0x1f8a Mapped [0x1f02; 0x3b9];
  Row 0x1f8b 0x1f8b Mapped [0x1f03; 0x3b9];
  Row 0x1f8c 0x1f8c Mapped [0x1f04; 0x3b9];
  Row 0x1f8d 0x1f8d Mapped [0x1f05; 0x3b9];
  Row 0x1f8e 0x1f8e Mapped [0x1f06; 0x3b9]].
Definition idna_rows_22 : list row := [
  Row 0x1f8f 0x1f8f Mapped [0x1f07; 0x3b9];
  Row 0x1f90 0x1f90 Mapped [0x1f20; 0x3b9];
  Row 0x1f91 0x1f91 Mapped [0x1f21; 0x3b9];
  Row 0x1f92 0x1f92 Mapped [0x1f22; 0x3b9];
  Row 0x1f93 0x1f93 Mapped [0x1f23; 0x3b9];
  Row 0x1f94 0x1f94 Mapped [0x1f24; 0x3b9];
  Row 0x1f95 0x1f95 Mapped [0x1f25; 0x3b9];
  Row 0x1f96 0x1f96 Mapped [0x1f26; 0x3b9];
  Row 0x1f97 0x1f97 Mapped [0x1f27; 0x3b9];
  Row 0x1f98 0x1f98 Mapped [0x1f20; 0x3b9];
  Row 0x1f99 0x1f99 Mapped [0x1f21; 0x3b9];
  Row 0x1f9a 0x1f9a Mapped [0x1f22; 0x3b9];
  Row 0x1f9b 0x1f9b Mapped [0x1f23; 0x3b9];
  Row 0x1f9c 0x1f9c Mapped [0x1f24; 0x3b9];
  Row 0x1f9d 0x1f9d Mapped [0x1f25; 0x3b9];
  Row 0x1f9e 0x1f9e Mapped [0x1f26; 0x3b9];
  Row 0x1f9f 0x1f9f Mapped [0x1f27; 0x3b9];
  Row 0x1fa0 0x1fa0 Mapped [0x1f60; 0x3b9];
  Row 0x1fa1 0x1fa1 Mapped [0x1f61; 0x3b9];
  Row 0x1fa2 0x1fa2 Mapped [0x1f62; 0x3b9];
  Row 0x1fa3 0x1fa3 Mapped [0x1f63; 0x3b9];
  Row 0x1fa4 0x1fa4 Mapped [0x1f64; 0x3b9];
  Row 0x1fa5 0x1fa5 Mapped [0x1f65; 0x3b9];
  Row 0x1fa6 0x1fa6 Mapped [0x1f66; 0x3b9];
  Row 0x1fa7 0x1fa7 Mapped [0x1f67; 0x3b9];
  Row 0x1fa8 0x1fa8 Mapped [0x1f60; 0x3b9];
  Row 0x1fa9 0x1fa9 Mapped [0x1f61; 0x3b9];
  Row 0x1faa 0x1faa Mapped [0x1f62; 0x3b9];
  Row 0x1fab 0x1fab Mapped [0x1f63; 0x3b9];
  Row 0x1fac 0x1fac Mapped [0x1f64; 0x3b9];
  Row 0x1fad 0x1fad Mapped [0x1f65; 0x3b9];
  Row 0x1fae 0x1fae Mapped [0x1f66; 0x3b9];
  Row 0x1faf 0x1faf Mapped [0x1f67; 0x3b9];
  Row 0x1fb0 0x1fb1 Valid [];
  Row 0x1fb2 0x1fb2 Mapped [0x1f70; 0x3b9];
  Row 0x1fb3 0x1fb3 Mapped [0x3b1; 0x3b9];
  Row 0x1fb4 0x1fb4 Mapped [0x3ac; 0x3b9];
  Row 0x1fb5 0x1fb5 Disallowed [];
  Row 0x1fb6 0x1fb6 Valid [];
  Row 0x1fb7 0x1fb7 Mapped [0x1fb6; 0x3b9];
  Row 0x1fb8 0x1fb8 Mapped [0x1fb0];
  Row 0x1fb9 0x1fb9 Mapped [0x1fb1];
  Row 0x1fba 0x1fba Mapped [0x1f70];
  Row 0x1fbb 0x1fbb Mapped [0x3ac];
  Row 0x1fbc 0x1fbc Mapped [0x3b1; 0x3b9];
  Row 0x1fbd 0x1fbd Std3Mapped [0x20; 0x313];
  Row 0x1fbe 0x1fbe Mapped [0x3b9];
  Row 0x1fbf 0x1fbf Std3Mapped [0x20; 0x313];
  Row 0x1fc0 0x1fc0 Std3Mapped [0x20; 0x342];
  Row 0x1fc1 0x1fc1 Std3Mapped [0x20; 0x308; 0x342];
  Row 0x1fc2 0x1fc2 Mapped [0x1f74; 0x3b9];
  Row 0x1fc3 0x1fc3 Mapped [0x3b7; 0x3b9];
  Row 0x1fc4 0x1fc4 Mapped [0x3ae; 0x3b9];
  Row 0x1fc5 0x1fc5 Disallowed [];
  Row 0x1fc6 0x1fc6 Valid [];
  Row 0x1fc7 0x1fc7 Mapped [0x1fc6; 0x3b9];
  Row 0x1fc8 0x1fc8 Mapped [0x1f72];
  Row 0x1fc9 0x1fc9 Mapped [0x3ad];
  Row 0x1fca 0x1fca Mapped [0x1f74];
  Row 0x1fcb 0x1fcb Mapped [0x3ae];
  Row 0x1fcc 0x1fcc Mapped [0x3b7; 0x3b9];
  Row 0x1fcd 0x1fcd Std3Mapped [0x20; 0x313; 0x300];
  Row 0x1fce 0x1fce Std3Mapped [0x20; 0x313; 0x301];
  Row 0x1fcf 0x1fcf Std3Mapped [0x20; 0x313; 0x342];
  Row 0x1fd0 0x1fd2 Valid [];
  Row 0x1fd3 0x1fd3 Mapped [0x390];
  Row 0x1fd4 0x1fd5 Disallowed [];
  Row 0x1fd6 0x1fd7 Valid [];
  Row 0x1fd8 0x1fd8 Mapped [0x1fd0];
  Row 0x1fd9 0x1fd9 Mapped [0x1fd1];
  Row 0x1fda 0x1fda Mapped [0x1f76];
  Row 0x1fdb 0x1fdb Mapped [0x3af];
  Row 0x1fdc 0x1fdc Disallowed [];
  Row 0x1fdd 0x1fdd Std3Mapped [0x20; 0x314; 0x300];
  Row 0x1fde 0x1fde Std3Mapped [0x20; 0x314; 0x301];
  Row 0x1fdf 0x1fdf Std3Mapped [0x20; 0x314; 0x342];
  Row 0x1fe0 0x1fe2 Valid [];
  Row 0x1fe3 0x1fe3 Mapped [0x3b0];
  Row 0x1fe4 0x1fe7 Valid [];
  Row 0x1fe8 0x1fe8 Mapped [0x1fe0];
  Row 0x1fe9 0x1fe9 Mapped [0x1fe1];
  Row 0x1fea 0x1fea Mapped [0x1f7a];
  Row 0x1feb 0x1feb Mapped [0x3cd];
  Row 0x1fec 0x1fec Mapped [0x1fe5];
  Row 0x1fed 0x1fed Std3Mapped [0x20; 0x308; 0x300];
  Row 0x1fee 0x1fee Std3Mapped [0x20; 0x308; 0x301];
  Row 0x1fef 0x1fef Std3Mapped [0x60];
  Row 0x1ff0 0x1ff1 Disallowed [];
  Row 0x1ff2 0x1ff2 Mapped [0x1f7c; 0x3b9];
  Row 0x1ff3 0x1ff3 Mapped [0x3c9; 0x3b9];
  Row 0x1ff4 0x1ff4 Mapped [0x3ce; 0x3b9];
  Row 0x1ff5 0x1ff5 Disallowed [];
  Row 0x1ff6 0x1ff6 Valid [];
  Row 0x1ff7 0x1ff7 Mapped [0x1ff6; 0x3b9];
  Row 0x1ff8 0x1ff8 Mapped [0x1f78];
  Row 0x1ff9 0x1ff9 Mapped [0x3cc];
  Row 0x1ffa 0x1ffa Mapped [0x1f7c];
  Row 0x1ffb 0x1ffb Mapped [0x3ce];
  Row 0x1ffc 0x1ffc Mapped [0x3c9; 0x3b9];
  Row 0x1ffd 0x1ffd Std3Mapped [0x20; 0x301]].
Definition idna_rows_23 : list row := [
  Row 0x1ffe 0x1ffe Std3Mapped [0x20; 0x314];
  Row 0x1fff 0x1fff Disallowed [];
  Row 0x2000 0x200a Std3Mapped [0x20];
  Row 0x200b 0x200b Ignored [];
  Row 0x200c 0x200d Deviation [];
  Row 0x200e 0x200f Disallowed [];
  Row 0x2010 0x2010 Valid [];
  Row 0x2011 0x2011 Mapped [0x2010];
  Row 0x2012 0x2016 Valid [];
  Row 0x2017 0x2017 Std3Mapped [0x20; 0x333];
  Row 0x2018 0x2023 Valid [];
  Row 0x2024 0x2026 Disallowed [];
  Row 0x2027 0x2027 Valid [];
  Row 0x2028 0x202e Disallowed [];
  Row 0x202f 0x202f Std3Mapped [0x20];
  Row 0x2030 0x2032 Valid [];
  Row 0x2033 0x2033 Mapped [0x2032; 0x2032];
  Row 0x2034 0x2034 Mapped [0x2032; 0x2032; 0x2032];
  Row 0x2035 0x2035 Valid [];
  Row 0x2036 0x2036 Mapped [0x2035; 0x2035];
  Row 0x2037 0x2037 Mapped [0x2035; 0x2035; 0x2035];
  Row 0x2038 0x203b Valid [];
  Row 0x203c 0x203c Std3Mapped [0x21; 0x21];
  Row 0x203d 0x203d Valid [];
  Row 0x203e 0x203e Std3Mapped [0x20; 0x305];
  Row 0x203f 0x2046 Valid [];
  Row 0x2047 0x2047 Std3Mapped [0x3f; 0x3f];
  Row 0x2048 0x2048 Std3Mapped [0x3f; 0x21];
  Row 0x2049 0x2049 Std3Mapped [0x21; 0x3f];
  Row 0x204a 0x204d Valid [];
  Row 0x204e 0x2052 Valid [];
  Row 0x2053 0x2054 Valid [];
  Row 0x2055 0x2056 Valid [];
  Row 0x2057 0x2057 Mapped [0x2032; 0x2032; 0x2032; 0x2032];
  Row 0x2058 0x205e Valid [];
  Row 0x205f 0x205f Std3Mapped [0x20];
  Row 0x2060 0x2060 Ignored [];
  Row 0x2061 0x2063 Disallowed [];
  Row 0x2064 0x2064 Ignored [];
  Row 0x2065 0x2065 Disallowed [];
  Row 0x2066 0x2069 Disallowed [];
  Row 0x206a 0x206f Disallowed [];
  Row 0x2070 0x2070 Mapped [0x30];
  Row 0x2071 0x2071 Mapped [0x69];
  Row 0x2072 0x2073 Disallowed [];
  Row 0x2074 0x2074 Mapped [0x34];
  Row 0x2075 0x2075 Mapped [0x35];
  Row 0x2076 0x2076 Mapped [0x36];
  Row 0x2077 0x2077 Mapped [0x37];
  Row 0x2078 0x2078 Mapped [0x38];
  Row 0x2079 0x2079 Mapped [0x39];
  Row 0x207a 0x207a Std3Mapped [0x2b];
  Row 0x207b 0x207b Mapped [0x2212];
  Row 0x207c 0x207c Std3Mapped [0x3d];
  Row 0x207d 0x207d Std3Mapped [0x28];
  Row 0x207e 0x207e Std3Mapped [0x29];
  Row 0x207f 0x207f Mapped [0x6e];
  Row 0x2080 0x2080 Mapped [0x30];
  Row 0x2081 0x2081 Mapped [0x31];
  Row 0x2082 0x2082 Mapped [0x32];
  Row 0x2083 0x2083 Mapped [0x33];
  Row 0x2084 0x2084 Mapped [0x34];
  Row 0x2085 0x2085 Mapped [0x35];
  Row 0x2086 0x2086 Mapped [0x36];
  Row 0x2087 0x2087 Mapped [0x37];
  Row 0x2088 0x2088 Mapped [0x38];
  Row 0x2089 0x2089 Mapped [0x39];
  Row 0x208a 0x208a Std3Mapped [0x2b];
  Row 0x208b 0x208b Mapped [0x2212];
  Row 0x208c 0x208c Std3Mapped [0x3d];
  Row 0x208d 0x208d Std3Mapped [0x28];
  Row 0x208e 0x208e Std3Mapped [0x29];
  Row 0x208f 0x208f Disallowed [];
  Row 0x2090 0x2090 Mapped [0x61];
  Row 0x2091 0x2091 Mapped [0x65];
  Row 0x2092 0x2092 Mapped [0x6f];
  Row 0x2093 0x2093 Mapped [0x78];
  Row 0x2094 0x2094 Mapped [0x259];
  Row 0x2095 0x2095 Mapped [0x68];
  Row 0x2096 0x2096 Mapped [0x6b];
  Row 0x2097 0x2097 Mapped [0x6c];
  Row 0x2098 0x2098 Mapped [0x6d];
  Row 0x2099 0x2099 Mapped [0x6e];
  Row 0x209a 0x209a Mapped [0x70];
  Row 0x209b 0x209b Mapped [0x73];
  Row 0x209c 0x209c Mapped [0x74];
  Row 0x209d 0x209f Disallowed [];
  Row 0x20a0 0x20a7 Valid [];
  Row 0x20a8 0x20a8 Mapped [0x72; 0x73];
  Row 0x20a9 0x20aa Valid [];
  Row 0x20ab 0x20ab Valid [];
  Row 0x20ac 0x20ac Valid [];
  Row 0x20ad 0x20af Valid [];
  Row 0x20b0 0x20b1 Valid [];
  Row 0x20b2 0x20b5 Valid [];
  Row 0x20b6 0x20b8 Valid [];
  Row 0x20b9 0x20b9 Valid [];
  Row 0x20ba 0x20ba Valid [];
  Row 0x20bb 0x20bd Valid [];
  Row 0x20be 0x20be Valid []].
Definition idna_rows_24 : list row := [
  Row 0x20bf 0x20bf Valid [];
  Row 0x20c0 0x20cf Disallowed [];
  Row 0x20d0 0x20e1 Valid [];
  Row 0x20e2 0x20e3 Valid [];
  Row 0x20e4 0x20ea Valid [];
  Row 0x20eb 0x20eb Valid [];
  Row 0x20ec 0x20ef Valid [];
  Row 0x20f0 0x20f0 Valid [];
  Row 0x20f1 0x20ff Disallowed [];
  Row 0x2100 0x2100 Std3Mapped [0x61; 0x2f; 0x63];
  Row 0x2101 0x2101 Std3Mapped [0x61; 0x2f; 0x73];
  Row 0x2102 0x2102 Mapped [0x63];
  Row 0x2103 0x2103 Mapped [0xb0; 0x63];
  Row 0x2104 0x2104 Valid [];
  Row 0x2105 0x2105 Std3Mapped [0x63; 0x2f; 0x6f];
  Row 0x2106 0x2106 Std3Mapped [0x63; 0x2f; 0x75];
  Row 0x2107 0x2107 Mapped [0x25b];
  Row 0x2108 0x2108 Valid [];
  Row 0x2109 0x2109 Mapped [0xb0; 0x66];
  Row 0x210a 0x210a Mapped [0x67];
  Row 0x210b 0x210e Mapped [0x68];
  Row 0x210f 0x210f Mapped [0x127];
  Row 0x2110 0x2111 Mapped [0x69];
  Row 0x2112 0x2113 Mapped [0x6c];
  Row 0x2114 0x2114 Valid [];
  Row 0x2115 0x2115 Mapped [0x6e];
  Row 0x2116 0x2116 Mapped [0x6e; 0x6f];
  Row 0x2117 0x2118 Valid [];
  Row 0x2119 0x2119 Mapped [0x70];
  Row 0x211a 0x211a Mapped [0x71];
  Row 0x211b 0x211d Mapped [0x72];
  Row 0x211e 0x211f Valid [];
  Row 0x2120 0x2120 Mapped [0x73; 0x6d];
  Row 0x2121 0x2121 Mapped [0x74; 0x65; 0x6c];
  Row 0x2122 0x2122 Mapped [0x74; 0x6d];
  Row 0x2123 0x2123 Valid [];
  Row 0x2124 0x2124 Mapped [0x7a];
  Row 0x2125 0x2125 Valid [];
  Row 0x2126 0x2126 Mapped [0x3c9];
  Row 0x2127 0x2127 Valid [];
  Row 0x2128 0x2128 Mapped [0x7a];
  Row 0x2129 0x2129 Valid [];
  Row 0x212a 0x212a Mapped [0x6b];
  Row 0x212b 0x212b Mapped [0xe5];
  Row 0x212c 0x212c Mapped [0x62];
  Row 0x212d 0x212d Mapped [0x63];
  Row 0x212e 0x212e Valid [];
  Row 0x212f 0x2130 Mapped [0x65];
  Row 0x2131 0x2131 Mapped [0x66];
  Row 0x2132 0x2132 Disallowed [];
  Row 0x2133 0x2133 Mapped [0x6d];
  Row 0x2134 0x2134 Mapped [0x6f];
  Row 0x2135 0x2135 Mapped [0x5d0];
  Row 0x2136 0x2136 Mapped [0x5d1];
  Row 0x2137 0x2137 Mapped [0x5d2];
  Row 0x2138 0x2138 Mapped [0x5d3];
  Row 0x2139 0x2139 Mapped [0x69];
  Row 0x213a 0x213a Valid [];
  Row 0x213b 0x213b Mapped [0x66; 0x61; 0x78];
  Row 0x213c 0x213c Mapped [0x3c0];
  Row 0x213d 0x213e Mapped [0x3b3];
  Row 0x213f 0x213f Mapped [0x3c0];
  Row 0x2140 0x2140 Mapped [0x2211];
  Row 0x2141 0x2144 Valid [];
  Row 0x2145 0x2146 Mapped [0x64];
  Row 0x2147 0x2147 Mapped [0x65];
  Row 0x2148 0x2148 Mapped [0x69];
  Row 0x2149 0x2149 Mapped [0x6a];
  Row 0x214a 0x214b Valid [];
  Row 0x214c 0x214c Valid [];
  Row 0x214d 0x214d Valid [];
  Row 0x214e 0x214e Valid [];
  Row 0x214f 0x214f Valid [];
  Row 0x2150 0x2150 Mapped [0x31; 0x2044; 0x37];
  Row 0x2151 0x2151 Mapped [0x31; 0x2044; 0x39];
  Row 0x2152 0x2152 Mapped [0x31; 0x2044; 0x31; 0x30];
  Row 0x2153 0x2153 Mapped [0x31; 0x2044; 0x33];
  Row 0x2154 0x2154 Mapped [0x32; 0x2044; 0x33];
  Row 0x2155 0x2155 Mapped [0x31; 0x2044; 0x35];
  Row 0x2156 0x2156 Mapped [0x32; 0x2044; 0x35];
  Row 0x2157 0x2157 Mapped [0x33; 0x2044; 0x35];
  Row 0x2158 0x2158 Mapped [0x34; 0x2044; 0x35];
  Row 0x2159 0x2159 Mapped [0x31; 0x2044; 0x36];
  Row 0x215a 0x215a Mapped [0x35; 0x2044; 0x36];
  Row 0x215b 0x215b Mapped [0x31; 0x2044; 0x38];
  Row 0x215c 0x215c Mapped [0x33; 0x2044; 0x38];
  Row 0x215d 0x215d Mapped [0x35; 0x2044; 0x38];
  Row 0x215e 0x215e Mapped [0x37; 0x2044; 0x38];
  Row 0x215f 0x215f Mapped [0x31; 0x2044];
  Row 0x2160 0x2160 Mapped [0x69];
  Row 0x2161 0x2161 Mapped [0x69; 0x69];
  Row 0x2162 0x2162 Mapped [0x69; 0x69; 0x69];
  Row 0x2163 0x2163 Mapped [0x69; 0x76];
  Row 0x2164 0x2164 Mapped [0x76];
  Row 0x2165 0x2165 Mapped [0x76; 0x69];
  Row 0x2166 0x2166 Mapped [0x76; 0x69; 0x69];
  Row 0x2167 0x2167 Mapped [0x76; 0x69; 0x69; 0x69];
  Row 0x2168 0x2168 Mapped [0x69; 0x78];
  Row 0x2169 0x2169 Mapped [0x78];
  Row 0x216a 0x216a Mapped [0x78; 0x69]].
Definition idna_rows_25 : list row := [
  Row 0x216b 0x216b Mapped [0x78; 0x69; 0x69];
  Row 0x216c 0x216c Mapped [0x6c];
  Row 0x216d 0x216d Mapped [0x63];
  Row 0x216e 0x216e Mapped [0x64];
  Row 0x216f 0x216f Mapped [0x6d];
  Row 0x2170 0x2170 Mapped [0x69];
  Row 0x2171 0x2171 Mapped [0x69; 0x69];
  Row 0x2172 0x2172 Mapped [0x69; 0x69; 0x69];
  Row 0x2173 0x2173 Mapped [0x69; 0x76];
  Row 0x2174 0x2174 Mapped [0x76];
  Row 0x2175 0x2175 Mapped [0x76; 0x69];
  Row 0x2176 0x2176 Mapped [0x76; 0x69; 0x69];
  Row 0x2177 0x2177 Mapped [0x76; 0x69; 0x69; 0x69];
  Row 0x2178 0x2178 Mapped [0x69; 0x78];
  Row 0x2179 0x2179 Mapped [0x78];
  Row 0x217a 0x217a Mapped [0x78; 0x69];
  Row 0x217b 0x217b Mapped [0x78; 0x69; 0x69];
  Row 0x217c 0x217c Mapped [0x6c];
  Row 0x217d 0x217d Mapped [0x63];
  Row 0x217e 0x217e Mapped [0x64];
  Row 0x217f 0x217f Mapped [0x6d];
  Row 0x2180 0x2182 Valid [];
  Row 0x2183 0x2183 Disallowed [];
  Row 0x2184 0x2184 Valid [];
  Row 0x2185 0x2188 Valid [];
  Row 0x2189 0x2189 Mapped [0x30; 0x2044; 0x33];
  Row 0x218a 0x218b Valid [];
  Row 0x218c 0x218f Disallowed [];
  Row 0x2190 0x21ea Valid [];
  Row 0x21eb 0x21f3 Valid [];
  Row 0x21f4 0x21ff Valid [];
  Row 0x2200 0x222b Valid [];
  Row 0x222c 0x222c Mapped [0x222b; 0x222b];
  Row 0x222d 0x222d Mapped [0x222b; 0x222b; 0x222b];
  Row 0x222e 0x222e Valid [];
  Row 0x222f 0x222f Mapped [0x222e; 0x222e];
  Row 0x2230 0x2230 Mapped [0x222e; 0x222e; 0x222e];
  Row 0x2231 0x225f Valid [];
  Row 0x2260 0x2260 Std3Valid [];
  Row 0x2261 0x226d Valid [];
  Row 0x226e 0x226f Std3Valid [];
  Row 0x2270 0x22f1 Valid [];
  Row 0x22f2 0x22ff Valid [];
  Row 0x2300 0x2300 Valid [];
  Row 0x2301 0x2301 Valid [];
  Row 0x2302 0x2328 Valid [];
  Row 0x2329 0x2329 Mapped [0x3008];
  Row 0x232a 0x232a Mapped [0x3009];
  Row 0x232b 0x237a Valid [];
  Row 0x237b 0x237b Valid [];
  Row 0x237c 0x237c Valid [];
  Row 0x237d 0x239a Valid [];
  Row 0x239b 0x23ce Valid [];
  Row 0x23cf 0x23d0 Valid [];
  Row 0x23d1 0x23db Valid [];
  Row 0x23dc 0x23e7 Valid [];
  Row 0x23e8 0x23e8 Valid [];
  Row 0x23e9 0x23f3 Valid [];
  Row 0x23f4 0x23fa Valid [];
  Row 0x23fb 0x23fe Valid [];
  Row 0x23ff 0x23ff Valid [];
  Row 0x2400 0x2424 Valid [];
  Row 0x2425 0x2426 Valid [];
  Row 0x2427 0x243f Disallowed [];
  Row 0x2440 0x244a Valid [];
  Row 0x244b 0x245f Disallowed [];
  Row 0x2460 0x2460 Mapped [0x31];
  Row 0x2461 0x2461 Mapped [0x32];
  Row 0x2462 0x2462 Mapped [0x33];
  Row 0x2463 0x2463 Mapped [0x34];
  Row 0x2464 0x2464 Mapped [0x35];
  Row 0x2465 0x2465 Mapped [0x36];
  Row 0x2466 0x2466 Mapped [0x37];
  Row 0x2467 0x2467 Mapped [0x38];
  Row 0x2468 0x2468 Mapped [0x39];
  Row 0x2469 0x2469 Mapped [0x31; 0x30];
  Row 0x246a 0x246a Mapped [0x31; 0x31];
  Row 0x246b 0x246b Mapped [0x31; 0x32];
  Row 0x246c 0x246c Mapped [0x31; 0x33];
  Row 0x246d 0x246d Mapped [0x31; 0x34];
  Row 0x246e 0x246e Mapped [0x31; 0x35];
  Row 0x246f 0x246f Mapped [0x31; 0x36];
  Row 0x2470 0x2470 Mapped [0x31; 0x37];
  Row 0x2471 0x2471 Mapped [0x31; 0x38];
  Row 0x2472 0x2472 Mapped [0x31; 0x39];
  Row 0x2473 0x2473 Mapped [0x32; 0x30];
  Row 0x2474 0x2474 Std3Mapped [0x28; 0x31; 0x29];
  Row 0x2475 0x2475 Std3Mapped [0x28; 0x32; 0x29];
  Row 0x2476 0x2476 Std3Mapped [0x28; 0x33; 0x29];
  Row 0x2477 0x2477 Std3Mapped [0x28; 0x34; 0x29];
  Row 0x2478 0x2478 Std3Mapped [0x28; 0x35; 0x29];
  Row 0x2479 0x2479 Std3Mapped [0x28; 0x36; 0x29];
  Row 0x247a 0x247a Std3Mapped [0x28; 0x37; 0x29];
  Row 0x247b 0x247b Std3Mapped [0x28; 0x38; 0x29];
  Row 0x247c 0x247c Std3Mapped [0x28; 0x39; 0x29];
  Row 0x247d 0x247d Std3Mapped [0x28; 0x31; 0x30; 0x29];
  Row 0x247e 0x247e Std3Mapped [0x28; 0x31; 0x31; 0x29];
  Row 0x247f 0x247f Std3Mapped [0x28; 0x31; 0x32; 0x29];
  Row 0x2480 0x2480 Std3Mapped [0x28; 0x31; 0x33; 0x29];
  Row 0x2481 0x2481 Std3Mapped [0x28; 0x31; 0x34; 0x29]].
Definition idna_rows_26 : list row := [
  Row 0x2482 0x2482 Std3Mapped [0x28; 0x31; 0x35; 0x29];
  Row 0x2483 0x2483 Std3Mapped [0x28; 0x31; 0x36; 0x29];
  Row 0x2484 0x2484 Std3Mapped [0x28; 0x31; 0x37; 0x29];
  Row 0x2485 0x2485 Std3Mapped [0x28; 0x31; 0x38; 0x29];
  Row 0x2486 0x2486 Std3Mapped [0x28; 0x31; 0x39; 0x29];
  Row 0x2487 0x2487 Std3Mapped [0x28; 0x32; 0x30; 0x29];
  Row 0x2488 0x249b Disallowed [];
  Row 0x249c 0x249c Std3Mapped [0x28; 0x61; 0x29];
  Row 0x249d 0x249d Std3Mapped [0x28; 0x62; 0x29];
  Row 0x249e 0x249e Std3Mapped [0x28; 0x63; 0x29];
  Row 0x249f 0x249f Std3Mapped [0x28; 0x64; 0x29];
  Row 0x24a0 0x24a0 Std3Mapped [0x28; 0x65; 0x29];
  Row 0x24a1 0x24a1 Std3Mapped [0x28; 0x66; 0x29];
  Row 0x24a2 0x24a2 Std3Mapped [0x28; 0x67; 0x29];
  Row 0x24a3 0x24a3 Std3Mapped [0x28; 0x68; 0x29];
  Row 0x24a4 0x24a4 Std3Mapped [0x28; 0x69; 0x29];
  Row 0x24a5 0x24a5 Std3Mapped [0x28; 0x6a; 0x29];
  Row 0x24a6 0x24a6 Std3Mapped [0x28; 0x6b; 0x29];
  Row 0x24a7 0x24a7 Std3Mapped [0x28; 0x6c; 0x29];
  Row 0x24a8 0x24a8 Std3Mapped [0x28; 0x6d; 0x29];
  Row 0x24a9 0x24a9 Std3Mapped [0x28; 0x6e; 0x29];
  Row 0x24aa 0x24aa Std3Mapped [0x28; 0x6f; 0x29];
  Row 0x24ab 0x24ab Std3Mapped [0x28; 0x70; 0x29];
  Row 0x24ac 0x24ac Std3Mapped [0x28; 0x71; 0x29];
  Row 0x24ad 0x24ad Std3Mapped [0x28; 0x72; 0x29];
  Row 0x24ae 0x24ae Std3Mapped [0x28; 0x73; 0x29];
  Row 0x24af 0x24af Std3Mapped [0x28; 0x74; 0x29];
  Row 0x24b0 0x24b0 Std3Mapped [0x28; 0x75; 0x29];
  Row 0x24b1 0x24b1 Std3Mapped [0x28; 0x76; 0x29];
  Row 0x24b2 0x24b2 Std3Mapped [0x28; 0x77; 0x29];
  Row 0x24b3 0x24b3 Std3Mapped [0x28; 0x78; 0x29];
  Row 0x24b4 0x24b4 Std3Mapped [0x28; 0x79; 0x29];
  Row 0x24b5 0x24b5 Std3Mapped [0x28; 0x7a; 0x29];
  Row 0x24b6 0x24b6 Mapped [0x61];
  Row 0x24b7 0x24b7 Mapped [0x62];
  Row 0x24b8 0x24b8 Mapped [0x63];
  Row 0x24b9 0x24b9 Mapped [0x64];
  Row 0x24ba 0x24ba Mapped [0x65];
  Row 0x24bb 0x24bb Mapped [0x66];
  Row 0x24bc 0x24bc Mapped [0x67];
  Row 0x24bd 0x24bd Mapped [0x68];
  Row 0x24be 0x24be Mapped [0x69];
  Row 0x24bf 0x24bf Mapped [0x6a];
  Row 0x24c0 0x24c0 Mapped [0x6b];
  Row 0x24c1 0x24c1 Mapped [0x6c];
  Row 0x24c2 0x24c2 Mapped [0x6d];
  Row 0x24c3 0x24c3 Mapped [0x6e];
  Row 0x24c4 0x24c4 Mapped [0x6f];
  Row 0x24c5 0x24c5 Mapped [0x70];
  Row 0x24c6 0x24c6 Mapped [0x71];
  Row 0x24c7 0x24c7 Mapped [0x72];
  Row 0x24c8 0x24c8 Mapped [0x73];
  Row 0x24c9 0x24c9 Mapped [0x74];
  Row 0x24ca 0x24ca Mapped [0x75];
  Row 0x24cb 0x24cb Mapped [0x76];
  Row 0x24cc 0x24cc Mapped [0x77];
  Row 0x24cd 0x24cd Mapped [0x78];
  Row 0x24ce 0x24ce Mapped [0x79];
  Row 0x24cf 0x24cf Mapped [0x7a];
  Row 0x24d0 0x24d0 Mapped [0x61];
  Row 0x24d1 0x24d1 Mapped [0x62];
  Row 0x24d2 0x24d2 Mapped [0x63];
  Row 0x24d3 0x24d3 Mapped [0x64];
  Row 0x24d4 0x24d4 Mapped [0x65];
  Row 0x24d5 0x24d5 Mapped [0x66];
  Row 0x24d6 0x24d6 Mapped [0x67];
  Row 0x24d7 0x24d7 Mapped [0x68];
  Row 0x24d8 0x24d8 Mapped [0x69];
  Row 0x24d9 0x24d9 Mapped [0x6a];
  Row 0x24da 0x24da Mapped [0x6b];
  Row 0x24db 0x24db Mapped [0x6c];
  Row 0x24dc 0x24dc Mapped [0x6d];
  Row 0x24dd 0x24dd Mapped [0x6e];
  Row 0x24de 0x24de Mapped [0x6f];
  Row 0x24df 0x24df Mapped [0x70];
  Row 0x24e0 0x24e0 Mapped [0x71];
  Row 0x24e1 0x24e1 Mapped [0x72];
  Row 0x24e2 0x24e2 Mapped [0x73];
  Row 0x24e3 0x24e3 Mapped [0x74];
  Row 0x24e4 0x24e4 Mapped [0x75];
  Row 0x24e5 0x24e5 Mapped [0x76];
  Row 0x24e6 0x24e6 Mapped [0x77];
  Row 0x24e7 0x24e7 Mapped [0x78];
  Row 0x24e8 0x24e8 Mapped [0x79];
  Row 0x24e9 0x24e9 Mapped [0x7a];
  Row 0x24ea 0x24ea Mapped [0x30];
  Row 0x24eb 0x24fe Valid [];
  Row 0x24ff 0x24ff Valid [];
  Row 0x2500 0x2595 Valid [];
  Row 0x2596 0x259f Valid [];
  Row 0x25a0 0x25ef Valid [];
  Row 0x25f0 0x25f7 Valid [];
  Row 0x25f8 0x25ff Valid [];
  Row 0x2600 0x2613 Valid [];
  Row 0x2614 0x2615 Valid [];
  Row 0x2616 0x2617 Valid [];
  Row 0x2618 0x2618 Valid [];
  Row 0x2619 0x2619 Valid [];
  Row 0x261a 0x266f Valid [];
  Row 0x2670 0x2671 Valid []].
Definition idna_rows_27 : list row := [
  Row 0x2672 0x267d Valid [];
  Row 0x267e 0x267f Valid [];
  Row 0x2680 0x2689 Valid [];
  Row 0x268a 0x2691 Valid [];
  Row 0x2692 0x269c Valid [];
  Row 0x269d 0x269d Valid [];
  Row 0x269e 0x269f Valid [];
  Row 0x26a0 0x26a1 Valid [];
  Row 0x26a2 0x26b1 Valid [];
  Row 0x26b2 0x26b2 Valid [];
  Row 0x26b3 0x26bc Valid [];
  Row 0x26bd 0x26bf Valid [];
  Row 0x26c0 0x26c3 Valid [];
  Row 0x26c4 0x26cd Valid [];
  Row 0x26ce 0x26ce Valid [];
  Row 0x26cf 0x26e1 Valid [];
  Row 0x26e2 0x26e2 Valid [];
  Row 0x26e3 0x26e3 Valid [];
  Row 0x26e4 0x26e7 Valid [];
  Row 0x26e8 0x26ff Valid [];
  Row 0x2700 0x2700 Valid [];
  Row 0x2701 0x2704 Valid [];
  Row 0x2705 0x2705 Valid [];
  Row 0x2706 0x2709 Valid [];
  Row 0x270a 0x270b Valid [];
  Row 0x270c 0x2727 Valid [];
  Row 0x2728 0x2728 Valid [];
  Row 0x2729 0x274b Valid [];
  Row 0x274c 0x274c Valid [];
  Row 0x274d 0x274d Valid [];
  Row 0x274e 0x274e Valid [];
  Row 0x274f 0x2752 Valid [];
  Row 0x2753 0x2755 Valid [];
  Row 0x2756 0x2756 Valid [];
  Row 0x2757 0x2757 Valid [];
  Row 0x2758 0x275e Valid [];
  Row 0x275f 0x2760 Valid [];
  Row 0x2761 0x2767 Valid [];
  Row 0x2768 0x2775 Valid [];
  Row 0x2776 0x2794 Valid [];
  Row 0x2795 0x2797 Valid [];
  Row 0x2798 0x27af Valid [];
  Row 0x27b0 0x27b0 Valid [];
  Row 0x27b1 0x27be Valid [];
  Row 0x27bf 0x27bf Valid [];
  Row 0x27c0 0x27c6 Valid [];
  Row 0x27c7 0x27ca Valid [];
  Row 0x27cb 0x27cb Valid [];
  Row 0x27cc 0x27cc Valid [];
  Row 0x27cd 0x27cd Valid [];
  Row 0x27ce 0x27cf Valid [];
  Row 0x27d0 0x27eb Valid [];
  Row 0x27ec 0x27ef Valid [];
  Row 0x27f0 0x27ff Valid [];
  Row 0x2800 0x28ff Valid [];
  Row 0x2900 0x2a0b Valid [];
  Row 0x2a0c 0x2a0c Mapped [0x222b; 0x222b; 0x222b; 0x222b];
  Row 0x2a0d 0x2a73 Valid [];
  Row 0x2a74 0x2a74 Std3Mapped [0x3a; 0x3a; 0x3d];
  Row 0x2a75 0x2a75 Std3Mapped [0x3d; 0x3d];
  Row 0x2a76 0x2a76 Std3Mapped [0x3d; 0x3d; 0x3d];
  Row 0x2a77 0x2adb Valid [];
  Row 0x2adc 0x2adc Mapped [0x2add; 0x338];
  Row 0x2add 0x2aff Valid [];
  Row 0x2b00 0x2b0d Valid [];
  Row 0x2b0e 0x2b13 Valid [];
  Row 0x2b14 0x2b1a Valid [];
  Row 0x2b1b 0x2b1f Valid [];
  Row 0x2b20 0x2b23 Valid [];
  Row 0x2b24 0x2b4c Valid [];
  Row 0x2b4d 0x2b4f Valid [];
  Row 0x2b50 0x2b54 Valid [];
  Row 0x2b55 0x2b59 Valid [];
  Row 0x2b5a 0x2b73 Valid [];
  Row 0x2b74 0x2b75 Disallowed [];
  Row 0x2b76 0x2b95 Valid [];
  Row 0x2b96 0x2b96 Disallowed [];
  Row 0x2b97 0x2b97 Valid [];
  Row 0x2b98 0x2bb9 Valid [];
  Row 0x2bba 0x2bbc Valid [];
  Row 0x2bbd 0x2bc8 Valid [];
  Row 0x2bc9 0x2bc9 Valid [];
  Row 0x2bca 0x2bd1 Valid [];
  Row 0x2bd2 0x2bd2 Valid [];
  Row 0x2bd3 0x2beb Valid [];
  Row 0x2bec 0x2bef Valid [];
  Row 0x2bf0 0x2bfe Valid [];
  Row 0x2bff 0x2bff Valid [];
  Row 0x2c00 0x2c00 Mapped [0x2c30];
  Row 0x2c01 0x2c01 Mapped [0x2c31];
  Row 0x2c02 0x2c02 Mapped [0x2c32];
  Row 0x2c03 0x2c03 Mapped [0x2c33];
  Row 0x2c04 0x2c04 Mapped [0x2c34];
  Row 0x2c05 0x2c05 Mapped [0x2c35];
  Row 0x2c06 0x2c06 Mapped [0x2c36];
  Row 0x2c07 0x2c07 Mapped [0x2c37];
  Row 0x2c08 0x2c08 Mapped [0x2c38];
  Row 0x2c09 0x2c09 Mapped [0x2c39];
  Row 0x2c0a 0x2c0a Mapped [0x2c3a];
  Row 0x2c0b 0x2c0b Mapped [0x2c3b]].
Definition idna_rows_28 : list row := [
  Row 0x2c0c 0x2c0c Mapped [0x2c3c];
  Row 0x2c0d 0x2c0d Mapped [0x2c3d];
  Row 0x2c0e 0x2c0e Mapped [0x2c3e];
  Row 0x2c0f 0x2c0f Mapped [0x2c3f];
  Row 0x2c10 0x2c10 Mapped [0x2c40];
  Row 0x2c11 0x2c11 Mapped [0x2c41];
  Row 0x2c12 0x2c12 Mapped [0x2c42];
  Row 0x2c13 0x2c13 Mapped [0x2c43];
  Row 0x2c14 0x2c14 Mapped [0x2c44];
  Row 0x2c15 0x2c15 Mapped [0x2c45];
  Row 0x2c16 0x2c16 Mapped [0x2c46];
  Row 0x2c17 0x2c17 Mapped [0x2c47];
  Row 0x2c18 0x2c18 Mapped [0x2c48];
  Row 0x2c19 0x2c19 Mapped [0x2c49];
  Row 0x2c1a 0x2c1a Mapped [0x2c4a];
  Row 0x2c1b 0x2c1b Mapped [0x2c4b];
  Row 0x2c1c 0x2c1c Mapped [0x2c4c];
  Row 0x2c1d 0x2c1d Mapped [0x2c4d];
  Row 0x2c1e 0x2c1e Mapped [0x2c4e];
  Row 0x2c1f 0x2c1f Mapped [0x2c4f];
  Row 0x2c20 0x2c20 Mapped [0x2c50];
  Row 0x2c21 0x2c21 Mapped [0x2c51];
  Row 0x2c22 0x2c22 Mapped [0x2c52];
  Row 0x2c23 0x2c23 Mapped [0x2c53];
  Row 0x2c24 0x2c24 Mapped [0x2c54];
  Row 0x2c25 0x2c25 Mapped [0x2c55];
  Row 0x2c26 0x2c26 Mapped [0x2c56];
  Row 0x2c27 0x2c27 Mapped [0x2c57];
  Row 0x2c28 0x2c28 Mapped [0x2c58];
  Row 0x2c29 0x2c29 Mapped [0x2c59];
  Row 0x2c2a 0x2c2a Mapped [0x2c5a];
  Row 0x2c2b 0x2c2b Mapped [0x2c5b];
  Row 0x2c2c 0x2c2c Mapped [0x2c5c];
  Row 0x2c2d 0x2c2d Mapped [0x2c5d];
  Row 0x2c2e 0x2c2e Mapped [0x2c5e];
  Row 0x2c2f 0x2c2f Disallowed [];
  Row 0x2c30 0x2c5e Valid [];
  Row 0x2c5f 0x2c5f Disallowed [];
  Row 0x2c60 0x2c60 Mapped [0x2c61];
  Row 0x2c61 0x2c61 Valid [];
  Row 0x2c62 0x2c62 Mapped [0x26b];
  Row 0x2c63 0x2c63 Mapped [0x1d7d];
  Row 0x2c64 0x2c64 Mapped [0x27d];
  Row 0x2c65 0x2c66 Valid [];
  Row 0x2c67 0x2c67 Mapped [0x2c68];
  Row 0x2c68 0x2c68 Valid [];
  Row 0x2c69 0x2c69 Mapped [0x2c6a];
  Row 0x2c6a 0x2c6a Valid [];
  Row 0x2c6b 0x2c6b Mapped [0x2c6c];
  Row 0x2c6c 0x2c6c Valid [];
  Row 0x2c6d 0x2c6d Mapped [0x251];
  Row 0x2c6e 0x2c6e Mapped [0x271];
  Row 0x2c6f 0x2c6f Mapped [0x250];
  Row 0x2c70 0x2c70 Mapped [0x252];
  Row 0x2c71 0x2c71 Valid [];
  Row 0x2c72 0x2c72 Mapped [0x2c73];
  Row 0x2c73 0x2c73 Valid [];
  Row 0x2c74 0x2c74 Valid [];
  Row 0x2c75 0x2c75 Mapped [0x2c76];
  Row 0x2c76 0x2c77 Valid [];
  Row 0x2c78 0x2c7b Valid [];
  Row 0x2c7c 0x2c7c Mapped [0x6a];
  Row 0x2c7d 0x2c7d Mapped [0x76];
  Row 0x2c7e 0x2c7e Mapped [0x23f];
  Row 0x2c7f 0x2c7f Mapped [0x240];
  Row 0x2c80 0x2c80 Mapped [0x2c81];
  Row 0x2c81 0x2c81 Valid [];
  Row 0x2c82 0x2c82 Mapped [0x2c83];
  Row 0x2c83 0x2c83 Valid [];
  Row 0x2c84 0x2c84 Mapped [0x2c85];
  Row 0x2c85 0x2c85 Valid [];
  Row 0x2c86 0x2c86 Mapped [0x2c87];
  Row 0x2c87 0x2c87 Valid [];
  Row 0x2c88 0x2c88 Mapped [0x2c89];
  Row 0x2c89 0x2c89 Valid [];
  Row 0x2c8a 0x2c8a Mapped [0x2c8b];
  Row 0x2c8b 0x2c8b Valid [];
  Row 0x2c8c 0x2c8c Mapped [0x2c8d];
  Row 0x2c8d 0x2c8d Valid [];
  Row 0x2c8e 0x2c8e Mapped [0x2c8f];
  Row 0x2c8f 0x2c8f Valid [];
  Row 0x2c90 0x2c90 Mapped [0x2c91];
  Row 0x2c91 0x2c91 Valid [];
  Row 0x2c92 0x2c92 Mapped [0x2c93];
  Row 0x2c93 0x2c93 Valid [];
  Row 0x2c94 0x2c94 Mapped [0x2c95];
  Row 0x2c95 0x2c95 Valid [];
  Row 0x2c96 0x2c96 Mapped [0x2c97];
  Row 0x2c97 0x2c97 Valid [];
  Row 0x2c98 0x2c98 Mapped [0x2c99];
  Row 0x2c99 0x2c99 Valid [];
  Row 0x2c9a 0x2c9a Mapped [0x2c9b];
  Row 0x2c9b 0x2c9b Valid [];
  Row 0x2c9c 0x2c9c Mapped [0x2c9d];
  Row 0x2c9d 0x2c9d Valid [];
  Row 0x2c9e 0x2c9e Mapped [0x2c9f];
  Row 0x2c9f 0x2c9f Valid [];
  Row 0x2ca0 0x2ca0 Mapped [0x2ca1];
  Row 0x2ca1 0x2ca1 Valid [];
  Row 0x2ca2 0x2ca2 Mapped [0x2ca3]].
Definition idna_rows_29 : list row := [
  Row 0x2ca3 0x2ca3 Valid [];
  Row 0x2ca4 0x2ca4 Mapped [0x2ca5];
  Row 0x2ca5 0x2ca5 Valid [];
  Row 0x2ca6 0x2ca6 Mapped [0x2ca7];
  Row 0x2ca7 0x2ca7 Valid [];
  Row 0x2ca8 0x2ca8 Mapped [0x2ca9];
  Row 0x2ca9 0x2ca9 Valid [];
  Row 0x2caa 0x2caa Mapped [0x2cab];
  Row 0x2cab 0x2cab Valid [];
  Row 0x2cac 0x2cac Mapped [0x2cad];
  Row 0x2cad 0x2cad Valid [];
  Row 0x2cae 0x2cae Mapped [0x2caf];
  Row 0x2caf 0x2caf Valid [];
  Row 0x2cb0 0x2cb0 Mapped [0x2cb1];
  Row 0x2cb1 0x2cb1 Valid [];
  Row 0x2cb2 0x2cb2 Mapped [0x2cb3];
  Row 0x2cb3 0x2cb3 Valid [];
  Row 0x2cb4 0x2cb4 Mapped [0x2cb5];
  Row 0x2cb5 0x2cb5 Valid [];
  Row 0x2cb6 0x2cb6 Mapped [0x2cb7];
  Row 0x2cb7 0x2cb7 Valid [];
  Row 0x2cb8 0x2cb8 Mapped [0x2cb9];
  Row 0x2cb9 0x2cb9 Valid [];
  Row 0x2cba 0x2cba Mapped [0x2cbb];
  Row 0x2cbb 0x2cbb Valid [];
  Row 0x2cbc 0x2cbc Mapped [0x2cbd];
  Row 0x2cbd 0x2cbd Valid [];
  Row 0x2cbe 0x2cbe Mapped [0x2cbf];
  Row 0x2cbf 0x2cbf Valid [];
  Row 0x2cc0 0x2cc0 Mapped [0x2cc1];
  Row 0x2cc1 0x2cc1 Valid [];
  Row 0x2cc2 0x2cc2 Mapped [0x2cc3];
  Row 0x2cc3 0x2cc3 Valid [];
  Row 0x2cc4 0x2cc4 Mapped [0x2cc5];
  Row 0x2cc5 0x2cc5 Valid [];
  Row 0x2cc6 0x2cc6 Mapped [0x2cc7];
  Row 0x2cc7 0x2cc7 Valid [];
  Row 0x2cc8 0x2cc8 Mapped [0x2cc9];
  Row 0x2cc9 0x2cc9 Valid [];
  Row 0x2cca 0x2cca Mapped [0x2ccb];
  Row 0x2ccb 0x2ccb Valid [];
  Row 0x2ccc 0x2ccc Mapped [0x2ccd];
  Row 0x2ccd 0x2ccd Valid [];
  Row 0x2cce 0x2cce Mapped [0x2ccf];
  Row 0x2ccf 0x2ccf Valid [];
  Row 0x2cd0 0x2cd0 Mapped [0x2cd1];
  Row 0x2cd1 0x2cd1 Valid [];
  Row 0x2cd2 0x2cd2 Mapped [0x2cd3];
  Row 0x2cd3 0x2cd3 Valid [];
  Row 0x2cd4 0x2cd4 Mapped [0x2cd5];
  Row 0x2cd5 0x2cd5 Valid [];
  Row 0x2cd6 0x2cd6 Mapped [0x2cd7];
  Row 0x2cd7 0x2cd7 Valid [];
  Row 0x2cd8 0x2cd8 Mapped [0x2cd9];
  Row 0x2cd9 0x2cd9 Valid [];
  Row 0x2cda 0x2cda Mapped [0x2cdb];
  Row 0x2cdb 0x2cdb Valid [];
  Row 0x2cdc 0x2cdc Mapped [0x2cdd];
  Row 0x2cdd 0x2cdd Valid [];
  Row 0x2cde 0x2cde Mapped [0x2cdf];
  Row 0x2cdf 0x2cdf Valid [];
  Row 0x2ce0 0x2ce0 Mapped [0x2ce1];
  Row 0x2ce1 0x2ce1 Valid [];
  Row 0x2ce2 0x2ce2 Mapped [0x2ce3];
  Row 0x2ce3 0x2ce4 Valid [];
  Row 0x2ce5 0x2cea Valid [];
  Row 0x2ceb 0x2ceb Mapped [0x2cec];
  Row 0x2cec 0x2cec Valid [];
  Row 0x2ced 0x2ced Mapped [0x2cee];
  Row 0x2cee 0x2cf1 Valid [];
  Row 0x2cf2 0x2cf2 Mapped [0x2cf3];
  Row 0x2cf3 0x2cf3 Valid [];
  Row 0x2cf4 0x2cf8 Disallowed [];
  Row 0x2cf9 0x2cff Valid [];
  Row 0x2d00 0x2d25 Valid [];
  Row 0x2d26 0x2d26 Disallowed [];
  Row 0x2d27 0x2d27 Valid [];
  Row 0x2d28 0x2d2c Disallowed [];
  Row 0x2d2d 0x2d2d Valid [];
  Row 0x2d2e 0x2d2f Disallowed [];
  Row 0x2d30 0x2d65 Valid [];
  Row 0x2d66 0x2d67 Valid [];
  Row 0x2d68 0x2d6e Disallowed [];
  Row 0x2d6f 0x2d6f Mapped [0x2d61];
  Row 0x2d70 0x2d70 Valid [];
  Row 0x2d71 0x2d7e Disallowed [];
  Row 0x2d7f 0x2d7f Valid [];
  Row 0x2d80 0x2d96 Valid [];
  Row 0x2d97 0x2d9f Disallowed [];
  Row 0x2da0 0x2da6 Valid [];
  Row 0x2da7 0x2da7 Disallowed [];
  Row 0x2da8 0x2dae Valid [];
  Row 0x2daf 0x2daf Disallowed [];
  Row 0x2db0 0x2db6 Valid [];
  Row 0x2db7 0x2db7 Disallowed [];
  Row 0x2db8 0x2dbe Valid [];
  Row 0x2dbf 0x2dbf Disallowed [];
  Row 0x2dc0 0x2dc6 Valid [];
  Row 0x2dc7 0x2dc7 Disallowed [];
  Row 0x2dc8 0x2dce Valid []].
Definition idna_rows_30 : list row := [
  Row 0x2dcf 0x2dcf Disallowed [];
  Row 0x2dd0 0x2dd6 Valid [];
  Row 0x2dd7 0x2dd7 Disallowed [];
  Row 0x2dd8 0x2dde Valid [];
  Row 0x2ddf 0x2ddf Disallowed [];
  Row 0x2de0 0x2dff Valid [];
  Row 0x2e00 0x2e17 Valid [];
  Row 0x2e18 0x2e1b Valid [];
  Row 0x2e1c 0x2e1d Valid [];
  Row 0x2e1e 0x2e2e Valid [];
  Row 0x2e2f 0x2e2f Valid [];
  Row 0x2e30 0x2e30 Valid [];
  Row 0x2e31 0x2e31 Valid [];
  Row 0x2e32 0x2e3b Valid [];
  Row 0x2e3c 0x2e42 Valid [];
  Row 0x2e43 0x2e44 Valid [];
  Row 0x2e45 0x2e49 Valid [];
  Row 0x2e4a 0x2e4e Valid [];
  Row 0x2e4f 0x2e4f Valid [];
  Row 0x2e50 0x2e52 Valid [];
  Row 0x2e53 0x2e7f Disallowed [];
  Row 0x2e80 0x2e99 Valid [];
  Row 0x2e9a 0x2e9a Disallowed [];
  Row 0x2e9b 0x2e9e Valid [];
  Row 0x2e9f 0x2e9f Mapped [0x6bcd];
  Row 0x2ea0 0x2ef2 Valid [];
  Row 0x2ef3 0x2ef3 Mapped [0x9f9f];
  Row 0x2ef4 0x2eff Disallowed [];
  Row 0x2f00 0x2f00 Mapped [0x4e00];
  Row 0x2f01 0x2f01 Mapped [0x4e28];
  Row 0x2f02 0x2f02 Mapped [0x4e36];
  Row 0x2f03 0x2f03 Mapped [0x4e3f];
  Row 0x2f04 0x2f04 Mapped [0x4e59];
  Row 0x2f05 0x2f05 Mapped [0x4e85];
  Row 0x2f06 0x2f06 Mapped [0x4e8c];
  Row 0x2f07 0x2f07 Mapped [0x4ea0];
  Row 0x2f08 0x2f08 Mapped [0x4eba];
  Row 0x2f09 0x2f09 Mapped [0x513f];
  Row 0x2f0a 0x2f0a Mapped [0x5165];
  Row 0x2f0b 0x2f0b Mapped [0x516b];
  Row 0x2f0c 0x2f0c Mapped [0x5182];
  Row 0x2f0d 0x2f0d Mapped [0x5196];
  Row 0x2f0e 0x2f0e Mapped [0x51ab];
  Row 0x2f0f 0x2f0f Mapped [0x51e0];
  Row 0x2f10 0x2f10 Mapped [0x51f5];
  Row 0x2f11 0x2f11 Mapped [0x5200];
  Row 0x2f12 0x2f12 Mapped [0x529b];
  Row 0x2f13 0x2f13 Mapped [0x52f9];
  Row 0x2f14 0x2f14 Mapped [0x5315];
  Row 0x2f15 0x2f15 Mapped [0x531a];
  Row 0x2f16 0x2f16 Mapped [0x5338];
  Row 0x2f17 0x2f17 Mapped [0x5341];
  Row 0x2f18 0x2f18 Mapped [0x535c];
  Row 0x2f19 0x2f19 Mapped [0x5369];
  Row 0x2f1a 0x2f1a Mapped [0x5382];
  Row 0x2f1b 0x2f1b Mapped [0x53b6];
  Row 0x2f1c 0x2f1c Mapped [0x53c8];
  Row 0x2f1d 0x2f1d Mapped [0x53e3];
  Row 0x2f1e 0x2f1e Mapped [0x56d7];
  Row 0x2f1f 0x2f1f Mapped [0x571f];
  Row 0x2f20 0x2f20 Mapped [0x58eb];
  Row 0x2f21 0x2f21 Mapped [0x5902];
  Row 0x2f22 0x2f22 Mapped [0x590a];
  Row 0x2f23 0x2f23 Mapped [0x5915];
  Row 0x2f24 0x2f24 Mapped [0x5927];
  Row 0x2f25 0x2f25 Mapped [0x5973];
  Row 0x2f26 0x2f26 Mapped [0x5b50];
  Row 0x2f27 0x2f27 Mapped [0x5b80];
  Row 0x2f28 0x2f28 Mapped [0x5bf8];
  Row 0x2f29 0x2f29 Mapped [0x5c0f];
  Row 0x2f2a 0x2f2a Mapped [0x5c22];
  Row 0x2f2b 0x2f2b Mapped [0x5c38];
  Row 0x2f2c 0x2f2c Mapped [0x5c6e];
  Row 0x2f2d 0x2f2d Mapped [0x5c71];
  Row 0x2f2e 0x2f2e Mapped [0x5ddb];
  Row 0x2f2f 0x2f2f Mapped [0x5de5];
  Row 0x2f30 0x2f30 Mapped [0x5df1];
  Row 0x2f31 0x2f31 Mapped [0x5dfe];
  Row 0x2f32 0x2f32 Mapped [0x5e72];
  Row 0x2f33 0x2f33 Mapped [0x5e7a];
  Row 0x2f34 0x2f34 Mapped [0x5e7f];
  Row 0x2f35 0x2f35 Mapped [0x5ef4];
  Row 0x2f36 0x2f36 Mapped [0x5efe];
  Row 0x2f37 0x2f37 Mapped [0x5f0b];
  Row 0x2f38 0x2f38 Mapped [0x5f13];
  Row 0x2f39 0x2f39 Mapped [0x5f50];
  Row 0x2f3a 0x2f3a Mapped [0x5f61];
  Row 0x2f3b 0x2f3b Mapped [0x5f73];
  Row 0x2f3c 0x2f3c Mapped [0x5fc3];
  Row 0x2f3d 0x2f3d Mapped [0x6208];
  Row 0x2f3e 0x2f3e Mapped [0x6236];
  Row 0x2f3f 0x2f3f Mapped [0x624b];
  Row 0x2f40 0x2f40 Mapped [0x652f];
  Row 0x2f41 0x2f41 Mapped [0x6534];
  Row 0x2f42 0x2f42 Mapped [0x6587];
  Row 0x2f43 0x2f43 Mapped [0x6597];
  Row 0x2f44 0x2f44 Mapped [0x65a4];
  Row 0x2f45 0x2f45 Mapped [0x65b9];
  Row 0x2f46 0x2f46 Mapped [0x65e0];
  Row 0x2f47 0x2f47 Mapped [0x65e5]].
Definition idna_rows_31 : list row := [
  Row 0x2f48 0x2f48 Mapped [0x66f0];
  Row 0x2f49 0x2f49 Mapped [0x6708];
  Row 0x2f4a 0x2f4a Mapped [0x6728];
  Row 0x2f4b 0x2f4b Mapped [0x6b20];
  Row 0x2f4c 0x2f4c Mapped [0x6b62];
  Row 0x2f4d 0x2f4d Mapped [0x6b79];
  Row 0x2f4e 0x2f4e Mapped [0x6bb3];
  Row 0x2f4f 0x2f4f Mapped [0x6bcb];
  Row 0x2f50 0x2f50 Mapped [0x6bd4];
  Row 0x2f51 0x2f51 Mapped [0x6bdb];
  Row 0x2f52 0x2f52 Mapped [0x6c0f];
  Row 0x2f53 0x2f53 Mapped [0x6c14];
  Row 0x2f54 0x2f54 Mapped [0x6c34];
  Row 0x2f55 0x2f55 Mapped [0x706b];
  Row 0x2f56 0x2f56 Mapped [0x722a];
  Row 0x2f57 0x2f57 Mapped [0x7236];
  Row 0x2f58 0x2f58 Mapped [0x723b];
  Row 0x2f59 0x2f59 Mapped [0x723f];
  Row 0x2f5a 0x2f5a Mapped [0x7247];
  Row 0x2f5b 0x2f5b Mapped [0x7259];
  Row 0x2f5c 0x2f5c Mapped [0x725b];
  Row 0x2f5d 0x2f5d Mapped [0x72ac];
  Row 0x2f5e 0x2f5e Mapped [0x7384];
  Row 0x2f5f 0x2f5f Mapped [0x7389];
  Row 0x2f60 0x2f60 Mapped [0x74dc];
  Row 0x2f61 0x2f61 Mapped [0x74e6];
  Row 0x2f62 0x2f62 Mapped [0x7518];
  Row 0x2f63 0x2f63 Mapped [0x751f];
  Row 0x2f64 0x2f64 Mapped [0x7528];
  Row 0x2f65 0x2f65 Mapped [0x7530];
  Row 0x2f66 0x2f66 Mapped [0x758b];
  Row 0x2f67 0x2f67 Mapped [0x7592];
  Row 0x2f68 0x2f68 Mapped [0x7676];
  Row 0x2f69 0x2f69 Mapped [0x767d];
  Row 0x2f6a 0x2f6a Mapped [0x76ae];
  Row 0x2f6b 0x2f6b Mapped [0x76bf];
  Row 0x2f6c 0x2f6c Mapped [0x76ee];
  Row 0x2f6d 0x2f6d Mapped [0x77db];
  Row 0x2f6e 0x2f6e Mapped [0x77e2];
  Row 0x2f6f 0x2f6f Mapped [0x77f3];
  Row 0x2f70 0x2f70 Mapped [0x793a];
  Row 0x2f71 0x2f71 Mapped [0x79b8];
  Row 0x2f72 0x2f72 Mapped [0x79be];
  Row 0x2f73 0x2f73 Mapped [0x7a74];
  Row 0x2f74 0x2f74 Mapped [0x7acb];
  Row 0x2f75 0x2f75 Mapped [0x7af9];
  Row 0x2f76 0x2f76 Mapped [0x7c73];
  Row 0x2f77 0x2f77 Mapped [0x7cf8];
  Row 0x2f78 0x2f78 Mapped [0x7f36];
  Row 0x2f79 0x2f79 Mapped [0x7f51];
  Row 0x2f7a 0x2f7a Mapped [0x7f8a];
  Row 0x2f7b 0x2f7b Mapped [0x7fbd];
  Row 0x2f7c 0x2f7c Mapped [0x8001];
  Row 0x2f7d 0x2f7d Mapped [0x800c];
  Row 0x2f7e 0x2f7e Mapped [0x8012];
  Row 0x2f7f 0x2f7f Mapped [0x8033];
  Row 0x2f80 0x2f80 Mapped [0x807f];
  Row 0x2f81 0x2f81 Mapped [0x8089];
  Row 0x2f82 0x2f82 Mapped [0x81e3];
  Row 0x2f83 0x2f83 Mapped [0x81ea];
  Row 0x2f84 0x2f84 Mapped [0x81f3];
  Row 0x2f85 0x2f85 Mapped [0x81fc];
  Row 0x2f86 0x2f86 Mapped [0x820c];
  Row 0x2f87 0x2f87 Mapped [0x821b];
  Row 0x2f88 0x2f88 Mapped [0x821f];
  Row 0x2f89 0x2f89 Mapped [0x826e];
  Row 0x2f8a 0x2f8a Mapped [0x8272];
  Row 0x2f8b 0x2f8b Mapped [0x8278];
  Row 0x2f8c 0x2f8c Mapped [0x864d];
  Row 0x2f8d 0x2f8d Mapped [0x866b];
  Row 0x2f8e 0x2f8e Mapped [0x8840];
  Row 0x2f8f 0x2f8f Mapped [0x884c];
  Row 0x2f90 0x2f90 Mapped [0x8863];
  Row 0x2f91 0x2f91 Mapped [0x897e];
  Row 0x2f92 0x2f92 Mapped [0x898b];
  Row 0x2f93 0x2f93 Mapped [0x89d2];
  Row 0x2f94 0x2f94 Mapped [0x8a00];
  Row 0x2f95 0x2f95 Mapped [0x8c37];
  Row 0x2f96 0x2f96 Mapped [0x8c46];
  Row 0x2f97 0x2f97 Mapped [0x8c55];
  Row 0x2f98 0x2f98 Mapped [0x8c78];
  Row 0x2f99 0x2f99 Mapped [0x8c9d];
  Row 0x2f9a 0x2f9a Mapped [0x8d64];
  Row 0x2f9b 0x2f9b Mapped [0x8d70];
  Row 0x2f9c 0x2f9c Mapped [0x8db3];
  Row 0x2f9d 0x2f9d Mapped [0x8eab];
  Row 0x2f9e 0x2f9e Mapped [0x8eca];
  Row 0x2f9f 0x2f9f Mapped [0x8f9b];
  Row 0x2fa0 0x2fa0 Mapped [0x8fb0];
  Row 0x2fa1 0x2fa1 Mapped [0x8fb5];
  Row 0x2fa2 0x2fa2 Mapped [0x9091];
  Row 0x2fa3 0x2fa3 Mapped [0x9149];
  Row 0x2fa4 0x2fa4 Mapped [0x91c6];
  Row 0x2fa5 0x2fa5 Mapped [0x91cc];
  Row 0x2fa6 0x2fa6 Mapped [0x91d1];
  Row 0x2fa7 0x2fa7 Mapped [0x9577];
  Row 0x2fa8 0x2fa8 Mapped [0x9580];
  Row 0x2fa9 0x2fa9 Mapped [0x961c];
  Row 0x2faa 0x2faa Mapped [0x96b6];
  Row 0x2fab 0x2fab Mapped [0x96b9]].
Definition idna_rows_32 : list row := [
  Row 0x2fac 0x2fac Mapped [0x96e8];
  Row 0x2fad 0x2fad Mapped [0x9751];
  Row 0x2fae 0x2fae Mapped [0x975e];
  Row 0x2faf 0x2faf Mapped [0x9762];
  Row 0x2fb0 0x2fb0 Mapped [0x9769];
  Row 0x2fb1 0x2fb1 Mapped [0x97cb];
  Row 0x2fb2 0x2fb2 Mapped [0x97ed];
  Row 0x2fb3 0x2fb3 Mapped [0x97f3];
  Row 0x2fb4 0x2fb4 Mapped [0x9801];
  Row 0x2fb5 0x2fb5 Mapped [0x98a8];
  Row 0x2fb6 0x2fb6 Mapped [0x98db];
  Row 0x2fb7 0x2fb7 Mapped [0x98df];
  Row 0x2fb8 0x2fb8 Mapped [0x9996];
  Row 0x2fb9 0x2fb9 Mapped [0x9999];
  Row 0x2fba 0x2fba Mapped [0x99ac];
  Row 0x2fbb 0x2fbb Mapped [0x9aa8];
  Row 0x2fbc 0x2fbc Mapped [0x9ad8];
  Row 0x2fbd 0x2fbd Mapped [0x9adf];
  Row 0x2fbe 0x2fbe Mapped [0x9b25];
  Row 0x2fbf 0x2fbf Mapped [0x9b2f];
  Row 0x2fc0 0x2fc0 Mapped [0x9b32];
  Row 0x2fc1 0x2fc1 Mapped [0x9b3c];
  Row 0x2fc2 0x2fc2 Mapped [0x9b5a];
  Row 0x2fc3 0x2fc3 Mapped [0x9ce5];
  Row 0x2fc4 0x2fc4 Mapped [0x9e75];
  Row 0x2fc5 0x2fc5 Mapped [0x9e7f];
  Row 0x2fc6 0x2fc6 Mapped [0x9ea5];
  Row 0x2fc7 0x2fc7 Mapped [0x9ebb];
  Row 0x2fc8 0x2fc8 Mapped [0x9ec3];
  Row 0x2fc9 0x2fc9 Mapped [0x9ecd];
  Row 0x2fca 0x2fca Mapped [0x9ed1];
  Row 0x2fcb 0x2fcb Mapped [0x9ef9];
  Row 0x2fcc 0x2fcc Mapped [0x9efd];
  Row 0x2fcd 0x2fcd Mapped [0x9f0e];
  Row 0x2fce 0x2fce Mapped [0x9f13];
  Row 0x2fcf 0x2fcf Mapped [0x9f20];
  Row 0x2fd0 0x2fd0 Mapped [0x9f3b];
  Row 0x2fd1 0x2fd1 Mapped [0x9f4a];
  Row 0x2fd2 0x2fd2 Mapped [0x9f52];
  Row 0x2fd3 0x2fd3 Mapped [0x9f8d];
  Row 0x2fd4 0x2fd4 Mapped [0x9f9c];
  Row 0x2fd5 0x2fd5 Mapped [0x9fa0];
  Row 0x2fd6 0x2fef Disallowed [];
  Row 0x2ff0 0x2ffb Disallowed [];
  Row 0x2ffc 0x2fff Disallowed [];
  Row 0x3000 0x3000 Std3Mapped [0x20];
  Row 0x3001 0x3001 Valid [];
  Row 0x3002 0x3002 Mapped [0x2e];
  Row 0x3003 0x3004 Valid [];
  Row 0x3005 0x3007 Valid [];
  Row 0x3008 0x3029 Valid [];
  Row 0x302a 0x302d Valid [];
  Row 0x302e 0x3035 Valid [];
  Row 0x3036 0x3036 Mapped [0x3012];
  Row 0x3037 0x3037 Valid [];
  Row 0x3038 0x3038 Mapped [0x5341];
  Row 0x3039 0x3039 Mapped [0x5344];
  Row 0x303a 0x303a Mapped [0x5345];
  Row 0x303b 0x303b Valid [];
  Row 0x303c 0x303c Valid [];
  Row 0x303d 0x303d Valid [];
  Row 0x303e 0x303e Valid [];
  Row 0x303f 0x303f Valid [];
  Row 0x3040 0x3040 Disallowed [];
  Row 0x3041 0x3094 Valid [];
  Row 0x3095 0x3096 Valid [];
  Row 0x3097 0x3098 Disallowed [];
  Row 0x3099 0x309a Valid [];
  Row 0x309b 0x309b Std3Mapped [0x20; 0x3099];
  Row 0x309c 0x309c Std3Mapped [0x20; 0x309a];
  Row 0x309d 0x309e Valid [];
  Row 0x309f 0x309f Mapped [0x3088; 0x308a];
  Row 0x30a0 0x30a0 Valid [];
  Row 0x30a1 0x30fe Valid [];
  Row 0x30ff 0x30ff Mapped [0x30b3; 0x30c8];
  Row 0x3100 0x3104 Disallowed [];
  Row 0x3105 0x312c Valid [];
  Row 0x312d 0x312d Valid [];
  Row 0x312e 0x312e Valid [];
  Row 0x312f 0x312f Valid [];
  Row 0x3130 0x3130 Disallowed [];
  Row 0x3131 0x3131 Mapped [0x1100];
  Row 0x3132 0x3132 Mapped [0x1101];
  Row 0x3133 0x3133 Mapped [0x11aa];
  Row 0x3134 0x3134 Mapped [0x1102];
  Row 0x3135 0x3135 Mapped [0x11ac];
  Row 0x3136 0x3136 Mapped [0x11ad];
  Row 0x3137 0x3137 Mapped [0x1103];
  Row 0x3138 0x3138 Mapped [0x1104];
  Row 0x3139 0x3139 Mapped [0x1105];
  Row 0x313a 0x313a Mapped [0x11b0];
  Row 0x313b 0x313b Mapped [0x11b1];
  Row 0x313c 0x313c Mapped [0x11b2];
  Row 0x313d 0x313d Mapped [0x11b3];
  Row 0x313e 0x313e Mapped [0x11b4];
  Row 0x313f 0x313f Mapped [0x11b5];
  Row 0x3140 0x3140 Mapped [0x111a];
  Row 0x3141 0x3141 Mapped [0x1106];
  Row 0x3142 0x3142 Mapped [0x1107];
  Row 0x3143 0x3143 Mapped [0x1108]].
Definition idna_rows_33 : list row := [
  Row 0x3144 0x3144 Mapped [0x1121];
  Row 0x3145 0x3145 Mapped [0x1109];
  Row 0x3146 0x3146 Mapped [0x110a];
  Row 0x3147 0x3147 Mapped [0x110b];
  Row 0x3148 0x3148 Mapped [0x110c];
  Row 0x3149 0x3149 Mapped [0x110d];
  Row 0x314a 0x314a Mapped [0x110e];
  Row 0x314b 0x314b Mapped [0x110f];
  Row 0x314c 0x314c Mapped [0x1110];
  Row 0x314d 0x314d Mapped [0x1111];
  Row 0x314e 0x314e Mapped [0x1112];
  Row 0x314f 0x314f Mapped [0x1161];
  Row 0x3150 0x3150 Mapped [0x1162];
  Row 0x3151 0x3151 Mapped [0x1163];
  Row 0x3152 0x3152 Mapped [0x1164];
  Row 0x3153 0x3153 Mapped [0x1165];
  Row 0x3154 0x3154 Mapped [0x1166];
  Row 0x3155 0x3155 Mapped [0x1167];
  Row 0x3156 0x3156 Mapped [0x1168];
  Row 0x3157 0x3157 Mapped [0x1169];
  Row 0x3158 0x3158 Mapped [0x116a];
  Row 0x3159 0x3159 Mapped [0x116b];
  Row 0x315a 0x315a Mapped [0x116c];
  Row 0x315b 0x315b Mapped [0x116d];
  Row 0x315c 0x315c Mapped [0x116e];
  Row 0x315d 0x315d Mapped [0x116f];
  Row 0x315e 0x315e Mapped [0x1170];
  Row 0x315f 0x315f Mapped [0x1171];
  Row 0x3160 0x3160 Mapped [0x1172];
  Row 0x3161 0x3161 Mapped [0x1173];
  Row 0x3162 0x3162 Mapped [0x1174];
  Row 0x3163 0x3163 Mapped [0x1175];
  Row 0x3164 0x3164 Disallowed [];
  Row 0x3165 0x3165 Mapped [0x1114];
  Row 0x3166 0x3166 Mapped [0x1115];
  Row 0x3167 0x3167 Mapped [0x11c7];
  Row 0x3168 0x3168 Mapped [0x11c8];
  Row 0x3169 0x3169 Mapped [0x11cc];
  Row 0x316a 0x316a Mapped [0x11ce];
  Row 0x316b 0x316b Mapped [0x11d3];
  Row 0x316c 0x316c Mapped [0x11d7];
  Row 0x316d 0x316d Mapped [0x11d9];
  Row 0x316e 0x316e Mapped [0x111c];
  Row 0x316f 0x316f Mapped [0x11dd];
  Row 0x3170 0x3170 Mapped [0x11df];
  Row 0x3171 0x3171 Mapped [0x111d];
  Row 0x3172 0x3172 Mapped [0x111e];
  Row 0x3173 0x3173 Mapped [0x1120];
  Row 0x3174 0x3174 Mapped [0x1122];
  Row 0x3175 0x3175 Mapped [0x1123];
  Row 0x3176 0x3176 Mapped [0x1127];
  Row 0x3177 0x3177 Mapped [0x1129];
  Row 0x3178 0x3178 Mapped [0x112b];
  Row 0x3179 0x3179 Mapped [0x112c];
  Row 0x317a 0x317a Mapped [0x112d];
  Row 0x317b 0x317b Mapped [0x112e];
  Row 0x317c 0x317c Mapped [0x112f];
  Row 0x317d 0x317d Mapped [0x1132];
  Row 0x317e 0x317e Mapped [0x1136];
  Row 0x317f 0x317f Mapped [0x1140];
  Row 0x3180 0x3180 Mapped [0x1147];
  Row 0x3181 0x3181 Mapped [0x114c];
  Row 0x3182 0x3182 Mapped [0x11f1];
  Row 0x3183 0x3183 Mapped [0x11f2];
  Row 0x3184 0x3184 Mapped [0x1157];
  Row 0x3185 0x3185 Mapped [0x1158];
  Row 0x3186 0x3186 Mapped [0x1159];
  Row 0x3187 0x3187 Mapped [0x1184];
  Row 0x3188 0x3188 Mapped [0x1185];
  Row 0x3189 0x3189 Mapped [0x1188];
  Row 0x318a 0x318a Mapped [0x1191];
  Row 0x318b 0x318b Mapped [0x1192];
  Row 0x318c 0x318c Mapped [0x1194];
  Row 0x318d 0x318d Mapped [0x119e];
  Row 0x318e 0x318e Mapped [0x11a1];
  Row 0x318f 0x318f Disallowed [];
  Row 0x3190 0x3191 Valid [];
  Row 0x3192 0x3192 Mapped [0x4e00];
  Row 0x3193 0x3193 Mapped [0x4e8c];
  Row 0x3194 0x3194 Mapped [0x4e09];
  Row 0x3195 0x3195 Mapped [0x56db];
  Row 0x3196 0x3196 Mapped [0x4e0a];
  Row 0x3197 0x3197 Mapped [0x4e2d];
  Row 0x3198 0x3198 Mapped [0x4e0b];
  Row 0x3199 0x3199 Mapped [0x7532];
  Row 0x319a 0x319a Mapped [0x4e59];
  Row 0x319b 0x319b Mapped [0x4e19];
  Row 0x319c 0x319c Mapped [0x4e01];
  Row 0x319d 0x319d Mapped [0x5929];
  Row 0x319e 0x319e Mapped [0x5730];
  Row 0x319f 0x319f Mapped [0x4eba];
  Row 0x31a0 0x31b7 Valid [];
  Row 0x31b8 0x31ba Valid [];
  Row 0x31bb 0x31bf Valid [];
  Row 0x31c0 0x31cf Valid [];
  Row 0x31d0 0x31e3 Valid [];
  Row 0x31e4 0x31ef Disallowed [];
  Row 0x31f0 0x31ff Valid [];
  Row 0x3200 0x3200 Std3Mapped [0x28; 0x1100; 0x29];
  Row 0x3201 0x3201 Std3Mapped [0x28; 0x1102; 0x29]].
Definition idna_rows_34 : list row := [
  Row 0x3202 0x3202 Std3Mapped [0x28; 0x1103; 0x29];
  Row 0x3203 0x3203 Std3Mapped [0x28; 0x1105; 0x29];
  Row 0x3204 0x3204 Std3Mapped [0x28; 0x1106; 0x29];
  Row 0x3205 0x3205 Std3Mapped [0x28; 0x1107; 0x29];
  Row 0x3206 0x3206 Std3Mapped [0x28; 0x1109; 0x29];
  Row 0x3207 0x3207 Std3Mapped [0x28; 0x110b; 0x29];
  Row 0x3208 0x3208 Std3Mapped [0x28; 0x110c; 0x29];
  Row 0x3209 0x3209 Std3Mapped [0x28; 0x110e; 0x29];
  Row 0x320a 0x320a Std3Mapped [0x28; 0x110f; 0x29];
  Row 0x320b 0x320b Std3Mapped [0x28; 0x1110; 0x29];
  Row 0x320c 0x320c Std3Mapped [0x28; 0x1111; 0x29];
  Row 0x320d 0x320d Std3Mapped [0x28; 0x1112; 0x29];
  Row 0x320e 0x320e Std3Mapped [0x28; 0xac00; 0x29];
  Row 0x320f 0x320f Std3Mapped [0x28; 0xb098; 0x29];
  Row 0x3210 0x3210 Std3Mapped [0x28; 0xb2e4; 0x29];
  Row 0x3211 0x3211 Std3Mapped [0x28; 0xb77c; 0x29];
  Row 0x3212 0x3212 Std3Mapped [0x28; 0xb9c8; 0x29];
  Row 0x3213 0x3213 Std3Mapped [0x28; 0xbc14; 0x29];
  Row 0x3214 0x3214 Std3Mapped [0x28; 0xc0ac; 0x29];
  Row 0x3215 0x3215 Std3Mapped [0x28; 0xc544; 0x29];
  Row 0x3216 0x3216 Std3Mapped [0x28; 0xc790; 0x29];
  Row 0x3217 0x3217 Std3Mapped [0x28; 0xcc28; 0x29];
  Row 0x3218 0x3218 Std3Mapped [0x28; 0xce74; 0x29];
  Row 0x3219 0x3219 Std3Mapped [0x28; 0xd0c0; 0x29];
  Row 0x321a 0x321a Std3Mapped [0x28; 0xd30c; 0x29];
  Row 0x321b 0x321b Std3Mapped [0x28; 0xd558; 0x29];
  Row 0x321c 0x321c Std3Mapped [0x28; 0xc8fc; 0x29];
  Row 0x321d 0x321d Std3Mapped [0x28; 0xc624; 0xc804; 0x29];
  Row 0x321e 0x321e Std3Mapped [0x28; 0xc624; 0xd6c4; 0x29];
  Row 0x321f 0x321f Disallowed [];
  Row 0x3220 0x3220 Std3Mapped [0x28; 0x4e00; 0x29];
  Row 0x3221 0x3221 Std3Mapped [0x28; 0x4e8c; 0x29];
  Row 0x3222 0x3222 Std3Mapped [0x28; 0x4e09; 0x29];
  Row 0x3223 0x3223 Std3Mapped [0x28; 0x56db; 0x29];
  Row 0x3224 0x3224 Std3Mapped [0x28; 0x4e94; 0x29];
  Row 0x3225 0x3225 Std3Mapped [0x28; 0x516d; 0x29];
  Row 0x3226 0x3226 Std3Mapped [0x28; 0x4e03; 0x29];
  Row 0x3227 0x3227 Std3Mapped [0x28; 0x516b; 0x29];
  Row 0x3228 0x3228 Std3Mapped [0x28; 0x4e5d; 0x29];
  Row 0x3229 0x3229 Std3Mapped [0x28; 0x5341; 0x29];
  Row 0x322a 0x322a Std3Mapped [0x28; 0x6708; 0x29];
  Row 0x322b 0x322b Std3Mapped [0x28; 0x706b; 0x29];
  Row 0x322c 0x322c Std3Mapped [0x28; 0x6c34; 0x29];
  Row 0x322d 0x322d Std3Mapped [0x28; 0x6728; 0x29];
  Row 0x322e 0x322e Std3Mapped [0x28; 0x91d1; 0x29];
  Row 0x322f 0x322f Std3Mapped [0x28; 0x571f; 0x29];
  Row 0x3230 0x3230 Std3Mapped [0x28; 0x65e5; 0x29];
  Row 0x3231 0x3231 Std3Mapped [0x28; 0x682a; 0x29];
  Row 0x3232 0x3232 Std3Mapped [0x28; 0x6709; 0x29];
  Row 0x3233 0x3233 Std3Mapped [0x28; 0x793e; 0x29];
  Row 0x3234 0x3234 Std3Mapped [0x28; 0x540d; 0x29];
  Row 0x3235 0x3235 Std3Mapped [0x28; 0x7279; 0x29];
  Row 0x3236 0x3236 Std3Mapped [0x28; 0x8ca1; 0x29];
  Row 0x3237 0x3237 Std3Mapped [0x28; 0x795d; 0x29];
  Row 0x3238 0x3238 Std3Mapped [0x28; 0x52b4; 0x29];
  Row 0x3239 0x3239 Std3Mapped [0x28; 0x4ee3; 0x29];
  Row 0x323a 0x323a Std3Mapped [0x28; 0x547c; 0x29];
  Row 0x323b 0x323b Std3Mapped [0x28; 0x5b66; 0x29];
  Row 0x323c 0x323c Std3Mapped [0x28; 0x76e3; 0x29];
  Row 0x323d 0x323d Std3Mapped [0x28; 0x4f01; 0x29];
  Row 0x323e 0x323e Std3Mapped [0x28; 0x8cc7; 0x29];
  Row 0x323f 0x323f Std3Mapped [0x28; 0x5354; 0x29];
  Row 0x3240 0x3240 Std3Mapped [0x28; 0x796d; 0x29];
  Row 0x3241 0x3241 Std3Mapped [0x28; 0x4f11; 0x29];
  Row 0x3242 0x3242 Std3Mapped [0x28; 0x81ea; 0x29];
  Row 0x3243 0x3243 Std3Mapped [0x28; 0x81f3; 0x29];
  Row 0x3244 0x3244 Mapped [0x554f];
  Row 0x3245 0x3245 Mapped [0x5e7c];
  Row 0x3246 0x3246 Mapped [0x6587];
  Row 0x3247 0x3247 Mapped [0x7b8f];
  Row 0x3248 0x324f Valid [];
  Row 0x3250 0x3250 Mapped [0x70; 0x74; 0x65];
  Row 0x3251 0x3251 Mapped [0x32; 0x31];
  Row 0x3252 0x3252 Mapped [0x32; 0x32];
  Row 0x3253 0x3253 Mapped [0x32; 0x33];
  Row 0x3254 0x3254 Mapped [0x32; 0x34];
  Row 0x3255 0x3255 Mapped [0x32; 0x35];
  Row 0x3256 0x3256 Mapped [0x32; 0x36];
  Row 0x3257 0x3257 Mapped [0x32; 0x37];
  Row 0x3258 0x3258 Mapped [0x32; 0x38];
  Row 0x3259 0x3259 Mapped [0x32; 0x39];
  Row 0x325a 0x325a Mapped [0x33; 0x30];
  Row 0x325b 0x325b Mapped [0x33; 0x31];
  Row 0x325c 0x325c Mapped [0x33; 0x32];
  Row 0x325d 0x325d Mapped [0x33; 0x33];
  Row 0x325e 0x325e Mapped [0x33; 0x34];
  Row 0x325f 0x325f Mapped [0x33; 0x35];
  Row 0x3260 0x3260 Mapped [0x1100];
  Row 0x3261 0x3261 Mapped [0x1102];
  Row 0x3262 0x3262 Mapped [0x1103];
  Row 0x3263 0x3263 Mapped [0x1105];
  Row 0x3264 0x3264 Mapped [0x1106];
  Row 0x3265 0x3265 Mapped [0x1107];
  Row 0x3266 0x3266 Mapped [0x1109];
  Row 0x3267 0x3267 Mapped [0x110b];
  Row 0x3268 0x3268 Mapped [0x110c];
  Row 0x3269 0x3269 Mapped [0x110e];
  Row 0x326a 0x326a Mapped [0x110f];
  Row 0x326b 0x326b Mapped [0x1110];
  Row 0x326c 0x326c Mapped [0x1111]].
Definition idna_rows_35 : list row := [
  Row 0x326d 0x326d Mapped [0x1112];
  Row 0x326e 0x326e Mapped [0xac00];
  Row 0x326f 0x326f Mapped [0xb098];
  Row 0x3270 0x3270 Mapped [0xb2e4];
  Row 0x3271 0x3271 Mapped [0xb77c];
  Row 0x3272 0x3272 Mapped [0xb9c8];
  Row 0x3273 0x3273 Mapped [0xbc14];
  Row 0x3274 0x3274 Mapped [0xc0ac];
  Row 0x3275 0x3275 Mapped [0xc544];
  Row 0x3276 0x3276 Mapped [0xc790];
  Row 0x3277 0x3277 Mapped [0xcc28];
  Row 0x3278 0x3278 Mapped [0xce74];
  Row 0x3279 0x3279 Mapped [0xd0c0];
  Row 0x327a 0x327a Mapped [0xd30c];
  Row 0x327b 0x327b Mapped [0xd558];
  Row 0x327c 0x327c Mapped [0xcc38; 0xace0];
  Row 0x327d 0x327d Mapped [0xc8fc; 0xc758];
  Row 0x327e 0x327e Mapped [0xc6b0];
  Row 0x327f 0x327f Valid [];
  Row 0x3280 0x3280 Mapped [0x4e00];
  Row 0x3281 0x3281 Mapped [0x4e8c];
  Row 0x3282 0x3282 Mapped [0x4e09];
  Row 0x3283 0x3283 Mapped [0x56db];
  Row 0x3284 0x3284 Mapped [0x4e94];
  Row 0x3285 0x3285 Mapped [0x516d];
  Row 0x3286 0x3286 Mapped [0x4e03];
  Row 0x3287 0x3287 Mapped [0x516b];
  Row 0x3288 0x3288 Mapped [0x4e5d];
  Row 0x3289 0x3289 Mapped [0x5341];
  Row 0x328a 0x328a Mapped [0x6708];
  Row 0x328b 0x328b Mapped [0x706b];
  Row 0x328c 0x328c Mapped [0x6c34];
  Row 0x328d 0x328d Mapped [0x6728];
  Row 0x328e 0x328e Mapped [0x91d1];
  Row 0x328f 0x328f Mapped [0x571f];
  Row 0x3290 0x3290 Mapped [0x65e5];
  Row 0x3291 0x3291 Mapped [0x682a];
  Row 0x3292 0x3292 Mapped [0x6709];
  Row 0x3293 0x3293 Mapped [0x793e];
  Row 0x3294 0x3294 Mapped [0x540d];
  Row 0x3295 0x3295 Mapped [0x7279];
  Row 0x3296 0x3296 Mapped [0x8ca1];
  Row 0x3297 0x3297 Mapped [0x795d];
  Row 0x3298 0x3298 Mapped [0x52b4];
  Row 0x3299 0x3299 Mapped [0x79d8];
  Row 0x329a 0x329a Mapped [0x7537];
  Row 0x329b 0x329b Mapped [0x5973];
  Row 0x329c 0x329c Mapped [0x9069];
  Row 0x329d 0x329d Mapped [0x512a];
  Row 0x329e 0x329e Mapped [0x5370];
  Row 0x329f 0x329f Mapped [0x6ce8];
  Row 0x32a0 0x32a0 Mapped [0x9805];
  Row 0x32a1 0x32a1 Mapped [0x4f11];
  Row 0x32a2 0x32a2 Mapped [0x5199];
  Row 0x32a3 0x32a3 Mapped [0x6b63];
  Row 0x32a4 0x32a4 Mapped [0x4e0a];
  Row 0x32a5 0x32a5 Mapped [0x4e2d];
  Row 0x32a6 0x32a6 Mapped [0x4e0b];
  Row 0x32a7 0x32a7 Mapped [0x5de6];
  Row 0x32a8 0x32a8 Mapped [0x53f3];
  Row 0x32a9 0x32a9 Mapped [0x533b];
  Row 0x32aa 0x32aa Mapped [0x5b97];
  Row 0x32ab 0x32ab Mapped [0x5b66];
  Row 0x32ac 0x32ac Mapped [0x76e3];
  Row 0x32ad 0x32ad Mapped [0x4f01];
  Row 0x32ae 0x32ae Mapped [0x8cc7];
  Row 0x32af 0x32af Mapped [0x5354];
  Row 0x32b0 0x32b0 Mapped [0x591c];
  Row 0x32b1 0x32b1 Mapped [0x33; 0x36];
  Row 0x32b2 0x32b2 Mapped [0x33; 0x37];
  Row 0x32b3 0x32b3 Mapped [0x33; 0x38];
  Row 0x32b4 0x32b4 Mapped [0x33; 0x39];
  Row 0x32b5 0x32b5 Mapped [0x34; 0x30];
  Row 0x32b6 0x32b6 Mapped [0x34; 0x31];
  Row 0x32b7 0x32b7 Mapped [0x34; 0x32];
  Row 0x32b8 0x32b8 Mapped [0x34; 0x33];
  Row 0x32b9 0x32b9 Mapped [0x34; 0x34];
  Row 0x32ba 0x32ba Mapped [0x34; 0x35];
  Row 0x32bb 0x32bb Mapped [0x34; 0x36];
  Row 0x32bc 0x32bc Mapped [0x34; 0x37];
  Row 0x32bd 0x32bd Mapped [0x34; 0x38];
  Row 0x32be 0x32be Mapped [0x34; 0x39];
  Row 0x32bf 0x32bf Mapped [0x35; 0x30];
  Row 0x32c0 0x32c0 Mapped [0x31; 0x6708];
  Row 0x32c1 0x32c1 Mapped [0x32; 0x6708];
  Row 0x32c2 0x32c2 Mapped [0x33; 0x6708];
  Row 0x32c3 0x32c3 Mapped [0x34; 0x6708];
  Row 0x32c4 0x32c4 Mapped [0x35; 0x6708];
  Row 0x32c5 0x32c5 Mapped [0x36; 0x6708];
  Row 0x32c6 0x32c6 Mapped [0x37; 0x6708];
  Row 0x32c7 0x32c7 Mapped [0x38; 0x6708];
  Row 0x32c8 0x32c8 Mapped [0x39; 0x6708];
  Row 0x32c9 0x32c9 Mapped [0x31; 0x30; 0x6708];
  Row 0x32ca 0x32ca Mapped [0x31; 0x31; 0x6708];
  Row 0x32cb 0x32cb Mapped [0x31; 0x32; 0x6708];
  Row 0x32cc 0x32cc Mapped [0x68; 0x67];
  Row 0x32cd 0x32cd Mapped [0x65; 0x72; 0x67];
  Row 0x32ce 0x32ce Mapped [0x65; 0x76];
  Row 0x32cf 0x32cf Mapped [0x6c; 0x74; 0x64];
  Row 0x32d0 0x32d0 Mapped [0x30a2]].
Definition idna_rows_36 : list row := [
  Row 0x32d1 0x32d1 Mapped [0x30a4];
  Row 0x32d2 0x32d2 Mapped [0x30a6];
  Row 0x32d3 0x32d3 Mapped [0x30a8];
  Row 0x32d4 0x32d4 Mapped [0x30aa];
  Row 0x32d5 0x32d5 Mapped [0x30ab];
  Row 0x32d6 0x32d6 Mapped [0x30ad];
  Row 0x32d7 0x32d7 Mapped [0x30af];
  Row 0x32d8 0x32d8 Mapped [0x30b1];
  Row 0x32d9 0x32d9 Mapped [0x30b3];
  Row 0x32da 0x32da Mapped [0x30b5];
  Row 0x32db 0x32db Mapped [0x30b7];
  Row 0x32dc 0x32dc Mapped [0x30b9];
  Row 0x32dd 0x32dd Mapped [0x30bb];
  Row 0x32de 0x32de Mapped [0x30bd];
  Row 0x32df 0x32df Mapped [0x30bf];
  Row 0x32e0 0x32e0 Mapped [0x30c1];
  Row 0x32e1 0x32e1 Mapped [0x30c4];
  Row 0x32e2 0x32e2 Mapped [0x30c6];
  Row 0x32e3 0x32e3 Mapped [0x30c8];
  Row 0x32e4 0x32e4 Mapped [0x30ca];
  Row 0x32e5 0x32e5 Mapped [0x30cb];
  Row 0x32e6 0x32e6 Mapped [0x30cc];
  Row 0x32e7 0x32e7 Mapped [0x30cd];
  Row 0x32e8 0x32e8 Mapped [0x30ce];
  Row 0x32e9 0x32e9 Mapped [0x30cf];
  Row 0x32ea 0x32ea Mapped [0x30d2];
  Row 0x32eb 0x32eb Mapped [0x30d5];
  Row 0x32ec 0x32ec Mapped [0x30d8];
  Row 0x32ed 0x32ed Mapped [0x30db];
  Row 0x32ee 0x32ee Mapped [0x30de];
  Row 0x32ef 0x32ef Mapped [0x30df];
  Row 0x32f0 0x32f0 Mapped [0x30e0];
  Row 0x32f1 0x32f1 Mapped [0x30e1];
  Row 0x32f2 0x32f2 Mapped [0x30e2];
  Row 0x32f3 0x32f3 Mapped [0x30e4];
  Row 0x32f4 0x32f4 Mapped [0x30e6];
  Row 0x32f5 0x32f5 Mapped [0x30e8];
  Row 0x32f6 0x32f6 Mapped [0x30e9];
  Row 0x32f7 0x32f7 Mapped [0x30ea];
  Row 0x32f8 0x32f8 Mapped [0x30eb];
  Row 0x32f9 0x32f9 Mapped [0x30ec];
  Row 0x32fa 0x32fa Mapped [0x30ed];
  Row 0x32fb 0x32fb Mapped [0x30ef];
  Row 0x32fc 0x32fc Mapped [0x30f0];
  Row 0x32fd 0x32fd Mapped [0x30f1];
  Row 0x32fe 0x32fe Mapped [0x30f2];
  Row 0x32ff 0x32ff Mapped [0x4ee4; 0x548c];
  Row 0x3300 0x3300 Mapped [0x30a2; 0x30d1; 0x30fc; 0x30c8];
  Row 0x3301 0x3301 Mapped [0x30a2; 0x30eb; 0x30d5; 0x30a1];
  Row 0x3302 0x3302 Mapped [0x30a2; 0x30f3; 0x30da; 0x30a2];
  Row 0x3303 0x3303 Mapped [0x30a2; 0x30fc; 0x30eb];
  Row 0x3304 0x3304 Mapped [0x30a4; 0x30cb; 0x30f3; 0x30b0];
  Row 0x3305 0x3305 Mapped [0x30a4; 0x30f3; 0x30c1];
  Row 0x3306 0x3306 Mapped [0x30a6; 0x30a9; 0x30f3];
  Row 0x3307 0x3307 Mapped [0x30a8; 0x30b9; 0x30af; 0x30fc; 0x30c9];
  Row 0x3308 0x3308 Mapped [0x30a8; 0x30fc; 0x30ab; 0x30fc];
  Row 0x3309 0x3309 Mapped [0x30aa; 0x30f3; 0x30b9];
  Row 0x330a 0x330a Mapped [0x30aa; 0x30fc; 0x30e0];
  Row 0x330b 0x330b Mapped [0x30ab; 0x30a4; 0x30ea];
  Row 0x330c 0x330c Mapped [0x30ab; 0x30e9; 0x30c3; 0x30c8];
  Row 0x330d 0x330d Mapped [0x30ab; 0x30ed; 0x30ea; 0x30fc];
  Row 0x330e 0x330e Mapped [0x30ac; 0x30ed; 0x30f3];
  Row 0x330f 0x330f Mapped [0x30ac; 0x30f3; 0x30de];
  Row 0x3310 0x3310 Mapped [0x30ae; 0x30ac];
  Row 0x3311 0x3311 Mapped [0x30ae; 0x30cb; 0x30fc];
  Row 0x3312 0x3312 Mapped [0x30ad; 0x30e5; 0x30ea; 0x30fc];
  Row 0x3313 0x3313 Mapped [0x30ae; 0x30eb; 0x30c0; 0x30fc];
  Row 0x3314 0x3314 Mapped [0x30ad; 0x30ed];
  Row 0x3315 0x3315 Mapped [0x30ad; 0x30ed; 0x30b0; 0x30e9; 0x30e0];
  Row 0x3316 0x3316 Mapped [0x30ad; 0x30ed; 0x30e1; 0x30fc; 0x30c8; 0x30eb];
  Row 0x3317 0x3317 Mapped [0x30ad; 0x30ed; 0x30ef; 0x30c3; 0x30c8];
  Row 0x3318 0x3318 Mapped [0x30b0; 0x30e9; 0x30e0];
  Row 0x3319 0x3319 Mapped [0x30b0; 0x30e9; 0x30e0; 0x30c8; 0x30f3];
  Row 0x331a 0x331a Mapped [0x30af; 0x30eb; 0x30bc; 0x30a4; 0x30ed];
  Row 0x331b 0x331b Mapped [0x30af; 0x30ed; 0x30fc; 0x30cd];
  Row 0x331c 0x331c Mapped [0x30b1; 0x30fc; 0x30b9];
  Row 0x331d 0x331d Mapped [0x30b3; 0x30eb; 0x30ca];
  Row 0x331e 0x331e Mapped [0x30b3; 0x30fc; 0x30dd];
  Row 0x331f 0x331f Mapped [0x30b5; 0x30a4; 0x30af; 0x30eb];
  Row 0x3320 0x3320 Mapped [0x30b5; 0x30f3; 0x30c1; 0x30fc; 0x30e0];
  Row 0x3321 0x3321 Mapped [0x30b7; 0x30ea; 0x30f3; 0x30b0];
  Row 0x3322 0x3322 Mapped [0x30bb; 0x30f3; 0x30c1];
  Row 0x3323 0x3323 Mapped [0x30bb; 0x30f3; 0x30c8];
  Row 0x3324 0x3324 Mapped [0x30c0; 0x30fc; 0x30b9];
  Row 0x3325 0x3325 Mapped [0x30c7; 0x30b7];
  Row 0x3326 0x3326 Mapped [0x30c9; 0x30eb];
  Row 0x3327 0x3327 Mapped [0x30c8; 0x30f3];
  Row 0x3328 0x3328 Mapped [0x30ca; 0x30ce];
  Row 0x3329 0x3329 Mapped [0x30ce; 0x30c3; 0x30c8];
  Row 0x332a 0x332a Mapped [0x30cf; 0x30a4; 0x30c4];
  Row 0x332b 0x332b Mapped [0x30d1; 0x30fc; 0x30bb; 0x30f3; 0x30c8];
  Row 0x332c 0x332c Mapped [0x30d1; 0x30fc; 0x30c4];
  Row 0x332d 0x332d Mapped [0x30d0; 0x30fc; 0x30ec; 0x30eb];
  Row 0x332e 0x332e Mapped [0x30d4; 0x30a2; 0x30b9; 0x30c8; 0x30eb];
  Row 0x332f 0x332f Mapped [0x30d4; 0x30af; 0x30eb];
  Row 0x3330 0x3330 Mapped [0x30d4; 0x30b3];
  Row 0x3331 0x3331 Mapped [0x30d3; 0x30eb];
  Row 0x3332 0x3332 Mapped [0x30d5; 0x30a1; 0x30e9; 0x30c3; 0x30c9];
  Row 0x3333 0x3333 Mapped [0x30d5; 0x30a3; 0x30fc; 0x30c8];
  Row 0x3334 0x3334 Mapped [0x30d6; 0x30c3; 0x30b7; 0x30a7; 0x30eb]].
Definition idna_rows_37 : list row := [
  Row 0x3335 0x3335 Mapped [0x30d5; 0x30e9; 0x30f3];
  Row 0x3336 0x3336 Mapped [0x30d8; 0x30af; 0x30bf; 0x30fc; 0x30eb];
  Row 0x3337 0x3337 Mapped [0x30da; 0x30bd];
  Row 0x3338 0x3338 Mapped [0x30da; 0x30cb; 0x30d2];
  Row 0x3339 0x3339 Mapped [0x30d8; 0x30eb; 0x30c4];
  Row 0x333a 0x333a Mapped [0x30da; 0x30f3; 0x30b9];
  Row 0x333b 0x333b Mapped [0x30da; 0x30fc; 0x30b8];
  Row 0x333c 0x333c Mapped [0x30d9; 0x30fc; 0x30bf];
  Row 0x333d 0x333d Mapped [0x30dd; 0x30a4; 0x30f3; 0x30c8];
  Row 0x333e 0x333e Mapped [0x30dc; 0x30eb; 0x30c8];
  Row 0x333f 0x333f Mapped [0x30db; 0x30f3];
  Row 0x3340 0x3340 Mapped [0x30dd; 0x30f3; 0x30c9];
  Row 0x3341 0x3341 Mapped [0x30db; 0x30fc; 0x30eb];
  Row 0x3342 0x3342 Mapped [0x30db; 0x30fc; 0x30f3];
  Row 0x3343 0x3343 Mapped [0x30de; 0x30a4; 0x30af; 0x30ed];
  Row 0x3344 0x3344 Mapped [0x30de; 0x30a4; 0x30eb];
  Row 0x3345 0x3345 Mapped [0x30de; 0x30c3; 0x30cf];
  Row 0x3346 0x3346 Mapped [0x30de; 0x30eb; 0x30af];
  Row 0x3347 0x3347 Mapped [0x30de; 0x30f3; 0x30b7; 0x30e7; 0x30f3];
  Row 0x3348 0x3348 Mapped [0x30df; 0x30af; 0x30ed; 0x30f3];
  Row 0x3349 0x3349 Mapped [0x30df; 0x30ea];
  Row 0x334a 0x334a Mapped [0x30df; 0x30ea; 0x30d0; 0x30fc; 0x30eb];
  Row 0x334b 0x334b Mapped [0x30e1; 0x30ac];
  Row 0x334c 0x334c Mapped [0x30e1; 0x30ac; 0x30c8; 0x30f3];
  Row 0x334d 0x334d Mapped [0x30e1; 0x30fc; 0x30c8; 0x30eb];
  Row 0x334e 0x334e Mapped [0x30e4; 0x30fc; 0x30c9];
  Row 0x334f 0x334f Mapped [0x30e4; 0x30fc; 0x30eb];
  Row 0x3350 0x3350 Mapped [0x30e6; 0x30a2; 0x30f3];
  Row 0x3351 0x3351 Mapped [0x30ea; 0x30c3; 0x30c8; 0x30eb];
  Row 0x3352 0x3352 Mapped [0x30ea; 0x30e9];
  Row 0x3353 0x3353 Mapped [0x30eb; 0x30d4; 0x30fc];
  Row 0x3354 0x3354 Mapped [0x30eb; 0x30fc; 0x30d6; 0x30eb];
  Row 0x3355 0x3355 Mapped [0x30ec; 0x30e0];
  Row 0x3356 0x3356 Mapped [0x30ec; 0x30f3; 0x30c8; 0x30b2; 0x30f3];
  Row 0x3357 0x3357 Mapped [0x30ef; 0x30c3; 0x30c8];
  Row 0x3358 0x3358 Mapped [0x30; 0x70b9];
  Row 0x3359 0x3359 Mapped [0x31; 0x70b9];
  Row 0x335a 0x335a Mapped [0x32; 0x70b9];
  Row 0x335b 0x335b Mapped [0x33; 0x70b9];
  Row 0x335c 0x335c Mapped [0x34; 0x70b9];
  Row 0x335d 0x335d Mapped [0x35; 0x70b9];
  Row 0x335e 0x335e Mapped [0x36; 0x70b9];
  Row 0x335f 0x335f Mapped [0x37; 0x70b9];
  Row 0x3360 0x3360 Mapped [0x38; 0x70b9];
  Row 0x3361 0x3361 Mapped [0x39; 0x70b9];
  Row 0x3362 0x3362 Mapped [0x31; 0x30; 0x70b9];
  Row 0x3363 0x3363 Mapped [0x31; 0x31; 0x70b9];
  Row 0x3364 0x3364 Mapped [0x31; 0x32; 0x70b9];
  Row 0x3365 0x3365 Mapped [0x31; 0x33; 0x70b9];
  Row 0x3366 0x3366 Mapped [0x31; 0x34; 0x70b9];
  Row 0x3367 0x3367 Mapped [0x31; 0x35; 0x70b9];
  Row 0x3368 0x3368 Mapped [0x31; 0x36; 0x70b9];
  Row 0x3369 0x3369 Mapped [0x31; 0x37; 0x70b9];
  Row 0x336a 0x336a Mapped [0x31; 0x38; 0x70b9];
  Row 0x336b 0x336b Mapped [0x31; 0x39; 0x70b9];
  Row 0x336c 0x336c Mapped [0x32; 0x30; 0x70b9];
  Row 0x336d 0x336d Mapped [0x32; 0x31; 0x70b9];
  Row 0x336e 0x336e Mapped [0x32; 0x32; 0x70b9];
  Row 0x336f 0x336f Mapped [0x32; 0x33; 0x70b9];
  Row 0x3370 0x3370 Mapped [0x32; 0x34; 0x70b9];
  Row 0x3371 0x3371 Mapped [0x68; 0x70; 0x61];
  Row 0x3372 0x3372 Mapped [0x64; 0x61];
  Row 0x3373 0x3373 Mapped [0x61; 0x75];
  Row 0x3374 0x3374 Mapped [0x62; 0x61; 0x72];
  Row 0x3375 0x3375 Mapped [0x6f; 0x76];
  Row 0x3376 0x3376 Mapped [0x70; 0x63];
  Row 0x3377 0x3377 Mapped [0x64; 0x6d];
  Row 0x3378 0x3378 Mapped [0x64; 0x6d; 0x32];
  Row 0x3379 0x3379 Mapped [0x64; 0x6d; 0x33];
  Row 0x337a 0x337a Mapped [0x69; 0x75];
  Row 0x337b 0x337b Mapped [0x5e73; 0x6210];
  Row 0x337c 0x337c Mapped [0x662d; 0x548c];
  Row 0x337d 0x337d Mapped [0x5927; 0x6b63];
  Row 0x337e 0x337e Mapped [0x660e; 0x6cbb];
  Row 0x337f 0x337f Mapped [0x682a; 0x5f0f; 0x4f1a; 0x793e];
  Row 0x3380 0x3380 Mapped [0x70; 0x61];
  Row 0x3381 0x3381 Mapped [0x6e; 0x61];
  Row 0x3382 0x3382 Mapped [0x3bc; 0x61];
  Row 0x3383 0x3383 Mapped [0x6d; 0x61];
  Row 0x3384 0x3384 Mapped [0x6b; 0x61];
  Row 0x3385 0x3385 Mapped [0x6b; 0x62];
  Row 0x3386 0x3386 Mapped [0x6d; 0x62];
  Row 0x3387 0x3387 Mapped [0x67; 0x62];
  Row 0x3388 0x3388 Mapped [0x63; 0x61; 0x6c];
  Row 0x3389 0x3389 Mapped [0x6b; 0x63; 0x61; 0x6c];
  Row 0x338a 0x338a Mapped [0x70; 0x66];
  Row 0x338b 0x338b Mapped [0x6e; 0x66];
  Row 0x338c 0x338c Mapped [0x3bc; 0x66];
  Row 0x338d 0x338d Mapped [0x3bc; 0x67];
  Row 0x338e 0x338e Mapped [0x6d; 0x67];
  Row 0x338f 0x338f Mapped [0x6b; 0x67];
  Row 0x3390 0x3390 Mapped [0x68; 0x7a];
  Row 0x3391 0x3391 Mapped [0x6b; 0x68; 0x7a];
  Row 0x3392 0x3392 Mapped [0x6d; 0x68; 0x7a];
  Row 0x3393 0x3393 Mapped [0x67; 0x68; 0x7a];
  Row 0x3394 0x3394 Mapped [0x74; 0x68; 0x7a];
  Row 0x3395 0x3395 Mapped [0x3bc; 0x6c];
  Row 0x3396 0x3396 Mapped [0x6d; 0x6c];
  Row 0x3397 0x3397 Mapped [0x64; 0x6c];
  Row 0x3398 0x3398 Mapped [0x6b; 0x6c]].
Definition idna_rows_38 : list row := [
  Row 0x3399 0x3399 Mapped [0x66; 0x6d];
  Row 0x339a 0x339a Mapped [0x6e; 0x6d];
  Row 0x339b 0x339b Mapped [0x3bc; 0x6d];
  Row 0x339c 0x339c Mapped [0x6d; 0x6d];
  Row 0x339d 0x339d Mapped [0x63; 0x6d];
  Row 0x339e 0x339e Mapped [0x6b; 0x6d];
  Row 0x339f 0x339f Mapped [0x6d; 0x6d; 0x32];
  Row 0x33a0 0x33a0 Mapped [0x63; 0x6d; 0x32];
  Row 0x33a1 0x33a1 Mapped [0x6d; 0x32];
  Row 0x33a2 0x33a2 Mapped [0x6b; 0x6d; 0x32];
  Row 0x33a3 0x33a3 Mapped [0x6d; 0x6d; 0x33];
  Row 0x33a4 0x33a4 Mapped [0x63; 0x6d; 0x33];
  Row 0x33a5 0x33a5 Mapped [0x6d; 0x33];
  Row 0x33a6 0x33a6 Mapped [0x6b; 0x6d; 0x33];
  Row 0x33a7 0x33a7 Mapped [0x6d; 0x2215; 0x73];
  Row 0x33a8 0x33a8 Mapped [0x6d; 0x2215; 0x73; 0x32];
  Row 0x33a9 0x33a9 Mapped [0x70; 0x61];
  Row 0x33aa 0x33aa Mapped [0x6b; 0x70; 0x61];
  Row 0x33ab 0x33ab Mapped [0x6d; 0x70; 0x61];
  Row 0x33ac 0x33ac Mapped [0x67; 0x70; 0x61];
  Row 0x33ad 0x33ad Mapped [0x72; 0x61; 0x64];
  Row 0x33ae 0x33ae Mapped [0x72; 0x61; 0x64; 0x2215; 0x73];
  Row 0x33af 0x33af Mapped [0x72; 0x61; 0x64; 0x2215; 0x73; 0x32];
  Row 0x33b0 0x33b0 Mapped [0x70; 0x73];
  Row 0x33b1 0x33b1 Mapped [0x6e; 0x73];
  Row 0x33b2 0x33b2 Mapped [0x3bc; 0x73];
  Row 0x33b3 0x33b3 Mapped [0x6d; 0x73];
  Row 0x33b4 0x33b4 Mapped [0x70; 0x76];
  Row 0x33b5 0x33b5 Mapped [0x6e; 0x76];
  Row 0x33b6 0x33b6 Mapped [0x3bc; 0x76];
  Row 0x33b7 0x33b7 Mapped [0x6d; 0x76];
  Row 0x33b8 0x33b8 Mapped [0x6b; 0x76];
  Row 0x33b9 0x33b9 Mapped [0x6d; 0x76];
  Row 0x33ba 0x33ba Mapped [0x70; 0x77];
  Row 0x33bb 0x33bb Mapped [0x6e; 0x77];
  Row 0x33bc 0x33bc Mapped [0x3bc; 0x77];
  Row 0x33bd 0x33bd Mapped [0x6d; 0x77];
  Row 0x33be 0x33be Mapped [0x6b; 0x77];
  Row 0x33bf 0x33bf Mapped [0x6d; 0x77];
  Row 0x33c0 0x33c0 Mapped [0x6b; 0x3c9];
  Row 0x33c1 0x33c1 Mapped [0x6d; 0x3c9];
  Row 0x33c2 0x33c2 Disallowed [];
  Row 0x33c3 0x33c3 Mapped [0x62; 0x71];
  Row 0x33c4 0x33c4 Mapped [0x63; 0x63];
  Row 0x33c5 0x33c5 Mapped [0x63; 0x64];
  Row 0x33c6 0x33c6 Mapped [0x63; 0x2215; 0x6b; 0x67];
  Row 0x33c7 0x33c7 Disallowed [];
  Row 0x33c8 0x33c8 Mapped [0x64; 0x62];
  Row 0x33c9 0x33c9 Mapped [0x67; 0x79];
  Row 0x33ca 0x33ca Mapped [0x68; 0x61];
  Row 0x33cb 0x33cb Mapped [0x68; 0x70];
  Row 0x33cc 0x33cc Mapped [0x69; 0x6e];
  Row 0x33cd 0x33cd Mapped [0x6b; 0x6b];
  Row 0x33ce 0x33ce Mapped [0x6b; 0x6d];
  Row 0x33cf 0x33cf Mapped [0x6b; 0x74];
  Row 0x33d0 0x33d0 Mapped [0x6c; 0x6d];
  Row 0x33d1 0x33d1 Mapped [0x6c; 0x6e];
  Row 0x33d2 0x33d2 Mapped [0x6c; 0x6f; 0x67];
  Row 0x33d3 0x33d3 Mapped [0x6c; 0x78];
  Row 0x33d4 0x33d4 Mapped [0x6d; 0x62];
  Row 0x33d5 0x33d5 Mapped [0x6d; 0x69; 0x6c];
  Row 0x33d6 0x33d6 Mapped [0x6d; 0x6f; 0x6c];
  Row 0x33d7 0x33d7 Mapped [0x70; 0x68];
  Row 0x33d8 0x33d8 Disallowed [];
  Row 0x33d9 0x33d9 Mapped [0x70; 0x70; 0x6d];
  Row 0x33da 0x33da Mapped [0x70; 0x72];
  Row 0x33db 0x33db Mapped [0x73; 0x72];
  Row 0x33dc 0x33dc Mapped [0x73; 0x76];
  Row 0x33dd 0x33dd Mapped [0x77; 0x62];
  Row 0x33de 0x33de Mapped [0x76; 0x2215; 0x6d];
  Row 0x33df 0x33df Mapped [0x61; 0x2215; 0x6d];
  Row 0x33e0 0x33e0 Mapped [0x31; 0x65e5];
  Row 0x33e1 0x33e1 Mapped [0x32; 0x65e5];
  Row 0x33e2 0x33e2 Mapped [0x33; 0x65e5];
  Row 0x33e3 0x33e3 Mapped [0x34; 0x65e5];
  Row 0x33e4 0x33e4 Mapped [0x35; 0x65e5];
  Row 0x33e5 0x33e5 Mapped [0x36; 0x65e5];
  Row 0x33e6 0x33e6 Mapped [0x37; 0x65e5];
  Row 0x33e7 0x33e7 Mapped [0x38; 0x65e5];
  Row 0x33e8 0x33e8 Mapped [0x39; 0x65e5];
  Row 0x33e9 0x33e9 Mapped [0x31; 0x30; 0x65e5];
  Row 0x33ea 0x33ea Mapped [0x31; 0x31; 0x65e5];
  Row 0x33eb 0x33eb Mapped [0x31; 0x32; 0x65e5];
  Row 0x33ec 0x33ec Mapped [0x31; 0x33; 0x65e5];
  Row 0x33ed 0x33ed Mapped [0x31; 0x34; 0x65e5];
  Row 0x33ee 0x33ee Mapped [0x31; 0x35; 0x65e5];
  Row 0x33ef 0x33ef Mapped [0x31; 0x36; 0x65e5];
  Row 0x33f0 0x33f0 Mapped [0x31; 0x37; 0x65e5];
  Row 0x33f1 0x33f1 Mapped [0x31; 0x38; 0x65e5];
  Row 0x33f2 0x33f2 Mapped [0x31; 0x39; 0x65e5];
  Row 0x33f3 0x33f3 Mapped [0x32; 0x30; 0x65e5];
  Row 0x33f4 0x33f4 Mapped [0x32; 0x31; 0x65e5];
  Row 0x33f5 0x33f5 Mapped [0x32; 0x32; 0x65e5];
  Row 0x33f6 0x33f6 Mapped [0x32; 0x33; 0x65e5];
  Row 0x33f7 0x33f7 Mapped [0x32; 0x34; 0x65e5];
  Row 0x33f8 0x33f8 Mapped [0x32; 0x35; 0x65e5];
  Row 0x33f9 0x33f9 Mapped [0x32; 0x36; 0x65e5];
  Row 0x33fa 0x33fa Mapped [0x32; 0x37; 0x65e5];
  Row 0x33fb 0x33fb Mapped [0x32; 0x38; 0x65e5];
  Row 0x33fc 0x33fc Mapped [0x32; 0x39; 0x65e5]].
Definition idna_rows_39 : list row := [
  Row 0x33fd 0x33fd Mapped [0x33; 0x30; 0x65e5];
  Row 0x33fe 0x33fe Mapped [0x33; 0x31; 0x65e5];
  Row 0x33ff 0x33ff Mapped [0x67; 0x61; 0x6c];
  Row 0x3400 0x4db5 Valid [];
  Row 0x4db6 0x4dbf Valid [];
  Row 0x4dc0 0x4dff Valid [];
  Row 0x4e00 0x9fa5 Valid [];
  Row 0x9fa6 0x9fbb Valid [];
  Row 0x9fbc 0x9fc3 Valid [];
  Row 0x9fc4 0x9fcb Valid [];
  Row 0x9fcc 0x9fcc Valid [];
  Row 0x9fcd 0x9fd5 Valid [];
  Row 0x9fd6 0x9fea Valid [];
  Row 0x9feb 0x9fef Valid [];
  Row 0x9ff0 0x9ffc Valid [];
  Row 0x9ffd 0x9fff Disallowed [];
  Row 0xa000 0xa48c Valid [];
  Row 0xa48d 0xa48f Disallowed [];
  Row 0xa490 0xa4a1 Valid [];
  Row 0xa4a2 0xa4a3 Valid [];
  Row 0xa4a4 0xa4b3 Valid [];
  Row 0xa4b4 0xa4b4 Valid [];
  Row 0xa4b5 0xa4c0 Valid [];
  Row 0xa4c1 0xa4c1 Valid [];
  Row 0xa4c2 0xa4c4 Valid [];
  Row 0xa4c5 0xa4c5 Valid [];
  Row 0xa4c6 0xa4c6 Valid [];
  Row 0xa4c7 0xa4cf Disallowed [];
  Row 0xa4d0 0xa4fd Valid [];
  Row 0xa4fe 0xa4ff Valid [];
  Row 0xa500 0xa60c Valid [];
  Row 0xa60d 0xa60f Valid [];
  Row 0xa610 0xa62b Valid [];
  Row 0xa62c 0xa63f Disallowed [];
  Row 0xa640 0xa640 Mapped [0xa641];
  Row 0xa641 0xa641 Valid [];
  Row 0xa642 0xa642 Mapped [0xa643];
  Row 0xa643 0xa643 Valid [];
  Row 0xa644 0xa644 Mapped [0xa645];
  Row 0xa645 0xa645 Valid [];
  Row 0xa646 0xa646 Mapped [0xa647];
  Row 0xa647 0xa647 Valid [];
  Row 0xa648 0xa648 Mapped [0xa649];
  Row 0xa649 0xa649 Valid [];
  Row 0xa64a 0xa64a Mapped [0xa64b];
  Row 0xa64b 0xa64b Valid [];
  Row 0xa64c 0xa64c Mapped [0xa64d];
  Row 0xa64d 0xa64d Valid [];
  Row 0xa64e 0xa64e Mapped [0xa64f];
  Row 0xa64f 0xa64f Valid [];
  Row 0xa650 0xa650 Mapped [0xa651];
  Row 0xa651 0xa651 Valid [];
  Row 0xa652 0xa652 Mapped [0xa653];
  Row 0xa653 0xa653 Valid [];
  Row 0xa654 0xa654 Mapped [0xa655];
  Row 0xa655 0xa655 Valid [];
  Row 0xa656 0xa656 Mapped [0xa657];
  Row 0xa657 0xa657 Valid [];
  Row 0xa658 0xa658 Mapped [0xa659];
  Row 0xa659 0xa659 Valid [];
  Row 0xa65a 0xa65a Mapped [0xa65b];
  Row 0xa65b 0xa65b Valid [];
  Row 0xa65c 0xa65c Mapped [0xa65d];
  Row 0xa65d 0xa65d Valid [];
  Row 0xa65e 0xa65e Mapped [0xa65f];
  Row 0xa65f 0xa65f Valid [];
  Row 0xa660 0xa660 Mapped [0xa661];
  Row 0xa661 0xa661 Valid [];
  Row 0xa662 0xa662 Mapped [0xa663];
  Row 0xa663 0xa663 Valid [];
  Row 0xa664 0xa664 Mapped [0xa665];
  Row 0xa665 0xa665 Valid [];
  Row 0xa666 0xa666 Mapped [0xa667];
  Row 0xa667 0xa667 Valid [];
  Row 0xa668 0xa668 Mapped [0xa669];
  Row 0xa669 0xa669 Valid [];
  Row 0xa66a 0xa66a Mapped [0xa66b];
  Row 0xa66b 0xa66b Valid [];
  Row 0xa66c 0xa66c Mapped [0xa66d];
  Row 0xa66d 0xa66f Valid [];
  Row 0xa670 0xa673 Valid [];
  Row 0xa674 0xa67b Valid [];
  Row 0xa67c 0xa67d Valid [];
  Row 0xa67e 0xa67e Valid [];
  Row 0xa67f 0xa67f Valid [];
  Row 0xa680 0xa680 Mapped [0xa681];
  Row 0xa681 0xa681 Valid [];
  Row 0xa682 0xa682 Mapped [0xa683];
  Row 0xa683 0xa683 Valid [];
  Row 0xa684 0xa684 Mapped [0xa685];
  Row 0xa685 0xa685 Valid [];
  Row 0xa686 0xa686 Mapped [0xa687];
  Row 0xa687 0xa687 Valid [];
  Row 0xa688 0xa688 Mapped [0xa689];
  Row 0xa689 0xa689 Valid [];
  Row 0xa68a 0xa68a Mapped [0xa68b];
  Row 0xa68b 0xa68b Valid [];
  Row 0xa68c 0xa68c Mapped [0xa68d];
  Row 0xa68d 0xa68d Valid [];
  Row 0xa68e 0xa68e Mapped [0xa68f]].
Definition idna_rows_40 : list row := [
  Row 0xa68f 0xa68f Valid [];
  Row 0xa690 0xa690 Mapped [0xa691];
  Row 0xa691 0xa691 Valid [];
  Row 0xa692 0xa692 Mapped [0xa693];
  Row 0xa693 0xa693 Valid [];
  Row 0xa694 0xa694 Mapped [0xa695];
  Row 0xa695 0xa695 Valid [];
  Row 0xa696 0xa696 Mapped [0xa697];
  Row 0xa697 0xa697 Valid [];
  Row 0xa698 0xa698 Mapped [0xa699];
  Row 0xa699 0xa699 Valid [];
  Row 0xa69a 0xa69a Mapped [0xa69b];
  Row 0xa69b 0xa69b Valid [];
  Row 0xa69c 0xa69c Mapped [0x44a];
  Row 0xa69d 0xa69d Mapped [0x44c];
  Row 0xa69e 0xa69e Valid [];
  Row 0xa69f 0xa69f Valid [];
  Row 0xa6a0 0xa6e5 Valid [];
  Row 0xa6e6 0xa6ef Valid [];
  Row 0xa6f0 0xa6f1 Valid [];
  Row 0xa6f2 0xa6f7 Valid [];
  Row 0xa6f8 0xa6ff Disallowed [];
  Row 0xa700 0xa716 Valid [];
  Row 0xa717 0xa71a Valid [];
  Row 0xa71b 0xa71f Valid [];
  Row 0xa720 0xa721 Valid [];
  Row 0xa722 0xa722 Mapped [0xa723];
  Row 0xa723 0xa723 Valid [];
  Row 0xa724 0xa724 Mapped [0xa725];
  Row 0xa725 0xa725 Valid [];
  Row 0xa726 0xa726 Mapped [0xa727];
  Row 0xa727 0xa727 Valid [];
  Row 0xa728 0xa728 Mapped [0xa729];
  Row 0xa729 0xa729 Valid [];
  Row 0xa72a 0xa72a Mapped [0xa72b];
  Row 0xa72b 0xa72b Valid [];
  Row 0xa72c 0xa72c Mapped [0xa72d];
  Row 0xa72d 0xa72d Valid [];
  Row 0xa72e 0xa72e Mapped [0xa72f];
  Row 0xa72f 0xa731 Valid [];
  Row 0xa732 0xa732 Mapped [0xa733];
  Row 0xa733 0xa733 Valid [];
  Row 0xa734 0xa734 Mapped [0xa735];
  Row 0xa735 0xa735 Valid [];
  Row 0xa736 0xa736 Mapped [0xa737];
  Row 0xa737 0xa737 Valid [];
  Row 0xa738 0xa738 Mapped [0xa739];
  Row 0xa739 0xa739 Valid [];
  Row 0xa73a 0xa73a Mapped [0xa73b];
  Row 0xa73b 0xa73b Valid [];
  Row 0xa73c 0xa73c Mapped [0xa73d];
  Row 0xa73d 0xa73d Valid [];
  Row 0xa73e 0xa73e Mapped [0xa73f];
  Row 0xa73f 0xa73f Valid [];
  Row 0xa740 0xa740 Mapped [0xa741];
  Row 0xa741 0xa741 Valid [];
  Row 0xa742 0xa742 Mapped [0xa743];
  Row 0xa743 0xa743 Valid [];
  Row 0xa744 0xa744 Mapped [0xa745];
  Row 0xa745 0xa745 Valid [];
  Row 0xa746 0xa746 Mapped [0xa747];
  Row 0xa747 0xa747 Valid [];
  Row 0xa748 0xa748 Mapped [0xa749];
  Row 0xa749 0xa749 Valid [];
  Row 0xa74a 0xa74a Mapped [0xa74b];
  Row 0xa74b 0xa74b Valid [];
  Row 0xa74c 0xa74c Mapped [0xa74d];
  Row 0xa74d 0xa74d Valid [];
  Row 0xa74e 0xa74e Mapped [0xa74f];
  Row 0xa74f 0xa74f Valid [];
  Row 0xa750 0xa750 Mapped [0xa751];
  Row 0xa751 0xa751 Valid [];
  Row 0xa752 0xa752 Mapped [0xa753];
  Row 0xa753 0xa753 Valid [];
  Row 0xa754 0xa754 Mapped [0xa755];
  Row 0xa755 0xa755 Valid [];
  Row 0xa756 0xa756 Mapped [0xa757];
  Row 0xa757 0xa757 Valid [];
  Row 0xa758 0xa758 Mapped [0xa759];
  Row 0xa759 0xa759 Valid [];
  Row 0xa75a 0xa75a Mapped [0xa75b];
  Row 0xa75b 0xa75b Valid [];
  Row 0xa75c 0xa75c Mapped [0xa75d];
  Row 0xa75d 0xa75d Valid [];
  Row 0xa75e 0xa75e Mapped [0xa75f];
  Row 0xa75f 0xa75f Valid [];
  Row 0xa760 0xa760 Mapped [0xa761];
  Row 0xa761 0xa761 Valid [];
  Row 0xa762 0xa762 Mapped [0xa763];
  Row 0xa763 0xa763 Valid [];
  Row 0xa764 0xa764 Mapped [0xa765];
  Row 0xa765 0xa765 Valid [];
  Row 0xa766 0xa766 Mapped [0xa767];
  Row 0xa767 0xa767 Valid [];
  Row 0xa768 0xa768 Mapped [0xa769];
  Row 0xa769 0xa769 Valid [];
  Row 0xa76a 0xa76a Mapped [0xa76b];
  Row 0xa76b 0xa76b Valid [];
  Row 0xa76c 0xa76c Mapped [0xa76d];
  Row 0xa76d 0xa76d Valid []].
Definition idna_rows_41 : list row := [
  Row 0xa76e 0xa76e Mapped [0xa76f];
  Row 0xa76f 0xa76f Valid [];
  Row 0xa770 0xa770 Mapped [0xa76f];
  Row 0xa771 0xa778 Valid [];
  Row 0xa779 0xa779 Mapped [0xa77a];
  Row 0xa77a 0xa77a Valid [];
  Row 0xa77b 0xa77b Mapped [0xa77c];
  Row 0xa77c 0xa77c Valid [];
  Row 0xa77d 0xa77d Mapped [0x1d79];
  Row 0xa77e 0xa77e Mapped [0xa77f];
  Row 0xa77f 0xa77f Valid [];
  Row 0xa780 0xa780 Mapped [0xa781];
  Row 0xa781 0xa781 Valid [];
  Row 0xa782 0xa782 Mapped [0xa783];
  Row 0xa783 0xa783 Valid [];
  Row 0xa784 0xa784 Mapped [0xa785];
  Row 0xa785 0xa785 Valid [];
  Row 0xa786 0xa786 Mapped [0xa787];
  Row 0xa787 0xa788 Valid [];
  Row 0xa789 0xa78a Valid [];
  Row 0xa78b 0xa78b Mapped [0xa78c];
  Row 0xa78c 0xa78c Valid [];
  Row 0xa78d 0xa78d Mapped [0x265];
  Row 0xa78e 0xa78e Valid [];
  Row 0xa78f 0xa78f Valid [];
  Row 0xa790 0xa790 Mapped [0xa791];
  Row 0xa791 0xa791 Valid [];
  Row 0xa792 0xa792 Mapped [0xa793];
  Row 0xa793 0xa793 Valid [];
  Row 0xa794 0xa795 Valid [];
  Row 0xa796 0xa796 Mapped [0xa797];
  Row 0xa797 0xa797 Valid [];
  Row 0xa798 0xa798 Mapped [0xa799];
  Row 0xa799 0xa799 Valid [];
  Row 0xa79a 0xa79a Mapped [0xa79b];
  Row 0xa79b 0xa79b Valid [];
  Row 0xa79c 0xa79c Mapped [0xa79d];
  Row 0xa79d 0xa79d Valid [];
  Row 0xa79e 0xa79e Mapped [0xa79f];
  Row 0xa79f 0xa79f Valid [];
  Row 0xa7a0 0xa7a0 Mapped [0xa7a1];
  Row 0xa7a1 0xa7a1 Valid [];
  Row 0xa7a2 0xa7a2 Mapped [0xa7a3];
  Row 0xa7a3 0xa7a3 Valid [];
  Row 0xa7a4 0xa7a4 Mapped [0xa7a5];
  Row 0xa7a5 0xa7a5 Valid [];
  Row 0xa7a6 0xa7a6 Mapped [0xa7a7];
  Row 0xa7a7 0xa7a7 Valid [];
  Row 0xa7a8 0xa7a8 Mapped [0xa7a9];
  Row 0xa7a9 0xa7a9 Valid [];
  Row 0xa7aa 0xa7aa Mapped [0x266];
  Row 0xa7ab 0xa7ab Mapped [0x25c];
  Row 0xa7ac 0xa7ac Mapped [0x261];
  Row 0xa7ad 0xa7ad Mapped [0x26c];
  Row 0xa7ae 0xa7ae Mapped [0x26a];
  Row 0xa7af 0xa7af Valid [];
  Row 0xa7b0 0xa7b0 Mapped [0x29e];
  Row 0xa7b1 0xa7b1 Mapped [0x287];
  Row 0xa7b2 0xa7b2 Mapped [0x29d];
  Row 0xa7b3 0xa7b3 Mapped [0xab53];
  Row 0xa7b4 0xa7b4 Mapped [0xa7b5];
  Row 0xa7b5 0xa7b5 Valid [];
  Row 0xa7b6 0xa7b6 Mapped [0xa7b7];
  Row 0xa7b7 0xa7b7 Valid [];
  Row 0xa7b8 0xa7b8 Mapped [0xa7b9];
  Row 0xa7b9 0xa7b9 Valid [];
  Row 0xa7ba 0xa7ba Mapped [0xa7bb];
  Row 0xa7bb 0xa7bb Valid [];
  Row 0xa7bc 0xa7bc Mapped [0xa7bd];
  Row 0xa7bd 0xa7bd Valid [];
  Row 0xa7be 0xa7be Mapped [0xa7bf];
  Row 0xa7bf 0xa7bf Valid [];
  Row 0xa7c0 0xa7c1 Disallowed [];
  Row 0xa7c2 0xa7c2 Mapped [0xa7c3];
  Row 0xa7c3 0xa7c3 Valid [];
  Row 0xa7c4 0xa7c4 Mapped [0xa794];
  Row 0xa7c5 0xa7c5 Mapped [0x282];
  Row 0xa7c6 0xa7c6 Mapped [0x1d8e];
  Row 0xa7c7 0xa7c7 Mapped [0xa7c8];
  Row 0xa7c8 0xa7c8 Valid [];
  Row 0xa7c9 0xa7c9 Mapped [0xa7ca];
  Row 0xa7ca 0xa7ca Valid [];
  Row 0xa7cb 0xa7f4 Disallowed [];
  Row 0xa7f5 0xa7f5 Mapped [0xa7f6];
  Row 0xa7f6 0xa7f6 Valid [];
  Row 0xa7f7 0xa7f7 Valid [];
  Row 0xa7f8 0xa7f8 Mapped [0x127];
  Row 0xa7f9 0xa7f9 Mapped [0x153];
  Row 0xa7fa 0xa7fa Valid [];
  Row 0xa7fb 0xa7ff Valid [];
  Row 0xa800 0xa827 Valid [];
  Row 0xa828 0xa82b Valid [];
  Row 0xa82c 0xa82c Valid [];
  Row 0xa82d 0xa82f Disallowed [];
  Row 0xa830 0xa839 Valid [];
  Row 0xa83a 0xa83f Disallowed [];
  Row 0xa840 0xa873 Valid [];
  Row 0xa874 0xa877 Valid [];
  Row 0xa878 0xa87f Disallowed [];
  Row 0xa880 0xa8c4 Valid []].
Definition idna_rows_42 : list row := [
  Row 0xa8c5 0xa8c5 Valid [];
  Row 0xa8c6 0xa8cd Disallowed [];
  Row 0xa8ce 0xa8cf Valid [];
  Row 0xa8d0 0xa8d9 Valid [];
  Row 0xa8da 0xa8df Disallowed [];
  Row 0xa8e0 0xa8f7 Valid [];
  Row 0xa8f8 0xa8fa Valid [];
  Row 0xa8fb 0xa8fb Valid [];
  Row 0xa8fc 0xa8fc Valid [];
  Row 0xa8fd 0xa8fd Valid [];
  Row 0xa8fe 0xa8ff Valid [];
  Row 0xa900 0xa92d Valid [];
  Row 0xa92e 0xa92f Valid [];
  Row 0xa930 0xa953 Valid [];
  Row 0xa954 0xa95e Disallowed [];
  Row 0xa95f 0xa95f Valid [];
  Row 0xa960 0xa97c Valid [];
  Row 0xa97d 0xa97f Disallowed [];
  Row 0xa980 0xa9c0 Valid [];
  Row 0xa9c1 0xa9cd Valid [];
  Row 0xa9ce 0xa9ce Disallowed [];
  Row 0xa9cf 0xa9d9 Valid [];
  Row 0xa9da 0xa9dd Disallowed [];
  Row 0xa9de 0xa9df Valid [];
  Row 0xa9e0 0xa9fe Valid [];
  Row 0xa9ff 0xa9ff Disallowed [];
  Row 0xaa00 0xaa36 Valid [];
  Row 0xaa37 0xaa3f Disallowed [];
  Row 0xaa40 0xaa4d Valid [];
  Row 0xaa4e 0xaa4f Disallowed [];
  Row 0xaa50 0xaa59 Valid [];
  Row 0xaa5a 0xaa5b Disallowed [];
  Row 0xaa5c 0xaa5f Valid [];
  Row 0xaa60 0xaa76 Valid [];
  Row 0xaa77 0xaa79 Valid [];
  Row 0xaa7a 0xaa7b Valid [];
  Row 0xaa7c 0xaa7f Valid [];
  Row 0xaa80 0xaac2 Valid [];
  Row 0xaac3 0xaada Disallowed [];
  Row 0xaadb 0xaadd Valid [];
  Row 0xaade 0xaadf Valid [];
  Row 0xaae0 0xaaef Valid [];
  Row 0xaaf0 0xaaf1 Valid [];
  Row 0xaaf2 0xaaf6 Valid [];
  Row 0xaaf7 0xab00 Disallowed [];
  Row 0xab01 0xab06 Valid [];
  Row 0xab07 0xab08 Disallowed [];
  Row 0xab09 0xab0e Valid [];
  Row 0xab0f 0xab10 Disallowed [];
  Row 0xab11 0xab16 Valid [];
  Row 0xab17 0xab1f Disallowed [];
  Row 0xab20 0xab26 Valid [];
  Row 0xab27 0xab27 Disallowed [];
  Row 0xab28 0xab2e Valid [];
  Row 0xab2f 0xab2f Disallowed [];
  Row 0xab30 0xab5a Valid [];
  Row 0xab5b 0xab5b Valid [];
  Row 0xab5c 0xab5c Mapped [0xa727];
  Row 0xab5d 0xab5d Mapped [0xab37];
  Row 0xab5e 0xab5e Mapped [0x26b];
  Row 0xab5f 0xab5f Mapped [0xab52];
  Row 0xab60 0xab63 Valid [];
  Row 0xab64 0xab65 Valid [];
  Row 0xab66 0xab67 Valid [];
  Row 0xab68 0xab68 Valid [];
  Row 0xab69 0xab69 Mapped [0x28d];
  Row 0xab6a 0xab6b Valid [];
  Row 0xab6c 0xab6f Disallowed [];
  Row 0xab70 0xab70 Mapped [0x13a0];
  Row 0xab71 0xab71 Mapped [0x13a1];
  Row 0xab72 0xab72 Mapped [0x13a2];
  Row 0xab73 0xab73 Mapped [0x13a3];
  Row 0xab74 0xab74 Mapped [0x13a4];
  Row 0xab75 0xab75 Mapped [0x13a5];
  Row 0xab76 0xab76 Mapped [0x13a6];
  Row 0xab77 0xab77 Mapped [0x13a7];
  Row 0xab78 0xab78 Mapped [0x13a8];
  Row 0xab79 0xab79 Mapped [0x13a9];
  Row 0xab7a 0xab7a Mapped [0x13aa];
  Row 0xab7b 0xab7b Mapped [0x13ab];
  Row 0xab7c 0xab7c Mapped [0x13ac];
  Row 0xab7d 0xab7d Mapped [0x13ad];
  Row 0xab7e 0xab7e Mapped [0x13ae];
  Row 0xab7f 0xab7f Mapped [0x13af];
  Row 0xab80 0xab80 Mapped [0x13b0];
  Row 0xab81 0xab81 Mapped [0x13b1];
  Row 0xab82 0xab82 Mapped [0x13b2];
  Row 0xab83 0xab83 Mapped [0x13b3];
  Row 0xab84 0xab84 Mapped [0x13b4];
  Row 0xab85 0xab85 Mapped [0x13b5];
  Row 0xab86 0xab86 Mapped [0x13b6];
  Row 0xab87 0xab87 Mapped [0x13b7];
  Row 0xab88 0xab88 Mapped [0x13b8];
  Row 0xab89 0xab89 Mapped [0x13b9];
  Row 0xab8a 0xab8a Mapped [0x13ba];
  Row 0xab8b 0xab8b Mapped [0x13bb];
  Row 0xab8c 0xab8c Mapped [0x13bc];
  Row 0xab8d 0xab8d Mapped [0x13bd];
  Row 0xab8e 0xab8e Mapped [0x13be];
  Row 0xab8f 0xab8f Mapped [0x13bf]].
Definition idna_rows_43 : list row := [
  Row 0xab90 0xab90 Mapped [0x13c0];
  Row 0xab91 0xab91 Mapped [0x13c1];
  Row 0xab92 0xab92 Mapped [0x13c2];
  Row 0xab93 0xab93 Mapped [0x13c3];
  Row 0xab94 0xab94 Mapped [0x13c4];
  Row 0xab95 0xab95 Mapped [0x13c5];
  Row 0xab96 0xab96 Mapped [0x13c6];
  Row 0xab97 0xab97 Mapped [0x13c7];
  Row 0xab98 0xab98 Mapped [0x13c8];
  Row 0xab99 0xab99 Mapped [0x13c9];
  Row 0xab9a 0xab9a Mapped [0x13ca];
  Row 0xab9b 0xab9b Mapped [0x13cb];
  Row 0xab9c 0xab9c Mapped [0x13cc];
  Row 0xab9d 0xab9d Mapped [0x13cd];
  Row 0xab9e 0xab9e Mapped [0x13ce];
  Row 0xab9f 0xab9f Mapped [0x13cf];
  Row 0xaba0 0xaba0 Mapped [0x13d0];
  Row 0xaba1 0xaba1 Mapped [0x13d1];
  Row 0xaba2 0xaba2 Mapped [0x13d2];
  Row 0xaba3 0xaba3 Mapped [0x13d3];
  Row 0xaba4 0xaba4 Mapped [0x13d4];
  Row 0xaba5 0xaba5 Mapped [0x13d5];
  Row 0xaba6 0xaba6 Mapped [0x13d6];
  Row 0xaba7 0xaba7 Mapped [0x13d7];
  Row 0xaba8 0xaba8 Mapped [0x13d8];
  Row 0xaba9 0xaba9 Mapped [0x13d9];
  Row 0xabaa 0xabaa Mapped [0x13da];
  Row 0xabab 0xabab Mapped [0x13db];
  Row 0xabac 0xabac Mapped [0x13dc];
  Row 0xabad 0xabad Mapped [0x13dd];
  Row 0xabae 0xabae Mapped [0x13de];
  Row 0xabaf 0xabaf Mapped [0x13df];
  Row 0xabb0 0xabb0 Mapped [0x13e0];
  Row 0xabb1 0xabb1 Mapped [0x13e1];
  Row 0xabb2 0xabb2 Mapped [0x13e2];
  Row 0xabb3 0xabb3 Mapped [0x13e3];
  Row 0xabb4 0xabb4 Mapped [0x13e4];
  Row 0xabb5 0xabb5 Mapped [0x13e5];
  Row 0xabb6 0xabb6 Mapped [0x13e6];
  Row 0xabb7 0xabb7 Mapped [0x13e7];
  Row 0xabb8 0xabb8 Mapped [0x13e8];
  Row 0xabb9 0xabb9 Mapped [0x13e9];
  Row 0xabba 0xabba Mapped [0x13ea];
  Row 0xabbb 0xabbb Mapped [0x13eb];
  Row 0xabbc 0xabbc Mapped [0x13ec];
  Row 0xabbd 0xabbd Mapped [0x13ed];
  Row 0xabbe 0xabbe Mapped [0x13ee];
  Row 0xabbf 0xabbf Mapped [0x13ef];
  Row 0xabc0 0xabea Valid [];
  Row 0xabeb 0xabeb Valid [];
  Row 0xabec 0xabed Valid [];
  Row 0xabee 0xabef Disallowed [];
  Row 0xabf0 0xabf9 Valid [];
  Row 0xabfa 0xabff Disallowed [];
  Row 0xac00 0xd7a3 Valid [];
  Row 0xd7a4 0xd7af Disallowed [];
  Row 0xd7b0 0xd7c6 Valid [];
  Row 0xd7c7 0xd7ca Disallowed [];
  Row 0xd7cb 0xd7fb Valid [];
  Row 0xd7fc 0xd7ff Disallowed [];
  Row 0xd800 0xdfff Disallowed [];
  Row 0xe000 0xf8ff Disallowed [];
  Row 0xf900 0xf900 Mapped [0x8c48];
  Row 0xf901 0xf901 Mapped [0x66f4];
  Row 0xf902 0xf902 Mapped [0x8eca];
  Row 0xf903 0xf903 Mapped [0x8cc8];
  Row 0xf904 0xf904 Mapped [0x6ed1];
  Row 0xf905 0xf905 Mapped [0x4e32];
  Row 0xf906 0xf906 Mapped [0x53e5];
  Row 0xf907 0xf908 Mapped [0x9f9c];
  Row 0xf909 0xf909 Mapped [0x5951];
  Row 0xf90a 0xf90a Mapped [0x91d1];
  Row 0xf90b 0xf90b Mapped [0x5587];
  Row 0xf90c 0xf90c Mapped [0x5948];
  Row 0xf90d 0xf90d Mapped [0x61f6];
  Row 0xf90e 0xf90e Mapped [0x7669];
  Row 0xf90f 0xf90f Mapped [0x7f85];
  Row 0xf910 0xf910 Mapped [0x863f];
  Row 0xf911 0xf911 Mapped [0x87ba];
  Row 0xf912 0xf912 Mapped [0x88f8];
  Row 0xf913 0xf913 Mapped [0x908f];
  Row 0xf914 0xf914 Mapped [0x6a02];
  Row 0xf915 0xf915 Mapped [0x6d1b];
  Row 0xf916 0xf916 Mapped [0x70d9];
  Row 0xf917 0xf917 Mapped [0x73de];
  Row 0xf918 0xf918 Mapped [0x843d];
  Row 0xf919 0xf919 Mapped [0x916a];
  Row 0xf91a 0xf91a Mapped [0x99f1];
  Row 0xf91b 0xf91b Mapped [0x4e82];
  Row 0xf91c 0xf91c Mapped [0x5375];
  Row 0xf91d 0xf91d Mapped [0x6b04];
  Row 0xf91e 0xf91e Mapped [0x721b];
  Row 0xf91f 0xf91f Mapped [0x862d];
  Row 0xf920 0xf920 Mapped [0x9e1e];
  Row 0xf921 0xf921 Mapped [0x5d50];
  Row 0xf922 0xf922 Mapped [0x6feb];
  Row 0xf923 0xf923 Mapped [0x85cd];
  Row 0xf924 0xf924 Mapped [0x8964];
  Row 0xf925 0xf925 Mapped [0x62c9];
  Row 0xf926 0xf926 Mapped [0x81d8]].
Definition idna_rows_44 : list row := [
  Row 0xf927 0xf927 Mapped [0x881f];
  Row 0xf928 0xf928 Mapped [0x5eca];
  Row 0xf929 0xf929 Mapped [0x6717];
  Row 0xf92a 0xf92a Mapped [0x6d6a];
  Row 0xf92b 0xf92b Mapped [0x72fc];
  Row 0xf92c 0xf92c Mapped [0x90ce];
  Row 0xf92d 0xf92d Mapped [0x4f86];
  Row 0xf92e 0xf92e Mapped [0x51b7];
  Row 0xf92f 0xf92f Mapped [0x52de];
  Row 0xf930 0xf930 Mapped [0x64c4];
  Row 0xf931 0xf931 Mapped [0x6ad3];
  Row 0xf932 0xf932 Mapped [0x7210];
  Row 0xf933 0xf933 Mapped [0x76e7];
  Row 0xf934 0xf934 Mapped [0x8001];
  Row 0xf935 0xf935 Mapped [0x8606];
  Row 0xf936 0xf936 Mapped [0x865c];
  Row 0xf937 0xf937 Mapped [0x8def];
  Row 0xf938 0xf938 Mapped [0x9732];
  Row 0xf939 0xf939 Mapped [0x9b6f];
  Row 0xf93a 0xf93a Mapped [0x9dfa];
  Row 0xf93b 0xf93b Mapped [0x788c];
  Row 0xf93c 0xf93c Mapped [0x797f];
  Row 0xf93d 0xf93d Mapped [0x7da0];
  Row 0xf93e 0xf93e Mapped [0x83c9];
  Row 0xf93f 0xf93f Mapped [0x9304];
  Row 0xf940 0xf940 Mapped [0x9e7f];
  Row 0xf941 0xf941 Mapped [0x8ad6];
  Row 0xf942 0xf942 Mapped [0x58df];
  Row 0xf943 0xf943 Mapped [0x5f04];
  Row 0xf944 0xf944 Mapped [0x7c60];
  Row 0xf945 0xf945 Mapped [0x807e];
  Row 0xf946 0xf946 Mapped [0x7262];
  Row 0xf947 0xf947 Mapped [0x78ca];
  Row 0xf948 0xf948 Mapped [0x8cc2];
  Row 0xf949 0xf949 Mapped [0x96f7];
  Row 0xf94a 0xf94a Mapped [0x58d8];
  Row 0xf94b 0xf94b Mapped [0x5c62];
  Row 0xf94c 0xf94c Mapped [0x6a13];
  Row 0xf94d 0xf94d Mapped [0x6dda];
  Row 0xf94e 0xf94e Mapped [0x6f0f];
  Row 0xf94f 0xf94f Mapped [0x7d2f];
  Row 0xf950 0xf950 Mapped [0x7e37];
  Row 0xf951 0xf951 Mapped [0x964b];
  Row 0xf952 0xf952 Mapped [0x52d2];
  Row 0xf953 0xf953 Mapped [0x808b];
  Row 0xf954 0xf954 Mapped [0x51dc];
  Row 0xf955 0xf955 Mapped [0x51cc];
  Row 0xf956 0xf956 Mapped [0x7a1c];
  Row 0xf957 0xf957 Mapped [0x7dbe];
  Row 0xf958 0xf958 Mapped [0x83f1];
  Row 0xf959 0xf959 Mapped [0x9675];
  Row 0xf95a 0xf95a Mapped [0x8b80];
  Row 0xf95b 0xf95b Mapped [0x62cf];
  Row 0xf95c 0xf95c Mapped [0x6a02];
  Row 0xf95d 0xf95d Mapped [0x8afe];
  Row 0xf95e 0xf95e Mapped [0x4e39];
  Row 0xf95f 0xf95f Mapped [0x5be7];
  Row 0xf960 0xf960 Mapped [0x6012];
  Row 0xf961 0xf961 Mapped [0x7387];
  Row 0xf962 0xf962 Mapped [0x7570];
  Row 0xf963 0xf963 Mapped [0x5317];
  Row 0xf964 0xf964 Mapped [0x78fb];
  Row 0xf965 0xf965 Mapped [0x4fbf];
  Row 0xf966 0xf966 Mapped [0x5fa9];
  Row 0xf967 0xf967 Mapped [0x4e0d];
  Row 0xf968 0xf968 Mapped [0x6ccc];
  Row 0xf969 0xf969 Mapped [0x6578];
  Row 0xf96a 0xf96a Mapped [0x7d22];
  Row 0xf96b 0xf96b Mapped [0x53c3];
  Row 0xf96c 0xf96c Mapped [0x585e];
  Row 0xf96d 0xf96d Mapped [0x7701];
  Row 0xf96e 0xf96e Mapped [0x8449];
  Row 0xf96f 0xf96f Mapped [0x8aaa];
  Row 0xf970 0xf970 Mapped [0x6bba];
  Row 0xf971 0xf971 Mapped [0x8fb0];
  Row 0xf972 0xf972 Mapped [0x6c88];
  Row 0xf973 0xf973 Mapped [0x62fe];
  Row 0xf974 0xf974 Mapped [0x82e5];
  Row 0xf975 0xf975 Mapped [0x63a0];
  Row 0xf976 0xf976 Mapped [0x7565];
  Row 0xf977 0xf977 Mapped [0x4eae];
  Row 0xf978 0xf978 Mapped [0x5169];
  Row 0xf979 0xf979 Mapped [0x51c9];
  Row 0xf97a 0xf97a Mapped [0x6881];
  Row 0xf97b 0xf97b Mapped [0x7ce7];
  Row 0xf97c 0xf97c Mapped [0x826f];
  Row 0xf97d 0xf97d Mapped [0x8ad2];
  Row 0xf97e 0xf97e Mapped [0x91cf];
  Row 0xf97f 0xf97f Mapped [0x52f5];
  Row 0xf980 0xf980 Mapped [0x5442];
  Row 0xf981 0xf981 Mapped [0x5973];
  Row 0xf982 0xf982 Mapped [0x5eec];
  Row 0xf983 0xf983 Mapped [0x65c5];
  Row 0xf984 0xf984 Mapped [0x6ffe];
  Row 0xf985 0xf985 Mapped [0x792a];
  Row 0xf986 0xf986 Mapped [0x95ad];
  Row 0xf987 0xf987 Mapped [0x9a6a];
  Row 0xf988 0xf988 Mapped [0x9e97];
  Row 0xf989 0xf989 Mapped [0x9ece];
  Row 0xf98a 0xf98a Mapped [0x529b]].
Definition idna_rows_45 : list row := [
  Row 0xf98b 0xf98b Mapped [0x66c6];
  Row 0xf98c 0xf98c Mapped [0x6b77];
  Row 0xf98d 0xf98d Mapped [0x8f62];
  Row 0xf98e 0xf98e Mapped [0x5e74];
  Row 0xf98f 0xf98f Mapped [0x6190];
  Row 0xf990 0xf990 Mapped [0x6200];
  Row 0xf991 0xf991 Mapped [0x649a];
  Row 0xf992 0xf992 Mapped [0x6f23];
  Row 0xf993 0xf993 Mapped [0x7149];
  Row 0xf994 0xf994 Mapped [0x7489];
  Row 0xf995 0xf995 Mapped [0x79ca];
  Row 0xf996 0xf996 Mapped [0x7df4];
  Row 0xf997 0xf997 Mapped [0x806f];
  Row 0xf998 0xf998 Mapped [0x8f26];
  Row 0xf999 0xf999 Mapped [0x84ee];
  Row 0xf99a 0xf99a Mapped [0x9023];
  Row 0xf99b 0xf99b Mapped [0x934a];
  Row 0xf99c 0xf99c Mapped [0x5217];
  Row 0xf99d 0xf99d Mapped [0x52a3];
  Row 0xf99e 0xf99e Mapped [0x54bd];
  Row 0xf99f 0xf99f Mapped [0x70c8];
  Row 0xf9a0 0xf9a0 Mapped [0x88c2];
  Row 0xf9a1 0xf9a1 Mapped [0x8aaa];
  Row 0xf9a2 0xf9a2 Mapped [0x5ec9];
  Row 0xf9a3 0xf9a3 Mapped [0x5ff5];
  Row 0xf9a4 0xf9a4 Mapped [0x637b];
  Row 0xf9a5 0xf9a5 Mapped [0x6bae];
  Row 0xf9a6 0xf9a6 Mapped [0x7c3e];
  Row 0xf9a7 0xf9a7 Mapped [0x7375];
  Row 0xf9a8 0xf9a8 Mapped [0x4ee4];
  Row 0xf9a9 0xf9a9 Mapped [0x56f9];
  Row 0xf9aa 0xf9aa Mapped [0x5be7];
  Row 0xf9ab 0xf9ab Mapped [0x5dba];
  Row 0xf9ac 0xf9ac Mapped [0x601c];
  Row 0xf9ad 0xf9ad Mapped [0x73b2];
  Row 0xf9ae 0xf9ae Mapped [0x7469];
  Row 0xf9af 0xf9af Mapped [0x7f9a];
  Row 0xf9b0 0xf9b0 Mapped [0x8046];
  Row 0xf9b1 0xf9b1 Mapped [0x9234];
  Row 0xf9b2 0xf9b2 Mapped [0x96f6];
  Row 0xf9b3 0xf9b3 Mapped [0x9748];
  Row 0xf9b4 0xf9b4 Mapped [0x9818];
  Row 0xf9b5 0xf9b5 Mapped [0x4f8b];
  Row 0xf9b6 0xf9b6 Mapped [0x79ae];
  Row 0xf9b7 0xf9b7 Mapped [0x91b4];
  Row 0xf9b8 0xf9b8 Mapped [0x96b8];
  Row 0xf9b9 0xf9b9 Mapped [0x60e1];
  Row 0xf9ba 0xf9ba Mapped [0x4e86];
  Row 0xf9bb 0xf9bb Mapped [0x50da];
  Row 0xf9bc 0xf9bc Mapped [0x5bee];
  Row 0xf9bd 0xf9bd Mapped [0x5c3f];
  Row 0xf9be 0xf9be Mapped [0x6599];
  Row 0xf9bf 0xf9bf Mapped [0x6a02];
  Row 0xf9c0 0xf9c0 Mapped [0x71ce];
  Row 0xf9c1 0xf9c1 Mapped [0x7642];
  Row 0xf9c2 0xf9c2 Mapped [0x84fc];
  Row 0xf9c3 0xf9c3 Mapped [0x907c];
  Row 0xf9c4 0xf9c4 Mapped [0x9f8d];
  Row 0xf9c5 0xf9c5 Mapped [0x6688];
  Row 0xf9c6 0xf9c6 Mapped [0x962e];
  Row 0xf9c7 0xf9c7 Mapped [0x5289];
  Row 0xf9c8 0xf9c8 Mapped [0x677b];
  Row 0xf9c9 0xf9c9 Mapped [0x67f3];
  Row 0xf9ca 0xf9ca Mapped [0x6d41];
  Row 0xf9cb 0xf9cb Mapped [0x6e9c];
  Row 0xf9cc 0xf9cc Mapped [0x7409];
  Row 0xf9cd 0xf9cd Mapped [0x7559];
  Row 0xf9ce 0xf9ce Mapped [0x786b];
  Row 0xf9cf 0xf9cf Mapped [0x7d10];
  Row 0xf9d0 0xf9d0 Mapped [0x985e];
  Row 0xf9d1 0xf9d1 Mapped [0x516d];
  Row 0xf9d2 0xf9d2 Mapped [0x622e];
  Row 0xf9d3 0xf9d3 Mapped [0x9678];
  Row 0xf9d4 0xf9d4 Mapped [0x502b];
  Row 0xf9d5 0xf9d5 Mapped [0x5d19];
  Row 0xf9d6 0xf9d6 Mapped [0x6dea];
  Row 0xf9d7 0xf9d7 Mapped [0x8f2a];
  Row 0xf9d8 0xf9d8 Mapped [0x5f8b];
  Row 0xf9d9 0xf9d9 Mapped [0x6144];
  Row 0xf9da 0xf9da Mapped [0x6817];
  Row 0xf9db 0xf9db Mapped [0x7387];
  Row 0xf9dc 0xf9dc Mapped [0x9686];
  Row 0xf9dd 0xf9dd Mapped [0x5229];
  Row 0xf9de 0xf9de Mapped [0x540f];
  Row 0xf9df 0xf9df Mapped [0x5c65];
  Row 0xf9e0 0xf9e0 Mapped [0x6613];
  Row 0xf9e1 0xf9e1 Mapped [0x674e];
  Row 0xf9e2 0xf9e2 Mapped [0x68a8];
  Row 0xf9e3 0xf9e3 Mapped [0x6ce5];
  Row 0xf9e4 0xf9e4 Mapped [0x7406];
  Row 0xf9e5 0xf9e5 Mapped [0x75e2];
  Row 0xf9e6 0xf9e6 Mapped [0x7f79];
  Row 0xf9e7 0xf9e7 Mapped [0x88cf];
  Row 0xf9e8 0xf9e8 Mapped [0x88e1];
  Row 0xf9e9 0xf9e9 Mapped [0x91cc];
  Row 0xf9ea 0xf9ea Mapped [0x96e2];
  Row 0xf9eb 0xf9eb Mapped [0x533f];
  Row 0xf9ec 0xf9ec Mapped [0x6eba];
  Row 0xf9ed 0xf9ed Mapped [0x541d];
  Row 0xf9ee 0xf9ee Mapped [0x71d0]].
Definition idna_rows_46 : list row := [
  Row 0xf9ef 0xf9ef Mapped [0x7498];
  Row 0xf9f0 0xf9f0 Mapped [0x85fa];
  Row 0xf9f1 0xf9f1 Mapped [0x96a3];
  Row 0xf9f2 0xf9f2 Mapped [0x9c57];
  Row 0xf9f3 0xf9f3 Mapped [0x9e9f];
  Row 0xf9f4 0xf9f4 Mapped [0x6797];
  Row 0xf9f5 0xf9f5 Mapped [0x6dcb];
  Row 0xf9f6 0xf9f6 Mapped [0x81e8];
  Row 0xf9f7 0xf9f7 Mapped [0x7acb];
  Row 0xf9f8 0xf9f8 Mapped [0x7b20];
  Row 0xf9f9 0xf9f9 Mapped [0x7c92];
  Row 0xf9fa 0xf9fa Mapped [0x72c0];
  Row 0xf9fb 0xf9fb Mapped [0x7099];
  Row 0xf9fc 0xf9fc Mapped [0x8b58];
  Row 0xf9fd 0xf9fd Mapped [0x4ec0];
  Row 0xf9fe 0xf9fe Mapped [0x8336];
  Row 0xf9ff 0xf9ff Mapped [0x523a];
  Row 0xfa00 0xfa00 Mapped [0x5207];
  Row 0xfa01 0xfa01 Mapped [0x5ea6];
  Row 0xfa02 0xfa02 Mapped [0x62d3];
  Row 0xfa03 0xfa03 Mapped [0x7cd6];
  Row 0xfa04 0xfa04 Mapped [0x5b85];
  Row 0xfa05 0xfa05 Mapped [0x6d1e];
  Row 0xfa06 0xfa06 Mapped [0x66b4];
  Row 0xfa07 0xfa07 Mapped [0x8f3b];
  Row 0xfa08 0xfa08 Mapped [0x884c];
  Row 0xfa09 0xfa09 Mapped [0x964d];
  Row 0xfa0a 0xfa0a Mapped [0x898b];
  Row 0xfa0b 0xfa0b Mapped [0x5ed3];
  Row 0xfa0c 0xfa0c Mapped [0x5140];
  Row 0xfa0d 0xfa0d Mapped [0x55c0];
  Row 0xfa0e 0xfa0f Valid [];
  Row 0xfa10 0xfa10 Mapped [0x585a];
  Row 0xfa11 0xfa11 Valid [];
  Row 0xfa12 0xfa12 Mapped [0x6674];
  Row 0xfa13 0xfa14 Valid [];
  Row 0xfa15 0xfa15 Mapped [0x51de];
  Row 0xfa16 0xfa16 Mapped [0x732a];
  Row 0xfa17 0xfa17 Mapped [0x76ca];
  Row 0xfa18 0xfa18 Mapped [0x793c];
  Row 0xfa19 0xfa19 Mapped [0x795e];
  Row 0xfa1a 0xfa1a Mapped [0x7965];
  Row 0xfa1b 0xfa1b Mapped [0x798f];
  Row 0xfa1c 0xfa1c Mapped [0x9756];
  Row 0xfa1d 0xfa1d Mapped [0x7cbe];
  Row 0xfa1e 0xfa1e Mapped [0x7fbd];
  Row 0xfa1f 0xfa1f Valid [];
  Row 0xfa20 0xfa20 Mapped [0x8612];
  Row 0xfa21 0xfa21 Valid [];
  Row 0xfa22 0xfa22 Mapped [0x8af8];
  Row 0xfa23 0xfa24 Valid [];
  Row 0xfa25 0xfa25 Mapped [0x9038];
  Row 0xfa26 0xfa26 Mapped [0x90fd];
  Row 0xfa27 0xfa29 Valid [];
  Row 0xfa2a 0xfa2a Mapped [0x98ef];
  Row 0xfa2b 0xfa2b Mapped [0x98fc];
  Row 0xfa2c 0xfa2c Mapped [0x9928];
  Row 0xfa2d 0xfa2d Mapped [0x9db4];
  Row 0xfa2e 0xfa2e Mapped [0x90de];
  Row 0xfa2f 0xfa2f Mapped [0x96b7];
  Row 0xfa30 0xfa30 Mapped [0x4fae];
  Row 0xfa31 0xfa31 Mapped [0x50e7];
  Row 0xfa32 0xfa32 Mapped [0x514d];
  Row 0xfa33 0xfa33 Mapped [0x52c9];
  Row 0xfa34 0xfa34 Mapped [0x52e4];
  Row 0xfa35 0xfa35 Mapped [0x5351];
  Row 0xfa36 0xfa36 Mapped [0x559d];
  Row 0xfa37 0xfa37 Mapped [0x5606];
  Row 0xfa38 0xfa38 Mapped [0x5668];
  Row 0xfa39 0xfa39 Mapped [0x5840];
  Row 0xfa3a 0xfa3a Mapped [0x58a8];
  Row 0xfa3b 0xfa3b Mapped [0x5c64];
  Row 0xfa3c 0xfa3c Mapped [0x5c6e];
  Row 0xfa3d 0xfa3d Mapped [0x6094];
  Row 0xfa3e 0xfa3e Mapped [0x6168];
  Row 0xfa3f 0xfa3f Mapped [0x618e];
  Row 0xfa40 0xfa40 Mapped [0x61f2];
  Row 0xfa41 0xfa41 Mapped [0x654f];
  Row 0xfa42 0xfa42 Mapped [0x65e2];
  Row 0xfa43 0xfa43 Mapped [0x6691];
  Row 0xfa44 0xfa44 Mapped [0x6885];
  Row 0xfa45 0xfa45 Mapped [0x6d77];
  Row 0xfa46 0xfa46 Mapped [0x6e1a];
  Row 0xfa47 0xfa47 Mapped [0x6f22];
  Row 0xfa48 0xfa48 Mapped [0x716e];
  Row 0xfa49 0xfa49 Mapped [0x722b];
  Row 0xfa4a 0xfa4a Mapped [0x7422];
  Row 0xfa4b 0xfa4b Mapped [0x7891];
  Row 0xfa4c 0xfa4c Mapped [0x793e];
  Row 0xfa4d 0xfa4d Mapped [0x7949];
  Row 0xfa4e 0xfa4e Mapped [0x7948];
  Row 0xfa4f 0xfa4f Mapped [0x7950];
  Row 0xfa50 0xfa50 Mapped [0x7956];
  Row 0xfa51 0xfa51 Mapped [0x795d];
  Row 0xfa52 0xfa52 Mapped [0x798d];
  Row 0xfa53 0xfa53 Mapped [0x798e];
  Row 0xfa54 0xfa54 Mapped [0x7a40];
  Row 0xfa55 0xfa55 Mapped [0x7a81];
  Row 0xfa56 0xfa56 Mapped [0x7bc0];
  Row 0xfa57 0xfa57 Mapped [0x7df4]].
Definition idna_rows_47 : list row := [
  Row 0xfa58 0xfa58 Mapped [0x7e09];
  Row 0xfa59 0xfa59 Mapped [0x7e41];
  Row 0xfa5a 0xfa5a Mapped [0x7f72];
  Row 0xfa5b 0xfa5b Mapped [0x8005];
  Row 0xfa5c 0xfa5c Mapped [0x81ed];
  Row 0xfa5d 0xfa5e Mapped [0x8279];
  Row 0xfa5f 0xfa5f Mapped [0x8457];
  Row 0xfa60 0xfa60 Mapped [0x8910];
  Row 0xfa61 0xfa61 Mapped [0x8996];
  Row 0xfa62 0xfa62 Mapped [0x8b01];
  Row 0xfa63 0xfa63 Mapped [0x8b39];
  Row 0xfa64 0xfa64 Mapped [0x8cd3];
  Row 0xfa65 0xfa65 Mapped [0x8d08];
  Row 0xfa66 0xfa66 Mapped [0x8fb6];
  Row 0xfa67 0xfa67 Mapped [0x9038];
  Row 0xfa68 0xfa68 Mapped [0x96e3];
  Row 0xfa69 0xfa69 Mapped [0x97ff];
  Row 0xfa6a 0xfa6a Mapped [0x983b];
  Row 0xfa6b 0xfa6b Mapped [0x6075];
  Row 0xfa6c 0xfa6c Mapped [0x242ee];
  Row 0xfa6d 0xfa6d Mapped [0x8218];
  Row 0xfa6e 0xfa6f Disallowed [];
  Row 0xfa70 0xfa70 Mapped [0x4e26];
  Row 0xfa71 0xfa71 Mapped [0x51b5];
  Row 0xfa72 0xfa72 Mapped [0x5168];
  Row 0xfa73 0xfa73 Mapped [0x4f80];
  Row 0xfa74 0xfa74 Mapped [0x5145];
  Row 0xfa75 0xfa75 Mapped [0x5180];
  Row 0xfa76 0xfa76 Mapped [0x52c7];
  Row 0xfa77 0xfa77 Mapped [0x52fa];
  Row 0xfa78 0xfa78 Mapped [0x559d];
  Row 0xfa79 0xfa79 Mapped [0x5555];
  Row 0xfa7a 0xfa7a Mapped [0x5599];
  Row 0xfa7b 0xfa7b Mapped [0x55e2];
  Row 0xfa7c 0xfa7c Mapped [0x585a];
  Row 0xfa7d 0xfa7d Mapped [0x58b3];
  Row 0xfa7e 0xfa7e Mapped [0x5944];
  Row 0xfa7f 0xfa7f Mapped [0x5954];
  Row 0xfa80 0xfa80 Mapped [0x5a62];
  Row 0xfa81 0xfa81 Mapped [0x5b28];
  Row 0xfa82 0xfa82 Mapped [0x5ed2];
  Row 0xfa83 0xfa83 Mapped [0x5ed9];
  Row 0xfa84 0xfa84 Mapped [0x5f69];
  Row 0xfa85 0xfa85 Mapped [0x5fad];
  Row 0xfa86 0xfa86 Mapped [0x60d8];
  Row 0xfa87 0xfa87 Mapped [0x614e];
  Row 0xfa88 0xfa88 Mapped [0x6108];
  Row 0xfa89 0xfa89 Mapped [0x618e];
  Row 0xfa8a 0xfa8a Mapped [0x6160];
  Row 0xfa8b 0xfa8b Mapped [0x61f2];
  Row 0xfa8c 0xfa8c Mapped [0x6234];
  Row 0xfa8d 0xfa8d Mapped [0x63c4];
  Row 0xfa8e 0xfa8e Mapped [0x641c];
  Row 0xfa8f 0xfa8f Mapped [0x6452];
  Row 0xfa90 0xfa90 Mapped [0x6556];
  Row 0xfa91 0xfa91 Mapped [0x6674];
  Row 0xfa92 0xfa92 Mapped [0x6717];
  Row 0xfa93 0xfa93 Mapped [0x671b];
  Row 0xfa94 0xfa94 Mapped [0x6756];
  Row 0xfa95 0xfa95 Mapped [0x6b79];
  Row 0xfa96 0xfa96 Mapped [0x6bba];
  Row 0xfa97 0xfa97 Mapped [0x6d41];
  Row 0xfa98 0xfa98 Mapped [0x6edb];
  Row 0xfa99 0xfa99 Mapped [0x6ecb];
  Row 0xfa9a 0xfa9a Mapped [0x6f22];
  Row 0xfa9b 0xfa9b Mapped [0x701e];
  Row 0xfa9c 0xfa9c Mapped [0x716e];
  Row 0xfa9d 0xfa9d Mapped [0x77a7];
  Row 0xfa9e 0xfa9e Mapped [0x7235];
  Row 0xfa9f 0xfa9f Mapped [0x72af];
  Row 0xfaa0 0xfaa0 Mapped [0x732a];
  Row 0xfaa1 0xfaa1 Mapped [0x7471];
  Row 0xfaa2 0xfaa2 Mapped [0x7506];
  Row 0xfaa3 0xfaa3 Mapped [0x753b];
  Row 0xfaa4 0xfaa4 Mapped [0x761d];
  Row 0xfaa5 0xfaa5 Mapped [0x761f];
  Row 0xfaa6 0xfaa6 Mapped [0x76ca];
  Row 0xfaa7 0xfaa7 Mapped [0x76db];
  Row 0xfaa8 0xfaa8 Mapped [0x76f4];
  Row 0xfaa9 0xfaa9 Mapped [0x774a];
  Row 0xfaaa 0xfaaa Mapped [0x7740];
  Row 0xfaab 0xfaab Mapped [0x78cc];
  Row 0xfaac 0xfaac Mapped [0x7ab1];
  Row 0xfaad 0xfaad Mapped [0x7bc0];
  Row 0xfaae 0xfaae Mapped [0x7c7b];
  Row 0xfaaf 0xfaaf Mapped [0x7d5b];
  Row 0xfab0 0xfab0 Mapped [0x7df4];
  Row 0xfab1 0xfab1 Mapped [0x7f3e];
  Row 0xfab2 0xfab2 Mapped [0x8005];
  Row 0xfab3 0xfab3 Mapped [0x8352];
  Row 0xfab4 0xfab4 Mapped [0x83ef];
  Row 0xfab5 0xfab5 Mapped [0x8779];
  Row 0xfab6 0xfab6 Mapped [0x8941];
  Row 0xfab7 0xfab7 Mapped [0x8986];
  Row 0xfab8 0xfab8 Mapped [0x8996];
  Row 0xfab9 0xfab9 Mapped [0x8abf];
  Row 0xfaba 0xfaba Mapped [0x8af8];
  Row 0xfabb 0xfabb Mapped [0x8acb];
  Row 0xfabc 0xfabc Mapped [0x8b01];
  Row 0xfabd 0xfabd Mapped [0x8afe]].
Definition idna_rows_48 : list row := [
  Row 0xfabe 0xfabe Mapped [0x8aed];
  Row 0xfabf 0xfabf Mapped [0x8b39];
  Row 0xfac0 0xfac0 Mapped [0x8b8a];
  Row 0xfac1 0xfac1 Mapped [0x8d08];
  Row 0xfac2 0xfac2 Mapped [0x8f38];
  Row 0xfac3 0xfac3 Mapped [0x9072];
  Row 0xfac4 0xfac4 Mapped [0x9199];
  Row 0xfac5 0xfac5 Mapped [0x9276];
  Row 0xfac6 0xfac6 Mapped [0x967c];
  Row 0xfac7 0xfac7 Mapped [0x96e3];
  Row 0xfac8 0xfac8 Mapped [0x9756];
  Row 0xfac9 0xfac9 Mapped [0x97db];
  Row 0xfaca 0xfaca Mapped [0x97ff];
  Row 0xfacb 0xfacb Mapped [0x980b];
  Row 0xfacc 0xfacc Mapped [0x983b];
  Row 0xfacd 0xfacd Mapped [0x9b12];
  Row 0xface 0xface Mapped [0x9f9c];
  Row 0xfacf 0xfacf Mapped [0x2284a];
  Row 0xfad0 0xfad0 Mapped [0x22844];
  Row 0xfad1 0xfad1 Mapped [0x233d5];
  Row 0xfad2 0xfad2 Mapped [0x3b9d];
  Row 0xfad3 0xfad3 Mapped [0x4018];
  Row 0xfad4 0xfad4 Mapped [0x4039];
  Row 0xfad5 0xfad5 Mapped [0x25249];
  Row 0xfad6 0xfad6 Mapped [0x25cd0];
  Row 0xfad7 0xfad7 Mapped [0x27ed3];
  Row 0xfad8 0xfad8 Mapped [0x9f43];
  Row 0xfad9 0xfad9 Mapped [0x9f8e];
  Row 0xfada 0xfaff Disallowed [];
  Row 0xfb00 0xfb00 Mapped [0x66; 0x66];
  Row 0xfb01 0xfb01 Mapped [0x66; 0x69];
  Row 0xfb02 0xfb02 Mapped [0x66; 0x6c];
  Row 0xfb03 0xfb03 Mapped [0x66; 0x66; 0x69];
  Row 0xfb04 0xfb04 Mapped [0x66; 0x66; 0x6c];
  Row 0xfb05 0xfb06 Mapped [0x73; 0x74];
  Row 0xfb07 0xfb12 Disallowed [];
  Row 0xfb13 0xfb13 Mapped [0x574; 0x576];
  Row 0xfb14 0xfb14 Mapped [0x574; 0x565];
  Row 0xfb15 0xfb15 Mapped [0x574; 0x56b];
  Row 0xfb16 0xfb16 Mapped [0x57e; 0x576];
  Row 0xfb17 0xfb17 Mapped [0x574; 0x56d];
  Row 0xfb18 0xfb1c Disallowed [];
  Row 0xfb1d 0xfb1d Mapped [0x5d9; 0x5b4];
  Row 0xfb1e 0xfb1e Valid [];
  Row 0xfb1f 0xfb1f Mapped [0x5f2; 0x5b7];
  Row 0xfb20 0xfb20 Mapped [0x5e2];
  Row 0xfb21 0xfb21 Mapped [0x5d0];
  Row 0xfb22 0xfb22 Mapped [0x5d3];
  Row 0xfb23 0xfb23 Mapped [0x5d4];
  Row 0xfb24 0xfb24 Mapped [0x5db];
  Row 0xfb25 0xfb25 Mapped [0x5dc];
  Row 0xfb26 0xfb26 Mapped [0x5dd];
  Row 0xfb27 0xfb27 Mapped [0x5e8];
  Row 0xfb28 0xfb28 Mapped [0x5ea];
  Row 0xfb29 0xfb29 Std3Mapped [0x2b];
  Row 0xfb2a 0xfb2a Mapped [0x5e9; 0x5c1];
  Row 0xfb2b 0xfb2b Mapped [0x5e9; 0x5c2];
  Row 0xfb2c 0xfb2c Mapped [0x5e9; 0x5bc; 0x5c1];
  Row 0xfb2d 0xfb2d Mapped [0x5e9; 0x5bc; 0x5c2];
  Row 0xfb2e 0xfb2e Mapped [0x5d0; 0x5b7];
  Row 0xfb2f 0xfb2f Mapped [0x5d0; 0x5b8];
  Row 0xfb30 0xfb30 Mapped [0x5d0; 0x5bc];
  Row 0xfb31 0xfb31 Mapped [0x5d1; 0x5bc];
  Row 0xfb32 0xfb32 Mapped [0x5d2; 0x5bc];
  Row 0xfb33 0xfb33 Mapped [0x5d3; 0x5bc];
  Row 0xfb34 0xfb34 Mapped [0x5d4; 0x5bc];
  Row 0xfb35 0xfb35 Mapped [0x5d5; 0x5bc];
  Row 0xfb36 0xfb36 Mapped [0x5d6; 0x5bc];
  Row 0xfb37 0xfb37 Disallowed [];
  Row 0xfb38 0xfb38 Mapped [0x5d8; 0x5bc];
  Row 0xfb39 0xfb39 Mapped [0x5d9; 0x5bc];
  Row 0xfb3a 0xfb3a Mapped [0x5da; 0x5bc];
  Row 0xfb3b 0xfb3b Mapped [0x5db; 0x5bc];
  Row 0xfb3c 0xfb3c Mapped [0x5dc; 0x5bc];
  Row 0xfb3d 0xfb3d Disallowed [];
  Row 0xfb3e 0xfb3e Mapped [0x5de; 0x5bc];
  Row 0xfb3f 0xfb3f Disallowed [];
  Row 0xfb40 0xfb40 Mapped [0x5e0; 0x5bc];
  Row 0xfb41 0xfb41 Mapped [0x5e1; 0x5bc];
  Row 0xfb42 0xfb42 Disallowed [];
  Row 0xfb43 0xfb43 Mapped [0x5e3; 0x5bc];
  Row 0xfb44 0xfb44 Mapped [0x5e4; 0x5bc];
  Row 0xfb45 0xfb45 Disallowed [];
  Row 0xfb46 0xfb46 Mapped [0x5e6; 0x5bc];
  Row 0xfb47 0xfb47 Mapped [0x5e7; 0x5bc];
  Row 0xfb48 0xfb48 Mapped [0x5e8; 0x5bc];
  Row 0xfb49 0xfb49 Mapped [0x5e9; 0x5bc];
  Row 0xfb4a 0xfb4a Mapped [0x5ea; 0x5bc];
  Row 0xfb4b 0xfb4b Mapped [0x5d5; 0x5b9];
  Row 0xfb4c 0xfb4c Mapped [0x5d1; 0x5bf];
  Row 0xfb4d 0xfb4d Mapped [0x5db; 0x5bf];
  Row 0xfb4e 0xfb4e Mapped [0x5e4; 0x5bf];
  Row 0xfb4f 0xfb4f Mapped [0x5d0; 0x5dc];
  Row 0xfb50 0xfb51 Mapped [0x671];
  Row 0xfb52 0xfb55 Mapped [0x67b];
  Row 0xfb56 0xfb59 Mapped [0x67e];
  Row 0xfb5a 0xfb5d Mapped [0x680];
  Row 0xfb5e 0xfb61 Mapped [0x67a];
  Row 0xfb62 0xfb65 Mapped [0x67f];
  Row 0xfb66 0xfb69 Mapped [0x679]].
Definition idna_rows_49 : list row := [
  Row 0xfb6a 0xfb6d Mapped [0x6a4];
  Row 0xfb6e 0xfb71 Mapped [0x6a6];
  Row 0xfb72 0xfb75 Mapped [0x684];
  Row 0xfb76 0xfb79 Mapped [0x683];
  Row 0xfb7a 0xfb7d Mapped [0x686];
  Row 0xfb7e 0xfb81 Mapped [0x687];
  Row 0xfb82 0xfb83 Mapped [0x68d];
  Row 0xfb84 0xfb85 Mapped [0x68c];
  Row 0xfb86 0xfb87 Mapped [0x68e];
  Row 0xfb88 0xfb89 Mapped [0x688];
  Row 0xfb8a 0xfb8b Mapped [0x698];
  Row 0xfb8c 0xfb8d Mapped [0x691];
  Row 0xfb8e 0xfb91 Mapped [0x6a9];
  Row 0xfb92 0xfb95 Mapped [0x6af];
  Row 0xfb96 0xfb99 Mapped [0x6b3];
  Row 0xfb9a 0xfb9d Mapped [0x6b1];
  Row 0xfb9e 0xfb9f Mapped [0x6ba];
  Row 0xfba0 0xfba3 Mapped [0x6bb];
  Row 0xfba4 0xfba5 Mapped [0x6c0];
  Row 0xfba6 0xfba9 Mapped [0x6c1];
  Row 0xfbaa 0xfbad Mapped [0x6be];
  Row 0xfbae 0xfbaf Mapped [0x6d2];
  Row 0xfbb0 0xfbb1 Mapped [0x6d3];
  Row 0xfbb2 0xfbc1 Valid [];
  Row 0xfbc2 0xfbd2 Disallowed [];
  Row 0xfbd3 0xfbd6 Mapped [0x6ad];
  Row 0xfbd7 0xfbd8 Mapped [0x6c7];
  Row 0xfbd9 0xfbda Mapped [0x6c6];
  Row 0xfbdb 0xfbdc Mapped [0x6c8];
  Row 0xfbdd 0xfbdd Mapped [0x6c7; 0x674];
  Row 0xfbde 0xfbdf Mapped [0x6cb];
  Row 0xfbe0 0xfbe1 Mapped [0x6c5];
  Row 0xfbe2 0xfbe3 Mapped [0x6c9];
  Row 0xfbe4 0xfbe7 Mapped [0x6d0];
  Row 0xfbe8 0xfbe9 Mapped [0x649];
  Row 0xfbea 0xfbeb Mapped [0x626; 0x627];
  Row 0xfbec 0xfbed Mapped [0x626; 0x6d5];
  Row 0xfbee 0xfbef Mapped [0x626; 0x648];
  Row 0xfbf0 0xfbf1 Mapped [0x626; 0x6c7];
  Row 0xfbf2 0xfbf3 Mapped [0x626; 0x6c6];
  Row 0xfbf4 0xfbf5 Mapped [0x626; 0x6c8];
  Row 0xfbf6 0xfbf8 Mapped [0x626; 0x6d0];
  Row 0xfbf9 0xfbfb Mapped [0x626; 0x649];
  Row 0xfbfc 0xfbff Mapped [0x6cc];
  Row 0xfc00 0xfc00 Mapped [0x626; 0x62c];
  Row 0xfc01 0xfc01 Mapped [0x626; 0x62d];
  Row 0xfc02 0xfc02 Mapped [0x626; 0x645];
  Row 0xfc03 0xfc03 Mapped [0x626; 0x649];
  Row 0xfc04 0xfc04 Mapped [0x626; 0x64a];
  Row 0xfc05 0xfc05 Mapped [0x628; 0x62c];
  Row 0xfc06 0xfc06 Mapped [0x628; 0x62d];
  Row 0xfc07 0xfc07 Mapped [0x628; 0x62e];
  Row 0xfc08 0xfc08 Mapped [0x628; 0x645];
  Row 0xfc09 0xfc09 Mapped [0x628; 0x649];
  Row 0xfc0a 0xfc0a Mapped [0x628; 0x64a];
  Row 0xfc0b 0xfc0b Mapped [0x62a; 0x62c];
  Row 0xfc0c 0xfc0c Mapped [0x62a; 0x62d];
  Row 0xfc0d 0xfc0d Mapped [0x62a; 0x62e];
  Row 0xfc0e 0xfc0e Mapped [0x62a; 0x645];
  Row 0xfc0f 0xfc0f Mapped [0x62a; 0x649];
  Row 0xfc10 0xfc10 Mapped [0x62a; 0x64a];
  Row 0xfc11 0xfc11 Mapped [0x62b; 0x62c];
  Row 0xfc12 0xfc12 Mapped [0x62b; 0x645];
  Row 0xfc13 0xfc13 Mapped [0x62b; 0x649];
  Row 0xfc14 0xfc14 Mapped [0x62b; 0x64a];
  Row 0xfc15 0xfc15 Mapped [0x62c; 0x62d];
  Row 0xfc16 0xfc16 Mapped [0x62c; 0x645];
  Row 0xfc17 0xfc17 Mapped [0x62d; 0x62c];
  Row 0xfc18 0xfc18 Mapped [0x62d; 0x645];
  Row 0xfc19 0xfc19 Mapped [0x62e; 0x62c];
  Row 0xfc1a 0xfc1a Mapped [0x62e; 0x62d];
  Row 0xfc1b 0xfc1b Mapped [0x62e; 0x645];
  Row 0xfc1c 0xfc1c Mapped [0x633; 0x62c];
  Row 0xfc1d 0xfc1d Mapped [0x633; 0x62d];
  Row 0xfc1e 0xfc1e Mapped [0x633; 0x62e];
  Row 0xfc1f 0xfc1f Mapped [0x633; 0x645];
  Row 0xfc20 0xfc20 Mapped [0x635; 0x62d];
  Row 0xfc21 0xfc21 Mapped [0x635; 0x645];
  Row 0xfc22 0xfc22 Mapped [0x636; 0x62c];
  Row 0xfc23 0xfc23 Mapped [0x636; 0x62d];
  Row 0xfc24 0xfc24 Mapped [0x636; 0x62e];
  Row 0xfc25 0xfc25 Mapped [0x636; 0x645];
  Row 0xfc26 0xfc26 Mapped [0x637; 0x62d];
  Row 0xfc27 0xfc27 Mapped [0x637; 0x645];
  Row 0xfc28 0xfc28 Mapped [0x638; 0x645];
  Row 0xfc29 0xfc29 Mapped [0x639; 0x62c];
  Row 0xfc2a 0xfc2a Mapped [0x639; 0x645];
  Row 0xfc2b 0xfc2b Mapped [0x63a; 0x62c];
  Row 0xfc2c 0xfc2c Mapped [0x63a; 0x645];
  Row 0xfc2d 0xfc2d Mapped [0x641; 0x62c];
  Row 0xfc2e 0xfc2e Mapped [0x641; 0x62d];
  Row 0xfc2f 0xfc2f Mapped [0x641; 0x62e];
  Row 0xfc30 0xfc30 Mapped [0x641; 0x645];
  Row 0xfc31 0xfc31 Mapped [0x641; 0x649];
  Row 0xfc32 0xfc32 Mapped [0x641; 0x64a];
  Row 0xfc33 0xfc33 Mapped [0x642; 0x62d];
  Row 0xfc34 0xfc34 Mapped [0x642; 0x645];
  Row 0xfc35 0xfc35 Mapped [0x642; 0x649];
  Row 0xfc36 0xfc36 Mapped [0x642; 0x64a];
  Row 0xfc37 0xfc37 Mapped [0x643; 0x627]].
Definition idna_rows_50 : list row := [
  Row 0xfc38 0xfc38 Mapped [0x643; 0x62c];
  Row 0xfc39 0xfc39 Mapped [0x643; 0x62d];
  Row 0xfc3a 0xfc3a Mapped [0x643; 0x62e];
  Row 0xfc3b 0xfc3b Mapped [0x643; 0x644];
  Row 0xfc3c 0xfc3c Mapped [0x643; 0x645];
  Row 0xfc3d 0xfc3d Mapped [0x643; 0x649];
  Row 0xfc3e 0xfc3e Mapped [0x643; 0x64a];
  Row 0xfc3f 0xfc3f Mapped [0x644; 0x62c];
  Row 0xfc40 0xfc40 Mapped [0x644; 0x62d];
  Row 0xfc41 0xfc41 Mapped [0x644; 0x62e];
  Row 0xfc42 0xfc42 Mapped [0x644; 0x645];
  Row 0xfc43 0xfc43 Mapped [0x644; 0x649];
  Row 0xfc44 0xfc44 Mapped [0x644; 0x64a];
  Row 0xfc45 0xfc45 Mapped [0x645; 0x62c];
  Row 0xfc46 0xfc46 Mapped [0x645; 0x62d];
  Row 0xfc47 0xfc47 Mapped [0x645; 0x62e];
  Row 0xfc48 0xfc48 Mapped [0x645; 0x645];
  Row 0xfc49 0xfc49 Mapped [0x645; 0x649];
  Row 0xfc4a 0xfc4a Mapped [0x645; 0x64a];
  Row 0xfc4b 0xfc4b Mapped [0x646; 0x62c];
  Row 0xfc4c 0xfc4c Mapped [0x646; 0x62d];
  Row 0xfc4d 0xfc4d Mapped [0x646; 0x62e];
  Row 0xfc4e 0xfc4e Mapped [0x646; 0x645];
  Row 0xfc4f 0xfc4f Mapped [0x646; 0x649];
  Row 0xfc50 0xfc50 Mapped [0x646; 0x64a];
  Row 0xfc51 0xfc51 Mapped [0x647; 0x62c];
  Row 0xfc52 0xfc52 Mapped [0x647; 0x645];
  Row 0xfc53 0xfc53 Mapped [0x647; 0x649];
  Row 0xfc54 0xfc54 Mapped [0x647; 0x64a];
  Row 0xfc55 0xfc55 Mapped [0x64a; 0x62c];
  Row 0xfc56 0xfc56 Mapped [0x64a; 0x62d];
  Row 0xfc57 0xfc57 Mapped [0x64a; 0x62e];
  Row 0xfc58 0xfc58 Mapped [0x64a; 0x645];
  Row 0xfc59 0xfc59 Mapped [0x64a; 0x649];
  Row 0xfc5a 0xfc5a Mapped [0x64a; 0x64a];
  Row 0xfc5b 0xfc5b Mapped [0x630; 0x670];
  Row 0xfc5c 0xfc5c Mapped [0x631; 0x670];
  Row 0xfc5d 0xfc5d Mapped [0x649; 0x670];
  Row 0xfc5e 0xfc5e Std3Mapped [0x20; 0x64c; 0x651];
  Row 0xfc5f 0xfc5f Std3Mapped [0x20; 0x64d; 0x651];
  Row 0xfc60 0xfc60 Std3Mapped [0x20; 0x64e; 0x651];
  Row 0xfc61 0xfc61 Std3Mapped [0x20; 0x64f; 0x651];
  Row 0xfc62 0xfc62 Std3Mapped [0x20; 0x650; 0x651];
  Row 0xfc63 0xfc63 Std3Mapped [0x20; 0x651; 0x670];
  Row 0xfc64 0xfc64 Mapped [0x626; 0x631];
  Row 0xfc65 0xfc65 Mapped [0x626; 0x632];
  Row 0xfc66 0xfc66 Mapped [0x626; 0x645];
  Row 0xfc67 0xfc67 Mapped [0x626; 0x646];
  Row 0xfc68 0xfc68 Mapped [0x626; 0x649];
  Row 0xfc69 0xfc69 Mapped [0x626; 0x64a];
  Row 0xfc6a 0xfc6a Mapped [0x628; 0x631];
  Row 0xfc6b 0xfc6b Mapped [0x628; 0x632];
  Row 0xfc6c 0xfc6c Mapped [0x628; 0x645];
  Row 0xfc6d 0xfc6d Mapped [0x628; 0x646];
  Row 0xfc6e 0xfc6e Mapped [0x628; 0x649];
  Row 0xfc6f 0xfc6f Mapped [0x628; 0x64a];
  Row 0xfc70 0xfc70 Mapped [0x62a; 0x631];
  Row 0xfc71 0xfc71 Mapped [0x62a; 0x632];
  Row 0xfc72 0xfc72 Mapped [0x62a; 0x645];
  Row 0xfc73 0xfc73 Mapped [0x62a; 0x646];
  Row 0xfc74 0xfc74 Mapped [0x62a; 0x649];
  Row 0xfc75 0xfc75 Mapped [0x62a; 0x64a];
  Row 0xfc76 0xfc76 Mapped [0x62b; 0x631];
  Row 0xfc77 0xfc77 Mapped [0x62b; 0x632];
  Row 0xfc78 0xfc78 Mapped [0x62b; 0x645];
  Row 0xfc79 0xfc79 Mapped [0x62b; 0x646];
  Row 0xfc7a 0xfc7a Mapped [0x62b; 0x649];
  Row 0xfc7b 0xfc7b Mapped [0x62b; 0x64a];
  Row 0xfc7c 0xfc7c Mapped [0x641; 0x649];
  Row 0xfc7d 0xfc7d Mapped [0x641; 0x64a];
  Row 0xfc7e 0xfc7e Mapped [0x642; 0x649];
  Row 0xfc7f 0xfc7f Mapped [0x642; 0x64a];
  Row 0xfc80 0xfc80 Mapped [0x643; 0x627];
  Row 0xfc81 0xfc81 Mapped [0x643; 0x644];
  Row 0xfc82 0xfc82 Mapped [0x643; 0x645];
  Row 0xfc83 0xfc83 Mapped [0x643; 0x649];
  Row 0xfc84 0xfc84 Mapped [0x643; 0x64a];
  Row 0xfc85 0xfc85 Mapped [0x644; 0x645];
  Row 0xfc86 0xfc86 Mapped [0x644; 0x649];
  Row 0xfc87 0xfc87 Mapped [0x644; 0x64a];
  Row 0xfc88 0xfc88 Mapped [0x645; 0x627];
  Row 0xfc89 0xfc89 Mapped [0x645; 0x645];
  Row 0xfc8a 0xfc8a Mapped [0x646; 0x631];
  Row 0xfc8b 0xfc8b Mapped [0x646; 0x632];
  Row 0xfc8c 0xfc8c Mapped [0x646; 0x645];
  Row 0xfc8d 0xfc8d Mapped [0x646; 0x646];
  Row 0xfc8e 0xfc8e Mapped [0x646; 0x649];
  Row 0xfc8f 0xfc8f Mapped [0x646; 0x64a];
  Row 0xfc90 0xfc90 Mapped [0x649; 0x670];
  Row 0xfc91 0xfc91 Mapped [0x64a; 0x631];
  Row 0xfc92 0xfc92 Mapped [0x64a; 0x632];
  Row 0xfc93 0xfc93 Mapped [0x64a; 0x645];
  Row 0xfc94 0xfc94 Mapped [0x64a; 0x646];
  Row 0xfc95 0xfc95 Mapped [0x64a; 0x649];
  Row 0xfc96 0xfc96 Mapped [0x64a; 0x64a];
  Row 0xfc97 0xfc97 Mapped [0x626; 0x62c];
  Row 0xfc98 0xfc98 Mapped [0x626; 0x62d];
  Row 0xfc99 0xfc99 Mapped [0x626; 0x62e];
  Row 0xfc9a 0xfc9a Mapped [0x626; 0x645];
  Row 0xfc9b 0xfc9b Mapped [0x626; 0x647]].
Definition idna_rows_51 : list row := [
  Row 0xfc9c 0xfc9c Mapped [0x628; 0x62c];
  Row 0xfc9d 0xfc9d Mapped [0x628; 0x62d];
  Row 0xfc9e 0xfc9e Mapped [0x628; 0x62e];
  Row 0xfc9f 0xfc9f Mapped [0x628; 0x645];
  Row 0xfca0 0xfca0 Mapped [0x628; 0x647];
  Row 0xfca1 0xfca1 Mapped [0x62a; 0x62c];
  Row 0xfca2 0xfca2 Mapped [0x62a; 0x62d];
  Row 0xfca3 0xfca3 Mapped [0x62a; 0x62e];
  Row 0xfca4 0xfca4 Mapped [0x62a; 0x645];
  Row 0xfca5 0xfca5 Mapped [0x62a; 0x647];
  Row 0xfca6 0xfca6 Mapped [0x62b; 0x645];
  Row 0xfca7 0xfca7 Mapped [0x62c; 0x62d];
  Row 0xfca8 0xfca8 Mapped [0x62c; 0x645];
  Row 0xfca9 0xfca9 Mapped [0x62d; 0x62c];
  Row 0xfcaa 0xfcaa Mapped [0x62d; 0x645];
  Row 0xfcab 0xfcab Mapped [0x62e; 0x62c];
  Row 0xfcac 0xfcac Mapped [0x62e; 0x645];
  Row 0xfcad 0xfcad Mapped [0x633; 0x62c];
  Row 0xfcae 0xfcae Mapped [0x633; 0x62d];
  Row 0xfcaf 0xfcaf Mapped [0x633; 0x62e];
  Row 0xfcb0 0xfcb0 Mapped [0x633; 0x645];
  Row 0xfcb1 0xfcb1 Mapped [0x635; 0x62d];
  Row 0xfcb2 0xfcb2 Mapped [0x635; 0x62e];
  Row 0xfcb3 0xfcb3 Mapped [0x635; 0x645];
  Row 0xfcb4 0xfcb4 Mapped [0x636; 0x62c];
  Row 0xfcb5 0xfcb5 Mapped [0x636; 0x62d];
  Row 0xfcb6 0xfcb6 Mapped [0x636; 0x62e];
  Row 0xfcb7 0xfcb7 Mapped [0x636; 0x645];
  Row 0xfcb8 0xfcb8 Mapped [0x637; 0x62d];
  Row 0xfcb9 0xfcb9 Mapped [0x638; 0x645];
  Row 0xfcba 0xfcba Mapped [0x639; 0x62c];
  Row 0xfcbb 0xfcbb Mapped [0x639; 0x645];
  Row 0xfcbc 0xfcbc Mapped [0x63a; 0x62c];
  Row 0xfcbd 0xfcbd Mapped [0x63a; 0x645];
  Row 0xfcbe 0xfcbe Mapped [0x641; 0x62c];
  Row 0xfcbf 0xfcbf Mapped [0x641; 0x62d];
  Row 0xfcc0 0xfcc0 Mapped [0x641; 0x62e];
  Row 0xfcc1 0xfcc1 Mapped [0x641; 0x645];
  Row 0xfcc2 0xfcc2 Mapped [0x642; 0x62d];
  Row 0xfcc3 0xfcc3 Mapped [0x642; 0x645];
  Row 0xfcc4 0xfcc4 Mapped [0x643; 0x62c];
  Row 0xfcc5 0xfcc5 Mapped [0x643; 0x62d];
  Row 0xfcc6 0xfcc6 Mapped [0x643; 0x62e];
  Row 0xfcc7 0xfcc7 Mapped [0x643; 0x644];
  Row 0xfcc8 0xfcc8 Mapped [0x643; 0x645];
  Row 0xfcc9 0xfcc9 Mapped [0x644; 0x62c];
  Row 0xfcca 0xfcca Mapped [0x644; 0x62d];
  Row 0xfccb 0xfccb Mapped [0x644; 0x62e];
  Row 0xfccc 0xfccc Mapped [0x644; 0x645];
  Row 0xfccd 0xfccd Mapped [0x644; 0x647];
  Row 0xfcce 0xfcce Mapped [0x645; 0x62c];
  Row 0xfccf 0xfccf Mapped [0x645; 0x62d];
  Row 0xfcd0 0xfcd0 Mapped [0x645; 0x62e];
  Row 0xfcd1 0xfcd1 Mapped [0x645; 0x645];
  Row 0xfcd2 0xfcd2 Mapped [0x646; 0x62c];
  Row 0xfcd3 0xfcd3 Mapped [0x646; 0x62d];
  Row 0xfcd4 0xfcd4 Mapped [0x646; 0x62e];
  Row 0xfcd5 0xfcd5 Mapped [0x646; 0x645];
  Row 0xfcd6 0xfcd6 Mapped [0x646; 0x647];
  Row 0xfcd7 0xfcd7 Mapped [0x647; 0x62c];
  Row 0xfcd8 0xfcd8 Mapped [0x647; 0x645];
  Row 0xfcd9 0xfcd9 Mapped [0x647; 0x670];
  Row 0xfcda 0xfcda Mapped [0x64a; 0x62c];
  Row 0xfcdb 0xfcdb Mapped [0x64a; 0x62d];
  Row 0xfcdc 0xfcdc Mapped [0x64a; 0x62e];
  Row 0xfcdd 0xfcdd Mapped [0x64a; 0x645];
  Row 0xfcde 0xfcde Mapped [0x64a; 0x647];
  Row 0xfcdf 0xfcdf Mapped [0x626; 0x645];
  Row 0xfce0 0xfce0 Mapped [0x626; 0x647];
  Row 0xfce1 0xfce1 Mapped [0x628; 0x645];
  Row 0xfce2 0xfce2 Mapped [0x628; 0x647];
  Row 0xfce3 0xfce3 Mapped [0x62a; 0x645];
  Row 0xfce4 0xfce4 Mapped [0x62a; 0x647];
  Row 0xfce5 0xfce5 Mapped [0x62b; 0x645];
  Row 0xfce6 0xfce6 Mapped [0x62b; 0x647];
  Row 0xfce7 0xfce7 Mapped [0x633; 0x645];
  Row 0xfce8 0xfce8 Mapped [0x633; 0x647];
  Row 0xfce9 0xfce9 Mapped [0x634; 0x645];
  Row 0xfcea 0xfcea Mapped [0x634; 0x647];
  Row 0xfceb 0xfceb Mapped [0x643; 0x644];
  Row 0xfcec 0xfcec Mapped [0x643; 0x645];
  Row 0xfced 0xfced Mapped [0x644; 0x645];
  Row 0xfcee 0xfcee Mapped [0x646; 0x645];
  Row 0xfcef 0xfcef Mapped [0x646; 0x647];
  Row 0xfcf0 0xfcf0 Mapped [0x64a; 0x645];
  Row 0xfcf1 0xfcf1 Mapped [0x64a; 0x647];
  Row 0xfcf2 0xfcf2 Mapped [0x640; 0x64e; 0x651];
  Row 0xfcf3 0xfcf3 Mapped [0x640; 0x64f; 0x651];
  Row 0xfcf4 0xfcf4 Mapped [0x640; 0x650; 0x651];
  Row 0xfcf5 0xfcf5 Mapped [0x637; 0x649];
  Row 0xfcf6 0xfcf6 Mapped [0x637; 0x64a];
  Row 0xfcf7 0xfcf7 Mapped [0x639; 0x649];
  Row 0xfcf8 0xfcf8 Mapped [0x639; 0x64a];
  Row 0xfcf9 0xfcf9 Mapped [0x63a; 0x649];
  Row 0xfcfa 0xfcfa Mapped [0x63a; 0x64a];
  Row 0xfcfb 0xfcfb Mapped [0x633; 0x649];
  Row 0xfcfc 0xfcfc Mapped [0x633; 0x64a];
  Row 0xfcfd 0xfcfd Mapped [0x634; 0x649];
  Row 0xfcfe 0xfcfe Mapped [0x634; 0x64a];
  Row 0xfcff 0xfcff Mapped [0x62d; 0x649]].
Definition idna_rows_52 : list row := [
  Row 0xfd00 0xfd00 Mapped [0x62d; 0x64a];
  Row 0xfd01 0xfd01 Mapped [0x62c; 0x649];
  Row 0xfd02 0xfd02 Mapped [0x62c; 0x64a];
  Row 0xfd03 0xfd03 Mapped [0x62e; 0x649];
  Row 0xfd04 0xfd04 Mapped [0x62e; 0x64a];
  Row 0xfd05 0xfd05 Mapped [0x635; 0x649];
  Row 0xfd06 0xfd06 Mapped [0x635; 0x64a];
  Row 0xfd07 0xfd07 Mapped [0x636; 0x649];
  Row 0xfd08 0xfd08 Mapped [0x636; 0x64a];
  Row 0xfd09 0xfd09 Mapped [0x634; 0x62c];
  Row 0xfd0a 0xfd0a Mapped [0x634; 0x62d];
  Row 0xfd0b 0xfd0b Mapped [0x634; 0x62e];
  Row 0xfd0c 0xfd0c Mapped [0x634; 0x645];
  Row 0xfd0d 0xfd0d Mapped [0x634; 0x631];
  Row 0xfd0e 0xfd0e Mapped [0x633; 0x631];
  Row 0xfd0f 0xfd0f Mapped [0x635; 0x631];
  Row 0xfd10 0xfd10 Mapped [0x636; 0x631];
  Row 0xfd11 0xfd11 Mapped [0x637; 0x649];
  Row 0xfd12 0xfd12 Mapped [0x637; 0x64a];
  Row 0xfd13 0xfd13 Mapped [0x639; 0x649];
  Row 0xfd14 0xfd14 Mapped [0x639; 0x64a];
  Row 0xfd15 0xfd15 Mapped [0x63a; 0x649];
  Row 0xfd16 0xfd16 Mapped [0x63a; 0x64a];
  Row 0xfd17 0xfd17 Mapped [0x633; 0x649];
  Row 0xfd18 0xfd18 Mapped [0x633; 0x64a];
  Row 0xfd19 0xfd19 Mapped [0x634; 0x649];
  Row 0xfd1a 0xfd1a Mapped [0x634; 0x64a];
  Row 0xfd1b 0xfd1b Mapped [0x62d; 0x649];
  Row 0xfd1c 0xfd1c Mapped [0x62d; 0x64a];
  Row 0xfd1d 0xfd1d Mapped [0x62c; 0x649];
  Row 0xfd1e 0xfd1e Mapped [0x62c; 0x64a];
  Row 0xfd1f 0xfd1f Mapped [0x62e; 0x649];
  Row 0xfd20 0xfd20 Mapped [0x62e; 0x64a];
  Row 0xfd21 0xfd21 Mapped [0x635; 0x649];
  Row 0xfd22 0xfd22 Mapped [0x635; 0x64a];
  Row 0xfd23 0xfd23 Mapped [0x636; 0x649];
  Row 0xfd24 0xfd24 Mapped [0x636; 0x64a];
  Row 0xfd25 0xfd25 Mapped [0x634; 0x62c];
  Row 0xfd26 0xfd26 Mapped [0x634; 0x62d];
  Row 0xfd27 0xfd27 Mapped [0x634; 0x62e];
  Row 0xfd28 0xfd28 Mapped [0x634; 0x645];
  Row 0xfd29 0xfd29 Mapped [0x634; 0x631];
  Row 0xfd2a 0xfd2a Mapped [0x633; 0x631];
  Row 0xfd2b 0xfd2b Mapped [0x635; 0x631];
  Row 0xfd2c 0xfd2c Mapped [0x636; 0x631];
  Row 0xfd2d 0xfd2d Mapped [0x634; 0x62c];
  Row 0xfd2e 0xfd2e Mapped [0x634; 0x62d];
  Row 0xfd2f 0xfd2f Mapped [0x634; 0x62e];
  Row 0xfd30 0xfd30 Mapped [0x634; 0x645];
  Row 0xfd31 0xfd31 Mapped [0x633; 0x647];
  Row 0xfd32 0xfd32 Mapped [0x634; 0x647];
  Row 0xfd33 0xfd33 Mapped [0x637; 0x645];
  Row 0xfd34 0xfd34 Mapped [0x633; 0x62c];
  Row 0xfd35 0xfd35 Mapped [0x633; 0x62d];
  Row 0xfd36 0xfd36 Mapped [0x633; 0x62e];
  Row 0xfd37 0xfd37 Mapped [0x634; 0x62c];
  Row 0xfd38 0xfd38 Mapped [0x634; 0x62d];
  Row 0xfd39 0xfd39 Mapped [0x634; 0x62e];
  Row 0xfd3a 0xfd3a Mapped [0x637; 0x645];
  Row 0xfd3b 0xfd3b Mapped [0x638; 0x645];
  Row 0xfd3c 0xfd3d Mapped [0x627; 0x64b];
  Row 0xfd3e 0xfd3f Valid [];
  Row 0xfd40 0xfd4f Disallowed [];
  Row 0xfd50 0xfd50 Mapped [0x62a; 0x62c; 0x645];
  Row 0xfd51 0xfd52 Mapped [0x62a; 0x62d; 0x62c];
  Row 0xfd53 0xfd53 Mapped [0x62a; 0x62d; 0x645];
  Row 0xfd54 0xfd54 Mapped [0x62a; 0x62e; 0x645];
  Row 0xfd55 0xfd55 Mapped [0x62a; 0x645; 0x62c];
  Row 0xfd56 0xfd56 Mapped [0x62a; 0x645; 0x62d];
  Row 0xfd57 0xfd57 Mapped [0x62a; 0x645; 0x62e];
  Row 0xfd58 0xfd59 Mapped [0x62c; 0x645; 0x62d];
  Row 0xfd5a 0xfd5a Mapped [0x62d; 0x645; 0x64a];
  Row 0xfd5b 0xfd5b Mapped [0x62d; 0x645; 0x649];
  Row 0xfd5c 0xfd5c Mapped [0x633; 0x62d; 0x62c];
  Row 0xfd5d 0xfd5d Mapped [0x633; 0x62c; 0x62d];
  Row 0xfd5e 0xfd5e Mapped [0x633; 0x62c; 0x649];
  Row 0xfd5f 0xfd60 Mapped [0x633; 0x645; 0x62d];
  Row 0xfd61 0xfd61 Mapped [0x633; 0x645; 0x62c];
  Row 0xfd62 0xfd63 Mapped [0x633; 0x645; 0x645];
  Row 0xfd64 0xfd65 Mapped [0x635; 0x62d; 0x62d];
  Row 0xfd66 0xfd66 Mapped [0x635; 0x645; 0x645];
  Row 0xfd67 0xfd68 Mapped [0x634; 0x62d; 0x645];
  Row 0xfd69 0xfd69 Mapped [0x634; 0x62c; 0x64a];
  Row 0xfd6a 0xfd6b Mapped [0x634; 0x645; 0x62e];
  Row 0xfd6c 0xfd6d Mapped [0x634; 0x645; 0x645];
  Row 0xfd6e 0xfd6e Mapped [0x636; 0x62d; 0x649];
  Row 0xfd6f 0xfd70 Mapped [0x636; 0x62e; 0x645];
  Row 0xfd71 0xfd72 Mapped [0x637; 0x645; 0x62d];
  Row 0xfd73 0xfd73 Mapped [0x637; 0x645; 0x645];
  Row 0xfd74 0xfd74 Mapped [0x637; 0x645; 0x64a];
  Row 0xfd75 0xfd75 Mapped [0x639; 0x62c; 0x645];
  Row 0xfd76 0xfd77 Mapped [0x639; 0x645; 0x645];
  Row 0xfd78 0xfd78 Mapped [0x639; 0x645; 0x649];
  Row 0xfd79 0xfd79 Mapped [0x63a; 0x645; 0x645];
  Row 0xfd7a 0xfd7a Mapped [0x63a; 0x645; 0x64a];
  Row 0xfd7b 0xfd7b Mapped [0x63a; 0x645; 0x649];
  Row 0xfd7c 0xfd7d Mapped [0x641; 0x62e; 0x645];
  Row 0xfd7e 0xfd7e Mapped [0x642; 0x645; 0x62d];
  Row 0xfd7f 0xfd7f Mapped [0x642; 0x645; 0x645];
  Row 0xfd80 0xfd80 Mapped [0x644; 0x62d; 0x645]].
Definition idna_rows_53 : list row := [
  Row 0xfd81 0xfd81 Mapped [0x644; 0x62d; 0x64a];
  Row 0xfd82 0xfd82 Mapped [0x644; 0x62d; 0x649];
  Row 0xfd83 0xfd84 Mapped [0x644; 0x62c; 0x62c];
  Row 0xfd85 0xfd86 Mapped [0x644; 0x62e; 0x645];
  Row 0xfd87 0xfd88 Mapped [0x644; 0x645; 0x62d];
  Row 0xfd89 0xfd89 Mapped [0x645; 0x62d; 0x62c];
  Row 0xfd8a 0xfd8a Mapped [0x645; 0x62d; 0x645];
  Row 0xfd8b 0xfd8b Mapped [0x645; 0x62d; 0x64a];
  Row 0xfd8c 0xfd8c Mapped [0x645; 0x62c; 0x62d];
  Row 0xfd8d 0xfd8d Mapped [0x645; 0x62c; 0x645];
  Row 0xfd8e 0xfd8e Mapped [0x645; 0x62e; 0x62c];
  Row 0xfd8f 0xfd8f Mapped [0x645; 0x62e; 0x645];
  Row 0xfd90 0xfd91 Disallowed [];
  Row 0xfd92 0xfd92 Mapped [0x645; 0x62c; 0x62e];
  Row 0xfd93 0xfd93 Mapped [0x647; 0x645; 0x62c];
  Row 0xfd94 0xfd94 Mapped [0x647; 0x645; 0x645];
  Row 0xfd95 0xfd95 Mapped [0x646; 0x62d; 0x645];
  Row 0xfd96 0xfd96 Mapped [0x646; 0x62d; 0x649];
  Row 0xfd97 0xfd98 Mapped [0x646; 0x62c; 0x645];
  Row 0xfd99 0xfd99 Mapped [0x646; 0x62c; 0x649];
  Row 0xfd9a 0xfd9a Mapped [0x646; 0x645; 0x64a];
  Row 0xfd9b 0xfd9b Mapped [0x646; 0x645; 0x649];
  Row 0xfd9c 0xfd9d Mapped [0x64a; 0x645; 0x645];
  Row 0xfd9e 0xfd9e Mapped [0x628; 0x62e; 0x64a];
  Row 0xfd9f 0xfd9f Mapped [0x62a; 0x62c; 0x64a];
  Row 0xfda0 0xfda0 Mapped [0x62a; 0x62c; 0x649];
  Row 0xfda1 0xfda1 Mapped [0x62a; 0x62e; 0x64a];
  Row 0xfda2 0xfda2 Mapped [0x62a; 0x62e; 0x649];
  Row 0xfda3 0xfda3 Mapped [0x62a; 0x645; 0x64a];
  Row 0xfda4 0xfda4 Mapped [0x62a; 0x645; 0x649];
  Row 0xfda5 0xfda5 Mapped [0x62c; 0x645; 0x64a];
  Row 0xfda6 0xfda6 Mapped [0x62c; 0x62d; 0x649];
  Row 0xfda7 0xfda7 Mapped [0x62c; 0x645; 0x649];
  Row 0xfda8 0xfda8 Mapped [0x633; 0x62e; 0x649];
  Row 0xfda9 0xfda9 Mapped [0x635; 0x62d; 0x64a];
  Row 0xfdaa 0xfdaa Mapped [0x634; 0x62d; 0x64a];
  Row 0xfdab 0xfdab Mapped [0x636; 0x62d; 0x64a];
  Row 0xfdac 0xfdac Mapped [0x644; 0x62c; 0x64a];
  Row 0xfdad 0xfdad Mapped [0x644; 0x645; 0x64a];
  Row 0xfdae 0xfdae Mapped [0x64a; 0x62d; 0x64a];
  Row 0xfdaf 0xfdaf Mapped [0x64a; 0x62c; 0x64a];
  Row 0xfdb0 0xfdb0 Mapped [0x64a; 0x645; 0x64a];
  Row 0xfdb1 0xfdb1 Mapped [0x645; 0x645; 0x64a];
  Row 0xfdb2 0xfdb2 Mapped [0x642; 0x645; 0x64a];
  Row 0xfdb3 0xfdb3 Mapped [0x646; 0x62d; 0x64a];
  Row 0xfdb4 0xfdb4 Mapped [0x642; 0x645; 0x62d];
  Row 0xfdb5 0xfdb5 Mapped [0x644; 0x62d; 0x645];
  Row 0xfdb6 0xfdb6 Mapped [0x639; 0x645; 0x64a];
  Row 0xfdb7 0xfdb7 Mapped [0x643; 0x645; 0x64a];
  Row 0xfdb8 0xfdb8 Mapped [0x646; 0x62c; 0x62d];
  Row 0xfdb9 0xfdb9 Mapped [0x645; 0x62e; 0x64a];
  Row 0xfdba 0xfdba Mapped [0x644; 0x62c; 0x645];
  Row 0xfdbb 0xfdbb Mapped [0x643; 0x645; 0x645];
  Row 0xfdbc 0xfdbc Mapped [0x644; 0x62c; 0x645];
  Row 0xfdbd 0xfdbd Mapped [0x646; 0x62c; 0x62d];
  Row 0xfdbe 0xfdbe Mapped [0x62c; 0x62d; 0x64a];
  Row 0xfdbf 0xfdbf Mapped [0x62d; 0x62c; 0x64a];
  Row 0xfdc0 0xfdc0 Mapped [0x645; 0x62c; 0x64a];
  Row 0xfdc1 0xfdc1 Mapped [0x641; 0x645; 0x64a];
  Row 0xfdc2 0xfdc2 Mapped [0x628; 0x62d; 0x64a];
  Row 0xfdc3 0xfdc3 Mapped [0x643; 0x645; 0x645];
  Row 0xfdc4 0xfdc4 Mapped [0x639; 0x62c; 0x645];
  Row 0xfdc5 0xfdc5 Mapped [0x635; 0x645; 0x645];
  Row 0xfdc6 0xfdc6 Mapped [0x633; 0x62e; 0x64a];
  Row 0xfdc7 0xfdc7 Mapped [0x646; 0x62c; 0x64a];
  Row 0xfdc8 0xfdcf Disallowed [];
  Row 0xfdd0 0xfdef Disallowed [];
  Row 0xfdf0 0xfdf0 Mapped [0x635; 0x644; 0x6d2];
  Row 0xfdf1 0xfdf1 Mapped [0x642; 0x644; 0x6d2];
  Row 0xfdf2 0xfdf2 Mapped [0x627; 0x644; 0x644; 0x647];
  Row 0xfdf3 0xfdf3 Mapped [0x627; 0x643; 0x628; 0x631];
  Row 0xfdf4 0xfdf4 Mapped [0x645; 0x62d; 0x645; 0x62f];
  Row 0xfdf5 0xfdf5 Mapped [0x635; 0x644; 0x639; 0x645];
  Row 0xfdf6 0xfdf6 Mapped [0x631; 0x633; 0x648; 0x644];
  Row 0xfdf7 0xfdf7 Mapped [0x639; 0x644; 0x64a; 0x647];
  Row 0xfdf8 0xfdf8 Mapped [0x648; 0x633; 0x644; 0x645];
  Row 0xfdf9 0xfdf9 Mapped [0x635; 0x644; 0x649];
  Row 0xfdfa 0xfdfa Std3Mapped [0x635; 0x644; 0x649; 0x20; 0x627; 0x644; 0x644; 0x647; 0x20; 0x639; 0x644; 0x64a; 0x647; 0x20; 0x648; 0x633; 0x644; 0x645];
  Row 0xfdfb 0xfdfb Std3Mapped [0x62c; 0x644; 0x20; 0x62c; 0x644; 0x627; 0x644; 0x647];
  Row 0xfdfc 0xfdfc Mapped [0x631; 0x6cc; 0x627; 0x644];
  Row 0xfdfd 0xfdfd Valid [];
  Row 0xfdfe 0xfdff Disallowed [];
  Row 0xfe00 0xfe0f Ignored [];
  Row 0xfe10 0xfe10 Std3Mapped [0x2c];
  Row 0xfe11 0xfe11 Mapped [0x3001];
  Row 0xfe12 0xfe12 Disallowed [];
  Row 0xfe13 0xfe13 Std3Mapped [0x3a];
  Row 0xfe14 0xfe14 Std3Mapped [0x3b];
  Row 0xfe15 0xfe15 Std3Mapped [0x21];
  Row 0xfe16 0xfe16 Std3Mapped [0x3f];
  Row 0xfe17 0xfe17 Mapped [0x3016];
  Row 0xfe18 0xfe18 Mapped [0x3017];
  Row 0xfe19 0xfe19 Disallowed [];
  Row 0xfe1a 0xfe1f Disallowed [];
  Row 0xfe20 0xfe23 Valid [];
  Row 0xfe24 0xfe26 Valid [];
  Row 0xfe27 0xfe2d Valid [];
  Row 0xfe2e 0xfe2f Valid [];
  Row 0xfe30 0xfe30 Disallowed [];
  Row 0xfe31 0xfe31 Mapped [0x2014]].
Definition idna_rows_54 : list row := [
  Row 0xfe32 0xfe32 Mapped [0x2013];
  Row 0xfe33 0xfe34 Std3Mapped [0x5f];
  Row 0xfe35 0xfe35 Std3Mapped [0x28];
  Row 0xfe36 0xfe36 Std3Mapped [0x29];
  Row 0xfe37 0xfe37 Std3Mapped [0x7b];
  Row 0xfe38 0xfe38 Std3Mapped [0x7d];
  Row 0xfe39 0xfe39 Mapped [0x3014];
  Row 0xfe3a 0xfe3a Mapped [0x3015];
  Row 0xfe3b 0xfe3b Mapped [0x3010];
  Row 0xfe3c 0xfe3c Mapped [0x3011];
  Row 0xfe3d 0xfe3d Mapped [0x300a];
  Row 0xfe3e 0xfe3e Mapped [0x300b];
  Row 0xfe3f 0xfe3f Mapped [0x3008];
  Row 0xfe40 0xfe40 Mapped [0x3009];
  Row 0xfe41 0xfe41 Mapped [0x300c];
  Row 0xfe42 0xfe42 Mapped [0x300d];
  Row 0xfe43 0xfe43 Mapped [0x300e];
  Row 0xfe44 0xfe44 Mapped [0x300f];
  Row 0xfe45 0xfe46 Valid [];
  Row 0xfe47 0xfe47 Std3Mapped [0x5b];
  Row 0xfe48 0xfe48 Std3Mapped [0x5d];
  Row 0xfe49 0xfe4c Std3Mapped [0x20; 0x305];
  Row 0xfe4d 0xfe4f Std3Mapped [0x5f];
  Row 0xfe50 0xfe50 Std3Mapped [0x2c];
  Row 0xfe51 0xfe51 Mapped [0x3001];
  Row 0xfe52 0xfe52 Disallowed [];
  Row 0xfe53 0xfe53 Disallowed [];
  Row 0xfe54 0xfe54 Std3Mapped [0x3b];
  Row 0xfe55 0xfe55 Std3Mapped [0x3a];
  Row 0xfe56 0xfe56 Std3Mapped [0x3f];
  Row 0xfe57 0xfe57 Std3Mapped [0x21];
  Row 0xfe58 0xfe58 Mapped [0x2014];
  Row 0xfe59 0xfe59 Std3Mapped [0x28];
  Row 0xfe5a 0xfe5a Std3Mapped [0x29];
  Row 0xfe5b 0xfe5b Std3Mapped [0x7b];
  Row 0xfe5c 0xfe5c Std3Mapped [0x7d];
  Row 0xfe5d 0xfe5d Mapped [0x3014];
  Row 0xfe5e 0xfe5e Mapped [0x3015];
  Row 0xfe5f 0xfe5f Std3Mapped [0x23];
  Row 0xfe60 0xfe60 Std3Mapped [0x26];
  Row 0xfe61 0xfe61 Std3Mapped [0x2a];
  Row 0xfe62 0xfe62 Std3Mapped [0x2b];
  Row 0xfe63 0xfe63 Mapped [0x2d];
  Row 0xfe64 0xfe64 Std3Mapped [0x3c];
  Row 0xfe65 0xfe65 Std3Mapped [0x3e];
  Row 0xfe66 0xfe66 Std3Mapped [0x3d];
  Row 0xfe67 0xfe67 Disallowed [];
  Row 0xfe68 0xfe68 Std3Mapped [0x5c];
  Row 0xfe69 0xfe69 Std3Mapped [0x24];
  Row 0xfe6a 0xfe6a Std3Mapped [0x25];
  Row 0xfe6b 0xfe6b Std3Mapped [0x40];
  Row 0xfe6c 0xfe6f Disallowed [];
  Row 0xfe70 0xfe70 Std3Mapped [0x20; 0x64b];
  Row 0xfe71 0xfe71 Mapped [0x640; 0x64b];
  Row 0xfe72 0xfe72 Std3Mapped [0x20; 0x64c];
  Row 0xfe73 0xfe73 Valid [];
  Row 0xfe74 0xfe74 Std3Mapped [0x20; 0x64d];
  Row 0xfe75 0xfe75 Disallowed [];
  Row 0xfe76 0xfe76 Std3Mapped [0x20; 0x64e];
  Row 0xfe77 0xfe77 Mapped [0x640; 0x64e];
  Row 0xfe78 0xfe78 Std3Mapped [0x20; 0x64f];
  Row 0xfe79 0xfe79 Mapped [0x640; 0x64f];
  Row 0xfe7a 0xfe7a Std3Mapped [0x20; 0x650];
  Row 0xfe7b 0xfe7b Mapped [0x640; 0x650];
  Row 0xfe7c 0xfe7c Std3Mapped [0x20; 0x651];
  Row 0xfe7d 0xfe7d Mapped [0x640; 0x651];
  Row 0xfe7e 0xfe7e Std3Mapped [0x20; 0x652];
  Row 0xfe7f 0xfe7f Mapped [0x640; 0x652];
  Row 0xfe80 0xfe80 Mapped [0x621];
  Row 0xfe81 0xfe82 Mapped [0x622];
  Row 0xfe83 0xfe84 Mapped [0x623];
  Row 0xfe85 0xfe86 Mapped [0x624];
  Row 0xfe87 0xfe88 Mapped [0x625];
  Row 0xfe89 0xfe8c Mapped [0x626];
  Row 0xfe8d 0xfe8e Mapped [0x627];
  Row 0xfe8f 0xfe92 Mapped [0x628];
  Row 0xfe93 0xfe94 Mapped [0x629];
  Row 0xfe95 0xfe98 Mapped [0x62a];
  Row 0xfe99 0xfe9c Mapped [0x62b];
  Row 0xfe9d 0xfea0 Mapped [0x62c];
  Row 0xfea1 0xfea4 Mapped [0x62d];
  Row 0xfea5 0xfea8 Mapped [0x62e];
  Row 0xfea9 0xfeaa Mapped [0x62f];
  Row 0xfeab 0xfeac Mapped [0x630];
  Row 0xfead 0xfeae Mapped [0x631];
  Row 0xfeaf 0xfeb0 Mapped [0x632];
  Row 0xfeb1 0xfeb4 Mapped [0x633];
  Row 0xfeb5 0xfeb8 Mapped [0x634];
  Row 0xfeb9 0xfebc Mapped [0x635];
  Row 0xfebd 0xfec0 Mapped [0x636];
  Row 0xfec1 0xfec4 Mapped [0x637];
  Row 0xfec5 0xfec8 Mapped [0x638];
  Row 0xfec9 0xfecc Mapped [0x639];
  Row 0xfecd 0xfed0 Mapped [0x63a];
  Row 0xfed1 0xfed4 Mapped [0x641];
  Row 0xfed5 0xfed8 Mapped [0x642];
  Row 0xfed9 0xfedc Mapped [0x643];
  Row 0xfedd 0xfee0 Mapped [0x644];
  Row 0xfee1 0xfee4 Mapped [0x645];
  Row 0xfee5 0xfee8 Mapped [0x646]].
Definition idna_rows_55 : list row := [
  Row 0xfee9 0xfeec Mapped [0x647];
  Row 0xfeed 0xfeee Mapped [0x648];
  Row 0xfeef 0xfef0 Mapped [0x649];
  Row 0xfef1 0xfef4 Mapped [0x64a];
  Row 0xfef5 0xfef6 Mapped [0x644; 0x622];
  Row 0xfef7 0xfef8 Mapped [0x644; 0x623];
  Row 0xfef9 0xfefa Mapped [0x644; 0x625];
  Row 0xfefb 0xfefc Mapped [0x644; 0x627];
  Row 0xfefd 0xfefe Disallowed [];
  Row 0xfeff 0xfeff Ignored [];
  Row 0xff00 0xff00 Disallowed [];
  Row 0xff01 0xff01 Std3Mapped [0x21];
  Row 0xff02 0xff02 Std3Mapped [0x22];
  Row 0xff03 0xff03 Std3Mapped [0x23];
  Row 0xff04 0xff04 Std3Mapped [0x24];
  Row 0xff05 0xff05 Std3Mapped [0x25];
  Row 0xff06 0xff06 Std3Mapped [0x26];
  Row 0xff07 0xff07 Std3Mapped [0x27];
  Row 0xff08 0xff08 Std3Mapped [0x28];
  Row 0xff09 0xff09 Std3Mapped [0x29];
  Row 0xff0a 0xff0a Std3Mapped [0x2a];
  Row 0xff0b 0xff0b Std3Mapped [0x2b];
  Row 0xff0c 0xff0c Std3Mapped [0x2c];
  Row 0xff0d 0xff0d Mapped [0x2d];
  Row 0xff0e 0xff0e Mapped [0x2e];
  Row 0xff0f 0xff0f Std3Mapped [0x2f];
  Row 0xff10 0xff10 Mapped [0x30];
  Row 0xff11 0xff11 Mapped [0x31];
  Row 0xff12 0xff12 Mapped [0x32];
  Row 0xff13 0xff13 Mapped [0x33];
  Row 0xff14 0xff14 Mapped [0x34];
  Row 0xff15 0xff15 Mapped [0x35];
  Row 0xff16 0xff16 Mapped [0x36];
  Row 0xff17 0xff17 Mapped [0x37];
  Row 0xff18 0xff18 Mapped [0x38];
  Row 0xff19 0xff19 Mapped [0x39];
  Row 0xff1a 0xff1a Std3Mapped [0x3a];
  Row 0xff1b 0xff1b Std3Mapped [0x3b];
  Row 0xff1c 0xff1c Std3Mapped [0x3c];
  Row 0xff1d 0xff1d Std3Mapped [0x3d];
  Row 0xff1e 0xff1e Std3Mapped [0x3e];
  Row 0xff1f 0xff1f Std3Mapped [0x3f];
  Row 0xff20 0xff20 Std3Mapped [0x40];
  Row 0xff21 0xff21 Mapped [0x61];
  Row 0xff22 0xff22 Mapped [0x62];
  Row 0xff23 0xff23 Mapped [0x63];
  Row 0xff24 0xff24 Mapped [0x64];
  Row 0xff25 0xff25 Mapped [0x65];
  Row 0xff26 0xff26 Mapped [0x66];
  Row 0xff27 0xff27 Mapped [0x67];
  Row 0xff28 0xff28 Mapped [0x68];
  Row 0xff29 0xff29 Mapped [0x69];
  Row 0xff2a 0xff2a Mapped [0x6a];
  Row 0xff2b 0xff2b Mapped [0x6b];
  Row 0xff2c 0xff2c Mapped [0x6c];
  Row 0xff2d 0xff2d Mapped [0x6d];
  Row 0xff2e 0xff2e Mapped [0x6e];
  Row 0xff2f 0xff2f Mapped [0x6f];
  Row 0xff30 0xff30 Mapped [0x70];
  Row 0xff31 0xff31 Mapped [0x71];
  Row 0xff32 0xff32 Mapped [0x72];
  Row 0xff33 0xff33 Mapped [0x73];
  Row 0xff34 0xff34 Mapped [0x74];
  Row 0xff35 0xff35 Mapped [0x75];
  Row 0xff36 0xff36 Mapped [0x76];
  Row 0xff37 0xff37 Mapped [0x77];
  Row 0xff38 0xff38 Mapped [0x78];
  Row 0xff39 0xff39 Mapped [0x79];
  Row 0xff3a 0xff3a Mapped [0x7a];
  Row 0xff3b 0xff3b Std3Mapped [0x5b];
  Row 0xff3c 0xff3c Std3Mapped [0x5c];
  Row 0xff3d 0xff3d Std3Mapped [0x5d];
  Row 0xff3e 0xff3e Std3Mapped [0x5e];
  Row 0xff3f 0xff3f Std3Mapped [0x5f];
  Row 0xff40 0xff40 Std3Mapped [0x60];
  Row 0xff41 0xff41 Mapped [0x61];
  Row 0xff42 0xff42 Mapped [0x62];
  Row 0xff43 0xff43 Mapped [0x63];
  Row 0xff44 0xff44 Mapped [0x64];
  Row 0xff45 0xff45 Mapped [0x65];
  Row 0xff46 0xff46 Mapped [0x66];
  Row 0xff47 0xff47 Mapped [0x67];
  Row 0xff48 0xff48 Mapped [0x68];
  Row 0xff49 0xff49 Mapped [0x69];
  Row 0xff4a 0xff4a Mapped [0x6a];
  Row 0xff4b 0xff4b Mapped [0x6b];
  Row 0xff4c 0xff4c Mapped [0x6c];
  Row 0xff4d 0xff4d Mapped [0x6d];
  Row 0xff4e 0xff4e Mapped [0x6e];
  Row 0xff4f 0xff4f Mapped [0x6f];
  Row 0xff50 0xff50 Mapped [0x70];
  Row 0xff51 0xff51 Mapped [0x71];
  Row 0xff52 0xff52 Mapped [0x72];
  Row 0xff53 0xff53 Mapped [0x73];
  Row 0xff54 0xff54 Mapped [0x74];
  Row 0xff55 0xff55 Mapped [0x75];
  Row 0xff56 0xff56 Mapped [0x76];
  Row 0xff57 0xff57 Mapped [0x77];
  Row 0xff58 0xff58 Mapped [0x78];
  Row 0xff59 0xff59 Mapped [0x79]].
Definition idna_rows_56 : list row := [
  Row 0xff5a 0xff5a Mapped [0x7a];
  Row 0xff5b 0xff5b Std3Mapped [0x7b];
  Row 0xff5c 0xff5c Std3Mapped [0x7c];
  Row 0xff5d 0xff5d Std3Mapped [0x7d];
  Row 0xff5e 0xff5e Std3Mapped [0x7e];
  Row 0xff5f 0xff5f Mapped [0x2985];
  Row 0xff60 0xff60 Mapped [0x2986];
  Row 0xff61 0xff61 Mapped [0x2e];
  Row 0xff62 0xff62 Mapped [0x300c];
  Row 0xff63 0xff63 Mapped [0x300d];
  Row 0xff64 0xff64 Mapped [0x3001];
  Row 0xff65 0xff65 Mapped [0x30fb];
  Row 0xff66 0xff66 Mapped [0x30f2];
  Row 0xff67 0xff67 Mapped [0x30a1];
  Row 0xff68 0xff68 Mapped [0x30a3];
  Row 0xff69 0xff69 Mapped [0x30a5];
  Row 0xff6a 0xff6a Mapped [0x30a7];
  Row 0xff6b 0xff6b Mapped [0x30a9];
  Row 0xff6c 0xff6c Mapped [0x30e3];
  Row 0xff6d 0xff6d Mapped [0x30e5];
  Row 0xff6e 0xff6e Mapped [0x30e7];
  Row 0xff6f 0xff6f Mapped [0x30c3];
  Row 0xff70 0xff70 Mapped [0x30fc];
  Row 0xff71 0xff71 Mapped [0x30a2];
  Row 0xff72 0xff72 Mapped [0x30a4];
  Row 0xff73 0xff73 Mapped [0x30a6];
  Row 0xff74 0xff74 Mapped [0x30a8];
  Row 0xff75 0xff75 Mapped [0x30aa];
  Row 0xff76 0xff76 Mapped [0x30ab];
  Row 0xff77 0xff77 Mapped [0x30ad];
  Row 0xff78 0xff78 Mapped [0x30af];
  Row 0xff79 0xff79 Mapped [0x30b1];
  Row 0xff7a 0xff7a Mapped [0x30b3];
  Row 0xff7b 0xff7b Mapped [0x30b5];
  Row 0xff7c 0xff7c Mapped [0x30b7];
  Row 0xff7d 0xff7d Mapped [0x30b9];
  Row 0xff7e 0xff7e Mapped [0x30bb];
  Row 0xff7f 0xff7f Mapped [0x30bd];
  Row 0xff80 0xff80 Mapped [0x30bf];
  Row 0xff81 0xff81 Mapped [0x30c1];
  Row 0xff82 0xff82 Mapped [0x30c4];
  Row 0xff83 0xff83 Mapped [0x30c6];
  Row 0xff84 0xff84 Mapped [0x30c8];
  Row 0xff85 0xff85 Mapped [0x30ca];
  Row 0xff86 0xff86 Mapped [0x30cb];
  Row 0xff87 0xff87 Mapped [0x30cc];
  Row 0xff88 0xff88 Mapped [0x30cd];
  Row 0xff89 0xff89 Mapped [0x30ce];
  Row 0xff8a 0xff8a Mapped [0x30cf];
  Row 0xff8b 0xff8b Mapped [0x30d2];
  Row 0xff8c 0xff8c Mapped [0x30d5];
  Row 0xff8d 0xff8d Mapped [0x30d8];
  Row 0xff8e 0xff8e Mapped [0x30db];
  Row 0xff8f 0xff8f Mapped [0x30de];
  Row 0xff90 0xff90 Mapped [0x30df];
  Row 0xff91 0xff91 Mapped [0x30e0];
  Row 0xff92 0xff92 Mapped [0x30e1];
  Row 0xff93 0xff93 Mapped [0x30e2];
  Row 0xff94 0xff94 Mapped [0x30e4];
  Row 0xff95 0xff95 Mapped [0x30e6];
  Row 0xff96 0xff96 Mapped [0x30e8];
  Row 0xff97 0xff97 Mapped [0x30e9];
  Row 0xff98 0xff98 Mapped [0x30ea];
  Row 0xff99 0xff99 Mapped [0x30eb];
  Row 0xff9a 0xff9a Mapped [0x30ec];
  Row 0xff9b 0xff9b Mapped [0x30ed];
  Row 0xff9c 0xff9c Mapped [0x30ef];
  Row 0xff9d 0xff9d Mapped [0x30f3];
  Row 0xff9e 0xff9e Mapped [0x3099];
  Row 0xff9f 0xff9f Mapped [0x309a];
  Row 0xffa0 0xffa0 Disallowed [];
  Row 0xffa1 0xffa1 Mapped [0x1100];
  Row 0xffa2 0xffa2 Mapped [0x1101];
  Row 0xffa3 0xffa3 Mapped [0x11aa];
  Row 0xffa4 0xffa4 Mapped [0x1102];
  Row 0xffa5 0xffa5 Mapped [0x11ac];
  Row 0xffa6 0xffa6 Mapped [0x11ad];
  Row 0xffa7 0xffa7 Mapped [0x1103];
  Row 0xffa8 0xffa8 Mapped [0x1104];
  Row 0xffa9 0xffa9 Mapped [0x1105];
  Row 0xffaa 0xffaa Mapped [0x11b0];
  Row 0xffab 0xffab Mapped [0x11b1];
  Row 0xffac 0xffac Mapped [0x11b2];
  Row 0xffad 0xffad Mapped [0x11b3];
  Row 0xffae 0xffae Mapped [0x11b4];
  Row 0xffaf 0xffaf Mapped [0x11b5];
  Row 0xffb0 0xffb0 Mapped [0x111a];
  Row 0xffb1 0xffb1 Mapped [0x1106];
  Row 0xffb2 0xffb2 Mapped [0x1107];
  Row 0xffb3 0xffb3 Mapped [0x1108];
  Row 0xffb4 0xffb4 Mapped [0x1121];
  Row 0xffb5 0xffb5 Mapped [0x1109];
  Row 0xffb6 0xffb6 Mapped [0x110a];
  Row 0xffb7 0xffb7 Mapped [0x110b];
  Row 0xffb8 0xffb8 Mapped [0x110c];
  Row 0xffb9 0xffb9 Mapped [0x110d];
  Row 0xffba 0xffba Mapped [0x110e];
  Row 0xffbb 0xffbb Mapped [0x110f];
  Row 0xffbc 0xffbc Mapped [0x1110];
  Row 0xffbd 0xffbd Mapped [0x1111]].
Definition idna_rows_57 : list row := [
  Row 0xffbe 0xffbe Mapped [0x1112];
  Row 0xffbf 0xffc1 Disallowed [];
  Row 0xffc2 0xffc2 Mapped [0x1161];
  Row 0xffc3 0xffc3 Mapped [0x1162];
  Row 0xffc4 0xffc4 Mapped [0x1163];
  Row 0xffc5 0xffc5 Mapped [0x1164];
  Row 0xffc6 0xffc6 Mapped [0x1165];
  Row 0xffc7 0xffc7 Mapped [0x1166];
  Row 0xffc8 0xffc9 Disallowed [];
  Row 0xffca 0xffca Mapped [0x1167];
  Row 0xffcb 0xffcb Mapped [0x1168];
  Row 0xffcc 0xffcc Mapped [0x1169];
  Row 0xffcd 0xffcd Mapped [0x116a];
  Row 0xffce 0xffce Mapped [0x116b];
  Row 0xffcf 0xffcf Mapped [0x116c];
  Row 0xffd0 0xffd1 Disallowed [];
  Row 0xffd2 0xffd2 Mapped [0x116d];
  Row 0xffd3 0xffd3 Mapped [0x116e];
  Row 0xffd4 0xffd4 Mapped [0x116f];
  Row 0xffd5 0xffd5 Mapped [0x1170];
  Row 0xffd6 0xffd6 Mapped [0x1171];
  Row 0xffd7 0xffd7 Mapped [0x1172];
  Row 0xffd8 0xffd9 Disallowed [];
  Row 0xffda 0xffda Mapped [0x1173];
  Row 0xffdb 0xffdb Mapped [0x1174];
  Row 0xffdc 0xffdc Mapped [0x1175];
  Row 0xffdd 0xffdf Disallowed [];
  Row 0xffe0 0xffe0 Mapped [0xa2];
  Row 0xffe1 0xffe1 Mapped [0xa3];
  Row 0xffe2 0xffe2 Mapped [0xac];
  Row 0xffe3 0xffe3 Std3Mapped [0x20; 0x304];
  Row 0xffe4 0xffe4 Mapped [0xa6];
  Row 0xffe5 0xffe5 Mapped [0xa5];
  Row 0xffe6 0xffe6 Mapped [0x20a9];
  Row 0xffe7 0xffe7 Disallowed [];
  Row 0xffe8 0xffe8 Mapped [0x2502];
  Row 0xffe9 0xffe9 Mapped [0x2190];
  Row 0xffea 0xffea Mapped [0x2191];
  Row 0xffeb 0xffeb Mapped [0x2192];
  Row 0xffec 0xffec Mapped [0x2193];
  Row 0xffed 0xffed Mapped [0x25a0];
  Row 0xffee 0xffee Mapped [0x25cb];
  Row 0xffef 0xfff8 Disallowed [];
  Row 0xfff9 0xfffb Disallowed [];
  Row 0xfffc 0xfffc Disallowed [];
  Row 0xfffd 0xfffd Disallowed [];
  Row 0xfffe 0xffff Disallowed [];
  Row 0x10000 0x1000b Valid [];
  Row 0x1000c 0x1000c Disallowed [];
  Row 0x1000d 0x10026 Valid [];
  Row 0x10027 0x10027 Disallowed [];
  Row 0x10028 0x1003a Valid [];
  Row 0x1003b 0x1003b Disallowed [];
  Row 0x1003c 0x1003d Valid [];
  Row 0x1003e 0x1003e Disallowed [];
  Row 0x1003f 0x1004d Valid [];
  Row 0x1004e 0x1004f Disallowed [];
  Row 0x10050 0x1005d Valid [];
  Row 0x1005e 0x1007f Disallowed [];
  Row 0x10080 0x100fa Valid [];
  Row 0x100fb 0x100ff Disallowed [];
  Row 0x10100 0x10102 Valid [];
  Row 0x10103 0x10106 Disallowed [];
  Row 0x10107 0x10133 Valid [];
  Row 0x10134 0x10136 Disallowed [];
  Row 0x10137 0x1013f Valid [];
  Row 0x10140 0x1018a Valid [];
  Row 0x1018b 0x1018c Valid [];
  Row 0x1018d 0x1018e Valid [];
  Row 0x1018f 0x1018f Disallowed [];
  Row 0x10190 0x1019b Valid [];
  Row 0x1019c 0x1019c Valid [];
  Row 0x1019d 0x1019f Disallowed [];
  Row 0x101a0 0x101a0 Valid [];
  Row 0x101a1 0x101cf Disallowed [];
  Row 0x101d0 0x101fc Valid [];
  Row 0x101fd 0x101fd Valid [];
  Row 0x101fe 0x1027f Disallowed [];
  Row 0x10280 0x1029c Valid [];
  Row 0x1029d 0x1029f Disallowed [];
  Row 0x102a0 0x102d0 Valid [];
  Row 0x102d1 0x102df Disallowed [];
  Row 0x102e0 0x102e0 Valid [];
  Row 0x102e1 0x102fb Valid [];
  Row 0x102fc 0x102ff Disallowed [];
  Row 0x10300 0x1031e Valid [];
  Row 0x1031f 0x1031f Valid [];
  Row 0x10320 0x10323 Valid [];
  Row 0x10324 0x1032c Disallowed [];
  Row 0x1032d 0x1032f Valid [];
  Row 0x10330 0x10340 Valid [];
  Row 0x10341 0x10341 Valid [];
  Row 0x10342 0x10349 Valid [];
  Row 0x1034a 0x1034a Valid [];
  Row 0x1034b 0x1034f Disallowed [];
  Row 0x10350 0x1037a Valid [];
  Row 0x1037b 0x1037f Disallowed [];
  Row 0x10380 0x1039d Valid [];
  Row 0x1039e 0x1039e Disallowed [];
  Row 0x1039f 0x1039f Valid []].
Definition idna_rows_58 : list row := [
  Row 0x103a0 0x103c3 Valid [];
  Row 0x103c4 0x103c7 Disallowed [];
  Row 0x103c8 0x103cf Valid [];
  Row 0x103d0 0x103d5 Valid [];
  Row 0x103d6 0x103ff Disallowed [];
  Row 0x10400 0x10400 Mapped [0x10428];
  Row 0x10401 0x10401 Mapped [0x10429];
  Row 0x10402 0x10402 Mapped [0x1042a];
  Row 0x10403 0x10403 Mapped [0x1042b];
  Row 0x10404 0x10404 Mapped [0x1042c];
  Row 0x10405 0x10405 Mapped [0x1042d];
  Row 0x10406 0x10406 Mapped [0x1042e];
  Row 0x10407 0x10407 Mapped [0x1042f];
  Row 0x10408 0x10408 Mapped [0x10430];
  Row 0x10409 0x10409 Mapped [0x10431];
  Row 0x1040a 0x1040a Mapped [0x10432];
  Row 0x1040b 0x1040b Mapped [0x10433];
  Row 0x1040c 0x1040c Mapped [0x10434];
  Row 0x1040d 0x1040d Mapped [0x10435];
  Row 0x1040e 0x1040e Mapped [0x10436];
  Row 0x1040f 0x1040f Mapped [0x10437];
  Row 0x10410 0x10410 Mapped [0x10438];
  Row 0x10411 0x10411 Mapped [0x10439];
  Row 0x10412 0x10412 Mapped [0x1043a];
  Row 0x10413 0x10413 Mapped [0x1043b];
  Row 0x10414 0x10414 Mapped [0x1043c];
  Row 0x10415 0x10415 Mapped [0x1043d];
  Row 0x10416 0x10416 Mapped [0x1043e];
  Row 0x10417 0x10417 Mapped [0x1043f];
  Row 0x10418 0x10418 Mapped [0x10440];
  Row 0x10419 0x10419 Mapped [0x10441];
  Row 0x1041a 0x1041a Mapped [0x10442];
  Row 0x1041b 0x1041b Mapped [0x10443];
  Row 0x1041c 0x1041c Mapped [0x10444];
  Row 0x1041d 0x1041d Mapped [0x10445];
  Row 0x1041e 0x1041e Mapped [0x10446];
  Row 0x1041f 0x1041f Mapped [0x10447];
  Row 0x10420 0x10420 Mapped [0x10448];
  Row 0x10421 0x10421 Mapped [0x10449];
  Row 0x10422 0x10422 Mapped [0x1044a];
  Row 0x10423 0x10423 Mapped [0x1044b];
  Row 0x10424 0x10424 Mapped [0x1044c];
  Row 0x10425 0x10425 Mapped [0x1044d];
  Row 0x10426 0x10426 Mapped [0x1044e];
  Row 0x10427 0x10427 Mapped [0x1044f];
  Row 0x10428 0x1044d Valid [];
  Row 0x1044e 0x1049d Valid [];
  Row 0x1049e 0x1049f Disallowed [];
  Row 0x104a0 0x104a9 Valid [];
  Row 0x104aa 0x104af Disallowed [];
  Row 0x104b0 0x104b0 Mapped [0x104d8];
  Row 0x104b1 0x104b1 Mapped [0x104d9];
  Row 0x104b2 0x104b2 Mapped [0x104da];
  Row 0x104b3 0x104b3 Mapped [0x104db];
  Row 0x104b4 0x104b4 Mapped [0x104dc];
  Row 0x104b5 0x104b5 Mapped [0x104dd];
  Row 0x104b6 0x104b6 Mapped [0x104de];
  Row 0x104b7 0x104b7 Mapped [0x104df];
  Row 0x104b8 0x104b8 Mapped [0x104e0];
  Row 0x104b9 0x104b9 Mapped [0x104e1];
  Row 0x104ba 0x104ba Mapped [0x104e2];
  Row 0x104bb 0x104bb Mapped [0x104e3];
  Row 0x104bc 0x104bc Mapped [0x104e4];
  Row 0x104bd 0x104bd Mapped [0x104e5];
  Row 0x104be 0x104be Mapped [0x104e6];
  Row 0x104bf 0x104bf Mapped [0x104e7];
  Row 0x104c0 0x104c0 Mapped [0x104e8];
  Row 0x104c1 0x104c1 Mapped [0x104e9];
  Row 0x104c2 0x104c2 Mapped [0x104ea];
  Row 0x104c3 0x104c3 Mapped [0x104eb];
  Row 0x104c4 0x104c4 Mapped [0x104ec];
  Row 0x104c5 0x104c5 Mapped [0x104ed];
  Row 0x104c6 0x104c6 Mapped [0x104ee];
  Row 0x104c7 0x104c7 Mapped [0x104ef];
  Row 0x104c8 0x104c8 Mapped [0x104f0];
  Row 0x104c9 0x104c9 Mapped [0x104f1];
  Row 0x104ca 0x104ca Mapped [0x104f2];
  Row 0x104cb 0x104cb Mapped [0x104f3];
  Row 0x104cc 0x104cc Mapped [0x104f4];
  Row 0x104cd 0x104cd Mapped [0x104f5];
  Row 0x104ce 0x104ce Mapped [0x104f6];
  Row 0x104cf 0x104cf Mapped [0x104f7];
  Row 0x104d0 0x104d0 Mapped [0x104f8];
  Row 0x104d1 0x104d1 Mapped [0x104f9];
  Row 0x104d2 0x104d2 Mapped [0x104fa];
  Row 0x104d3 0x104d3 Mapped [0x104fb];
  Row 0x104d4 0x104d7 Disallowed [];
  Row 0x104d8 0x104fb Valid [];
  Row 0x104fc 0x104ff Disallowed [];
  Row 0x10500 0x10527 Valid [];
  Row 0x10528 0x1052f Disallowed [];
  Row 0x10530 0x10563 Valid [];
  Row 0x10564 0x1056e Disallowed [];
  Row 0x1056f 0x1056f Valid [];
  Row 0x10570 0x105ff Disallowed [];
  Row 0x10600 0x10736 Valid [];
  Row 0x10737 0x1073f Disallowed [];
  Row 0x10740 0x10755 Valid [];
  Row 0x10756 0x1075f Disallowed [];
  Row 0x10760 0x10767 Valid []].
Definition idna_rows_59 : list row := [
  Row 0x10768 0x107ff Disallowed [];
  Row 0x10800 0x10805 Valid [];
  Row 0x10806 0x10807 Disallowed [];
  Row 0x10808 0x10808 Valid [];
  Row 0x10809 0x10809 Disallowed [];
  Row 0x1080a 0x10835 Valid [];
  Row 0x10836 0x10836 Disallowed [];
  Row 0x10837 0x10838 Valid [];
  Row 0x10839 0x1083b Disallowed [];
  Row 0x1083c 0x1083c Valid [];
  Row 0x1083d 0x1083e Disallowed [];
  Row 0x1083f 0x1083f Valid [];
  Row 0x10840 0x10855 Valid [];
  Row 0x10856 0x10856 Disallowed [];
  Row 0x10857 0x1085f Valid [];
  Row 0x10860 0x10876 Valid [];
  Row 0x10877 0x1087f Valid [];
  Row 0x10880 0x1089e Valid [];
  Row 0x1089f 0x108a6 Disallowed [];
  Row 0x108a7 0x108af Valid [];
  Row 0x108b0 0x108df Disallowed [];
  Row 0x108e0 0x108f2 Valid [];
  Row 0x108f3 0x108f3 Disallowed [];
  Row 0x108f4 0x108f5 Valid [];
  Row 0x108f6 0x108fa Disallowed [];
  Row 0x108fb 0x108ff Valid [];
  Row 0x10900 0x10915 Valid [];
  Row 0x10916 0x10919 Valid [];
  Row 0x1091a 0x1091b Valid [];
  Row 0x1091c 0x1091e Disallowed [];
  Row 0x1091f 0x1091f Valid [];
  Row 0x10920 0x10939 Valid [];
  Row 0x1093a 0x1093e Disallowed [];
  Row 0x1093f 0x1093f Valid [];
  Row 0x10940 0x1097f Disallowed [];
  Row 0x10980 0x109b7 Valid [];
  Row 0x109b8 0x109bb Disallowed [];
  Row 0x109bc 0x109bd Valid [];
  Row 0x109be 0x109bf Valid [];
  Row 0x109c0 0x109cf Valid [];
  Row 0x109d0 0x109d1 Disallowed [];
  Row 0x109d2 0x109ff Valid [];
  Row 0x10a00 0x10a03 Valid [];
  Row 0x10a04 0x10a04 Disallowed [];
  Row 0x10a05 0x10a06 Valid [];
  Row 0x10a07 0x10a0b Disallowed [];
  Row 0x10a0c 0x10a13 Valid [];
  Row 0x10a14 0x10a14 Disallowed [];
  Row 0x10a15 0x10a17 Valid [];
  Row 0x10a18 0x10a18 Disallowed [];
  Row 0x10a19 0x10a33 Valid [];
  Row 0x10a34 0x10a35 Valid [];
  Row 0x10a36 0x10a37 Disallowed [];
  Row 0x10a38 0x10a3a Valid [];
  Row 0x10a3b 0x10a3e Disallowed [];
  Row 0x10a3f 0x10a3f Valid [];
  Row 0x10a40 0x10a47 Valid [];
  Row 0x10a48 0x10a48 Valid [];
  Row 0x10a49 0x10a4f Disallowed [];
  Row 0x10a50 0x10a58 Valid [];
  Row 0x10a59 0x10a5f Disallowed [];
  Row 0x10a60 0x10a7c Valid [];
  Row 0x10a7d 0x10a7f Valid [];
  Row 0x10a80 0x10a9c Valid [];
  Row 0x10a9d 0x10a9f Valid [];
  Row 0x10aa0 0x10abf Disallowed [];
  Row 0x10ac0 0x10ac7 Valid [];
  Row 0x10ac8 0x10ac8 Valid [];
  Row 0x10ac9 0x10ae6 Valid [];
  Row 0x10ae7 0x10aea Disallowed [];
  Row 0x10aeb 0x10af6 Valid [];
  Row 0x10af7 0x10aff Disallowed [];
  Row 0x10b00 0x10b35 Valid [];
  Row 0x10b36 0x10b38 Disallowed [];
  Row 0x10b39 0x10b3f Valid [];
  Row 0x10b40 0x10b55 Valid [];
  Row 0x10b56 0x10b57 Disallowed [];
  Row 0x10b58 0x10b5f Valid [];
  Row 0x10b60 0x10b72 Valid [];
  Row 0x10b73 0x10b77 Disallowed [];
  Row 0x10b78 0x10b7f Valid [];
  Row 0x10b80 0x10b91 Valid [];
  Row 0x10b92 0x10b98 Disallowed [];
  Row 0x10b99 0x10b9c Valid [];
  Row 0x10b9d 0x10ba8 Disallowed [];
  Row 0x10ba9 0x10baf Valid [];
  Row 0x10bb0 0x10bff Disallowed [];
  Row 0x10c00 0x10c48 Valid [];
  Row 0x10c49 0x10c7f Disallowed [];
  Row 0x10c80 0x10c80 Mapped [0x10cc0];
  Row 0x10c81 0x10c81 Mapped [0x10cc1];
  Row 0x10c82 0x10c82 Mapped [0x10cc2];
  Row 0x10c83 0x10c83 Mapped [0x10cc3];
  Row 0x10c84 0x10c84 Mapped [0x10cc4];
  Row 0x10c85 0x10c85 Mapped [0x10cc5];
  Row 0x10c86 0x10c86 Mapped [0x10cc6];
  Row 0x10c87 0x10c87 Mapped [0x10cc7];
  Row 0x10c88 0x10c88 Mapped [0x10cc8];
  Row 0x10c89 0x10c89 Mapped [0x10cc9];
  Row 0x10c8a 0x10c8a Mapped [0x10cca]].
Definition idna_rows_60 : list row := [
  Row 0x10c8b 0x10c8b Mapped [0x10ccb];
  Row 0x10c8c 0x10c8c Mapped [0x10ccc];
  Row 0x10c8d 0x10c8d Mapped [0x10ccd];
  Row 0x10c8e 0x10c8e Mapped [0x10cce];
  Row 0x10c8f 0x10c8f Mapped [0x10ccf];
  Row 0x10c90 0x10c90 Mapped [0x10cd0];
  Row 0x10c91 0x10c91 Mapped [0x10cd1];
  Row 0x10c92 0x10c92 Mapped [0x10cd2];
  Row 0x10c93 0x10c93 Mapped [0x10cd3];
  Row 0x10c94 0x10c94 Mapped [0x10cd4];
  Row 0x10c95 0x10c95 Mapped [0x10cd5];
  Row 0x10c96 0x10c96 Mapped [0x10cd6];
  Row 0x10c97 0x10c97 Mapped [0x10cd7];
  Row 0x10c98 0x10c98 Mapped [0x10cd8];
  Row 0x10c99 0x10c99 Mapped [0x10cd9];
  Row 0x10c9a 0x10c9a Mapped [0x10cda];
  Row 0x10c9b 0x10c9b Mapped [0x10cdb];
  Row 0x10c9c 0x10c9c Mapped [0x10cdc];
  Row 0x10c9d 0x10c9d Mapped [0x10cdd];
  Row 0x10c9e 0x10c9e Mapped [0x10cde];
  Row 0x10c9f 0x10c9f Mapped [0x10cdf];
  Row 0x10ca0 0x10ca0 Mapped [0x10ce0];
  Row 0x10ca1 0x10ca1 Mapped [0x10ce1];
  Row 0x10ca2 0x10ca2 Mapped [0x10ce2];
  Row 0x10ca3 0x10ca3 Mapped [0x10ce3];
  Row 0x10ca4 0x10ca4 Mapped [0x10ce4];
  Row 0x10ca5 0x10ca5 Mapped [0x10ce5];
  Row 0x10ca6 0x10ca6 Mapped [0x10ce6];
  Row 0x10ca7 0x10ca7 Mapped [0x10ce7];
  Row 0x10ca8 0x10ca8 Mapped [0x10ce8];
  Row 0x10ca9 0x10ca9 Mapped [0x10ce9];
  Row 0x10caa 0x10caa Mapped [0x10cea];
  Row 0x10cab 0x10cab Mapped [0x10ceb];
  Row 0x10cac 0x10cac Mapped [0x10cec];
  Row 0x10cad 0x10cad Mapped [0x10ced];
  Row 0x10cae 0x10cae Mapped [0x10cee];
  Row 0x10caf 0x10caf Mapped [0x10cef];
  Row 0x10cb0 0x10cb0 Mapped [0x10cf0];
  Row 0x10cb1 0x10cb1 Mapped [0x10cf1];
  Row 0x10cb2 0x10cb2 Mapped [0x10cf2];
  Row 0x10cb3 0x10cbf Disallowed [];
  Row 0x10cc0 0x10cf2 Valid [];
  Row 0x10cf3 0x10cf9 Disallowed [];
  Row 0x10cfa 0x10cff Valid [];
  Row 0x10d00 0x10d27 Valid [];
  Row 0x10d28 0x10d2f Disallowed [];
  Row 0x10d30 0x10d39 Valid [];
  Row 0x10d3a 0x10e5f Disallowed [];
  Row 0x10e60 0x10e7e Valid [];
  Row 0x10e7f 0x10e7f Disallowed [];
  Row 0x10e80 0x10ea9 Valid [];
  Row 0x10eaa 0x10eaa Disallowed [];
  Row 0x10eab 0x10eac Valid [];
  Row 0x10ead 0x10ead Valid [];
  Row 0x10eae 0x10eaf Disallowed [];
  Row 0x10eb0 0x10eb1 Valid [];
  Row 0x10eb2 0x10eff Disallowed [];
  Row 0x10f00 0x10f1c Valid [];
  Row 0x10f1d 0x10f26 Valid [];
  Row 0x10f27 0x10f27 Valid [];
  Row 0x10f28 0x10f2f Disallowed [];
  Row 0x10f30 0x10f50 Valid [];
  Row 0x10f51 0x10f59 Valid [];
  Row 0x10f5a 0x10faf Disallowed [];
  Row 0x10fb0 0x10fc4 Valid [];
  Row 0x10fc5 0x10fcb Valid [];
  Row 0x10fcc 0x10fdf Disallowed [];
  Row 0x10fe0 0x10ff6 Valid [];
  Row 0x10ff7 0x10fff Disallowed [];
  Row 0x11000 0x11046 Valid [];
  Row 0x11047 0x1104d Valid [];
  Row 0x1104e 0x11051 Disallowed [];
  Row 0x11052 0x11065 Valid [];
  Row 0x11066 0x1106f Valid [];
  Row 0x11070 0x1107e Disallowed [];
  Row 0x1107f 0x1107f Valid [];
  Row 0x11080 0x110ba Valid [];
  Row 0x110bb 0x110bc Valid [];
  Row 0x110bd 0x110bd Disallowed [];
  Row 0x110be 0x110c1 Valid [];
  Row 0x110c2 0x110cc Disallowed [];
  Row 0x110cd 0x110cd Disallowed [];
  Row 0x110ce 0x110cf Disallowed [];
  Row 0x110d0 0x110e8 Valid [];
  Row 0x110e9 0x110ef Disallowed [];
  Row 0x110f0 0x110f9 Valid [];
  Row 0x110fa 0x110ff Disallowed [];
  Row 0x11100 0x11134 Valid [];
  Row 0x11135 0x11135 Disallowed [];
  Row 0x11136 0x1113f Valid [];
  Row 0x11140 0x11143 Valid [];
  Row 0x11144 0x11146 Valid [];
  Row 0x11147 0x11147 Valid [];
  Row 0x11148 0x1114f Disallowed [];
  Row 0x11150 0x11173 Valid [];
  Row 0x11174 0x11175 Valid [];
  Row 0x11176 0x11176 Valid [];
  Row 0x11177 0x1117f Disallowed [];
  Row 0x11180 0x111c4 Valid [];
  Row 0x111c5 0x111c8 Valid []].
Definition idna_rows_61 : list row := [
  Row 0x111c9 0x111cc Valid [];
  Row 0x111cd 0x111cd Valid [];
  Row 0x111ce 0x111cf Valid [];
  Row 0x111d0 0x111d9 Valid [];
  Row 0x111da 0x111da Valid [];
  Row 0x111db 0x111db Valid [];
  Row 0x111dc 0x111dc Valid [];
  Row 0x111dd 0x111df Valid [];
  Row 0x111e0 0x111e0 Disallowed [];
  Row 0x111e1 0x111f4 Valid [];
  Row 0x111f5 0x111ff Disallowed [];
  Row 0x11200 0x11211 Valid [];
  Row 0x11212 0x11212 Disallowed [];
  Row 0x11213 0x11237 Valid [];
  Row 0x11238 0x1123d Valid [];
  Row 0x1123e 0x1123e Valid [];
  Row 0x1123f 0x1127f Disallowed [];
  Row 0x11280 0x11286 Valid [];
  Row 0x11287 0x11287 Disallowed [];
  Row 0x11288 0x11288 Valid [];
  Row 0x11289 0x11289 Disallowed [];
  Row 0x1128a 0x1128d Valid [];
  Row 0x1128e 0x1128e Disallowed [];
  Row 0x1128f 0x1129d Valid [];
  Row 0x1129e 0x1129e Disallowed [];
  Row 0x1129f 0x112a8 Valid [];
  Row 0x112a9 0x112a9 Valid [];
  Row 0x112aa 0x112af Disallowed [];
  Row 0x112b0 0x112ea Valid [];
  Row 0x112eb 0x112ef Disallowed [];
  Row 0x112f0 0x112f9 Valid [];
  Row 0x112fa 0x112ff Disallowed [];
  Row 0x11300 0x11300 Valid [];
  Row 0x11301 0x11303 Valid [];
  Row 0x11304 0x11304 Disallowed [];
  Row 0x11305 0x1130c Valid [];
  Row 0x1130d 0x1130e Disallowed [];
  Row 0x1130f 0x11310 Valid [];
  Row 0x11311 0x11312 Disallowed [];
  Row 0x11313 0x11328 Valid [];
  Row 0x11329 0x11329 Disallowed [];
  Row 0x1132a 0x11330 Valid [];
  Row 0x11331 0x11331 Disallowed [];
  Row 0x11332 0x11333 Valid [];
  Row 0x11334 0x11334 Disallowed [];
  Row 0x11335 0x11339 Valid [];
  Row 0x1133a 0x1133a Disallowed [];
  Row 0x1133b 0x1133b Valid [];
  Row 0x1133c 0x11344 Valid [];
  Row 0x11345 0x11346 Disallowed [];
  Row 0x11347 0x11348 Valid [];
  Row 0x11349 0x1134a Disallowed [];
  Row 0x1134b 0x1134d Valid [];
  Row 0x1134e 0x1134f Disallowed [];
  Row 0x11350 0x11350 Valid [];
  Row 0x11351 0x11356 Disallowed [];
  Row 0x11357 0x11357 Valid [];
  Row 0x11358 0x1135c Disallowed [];
  Row 0x1135d 0x11363 Valid [];
  Row 0x11364 0x11365 Disallowed [];
  Row 0x11366 0x1136c Valid [];
  Row 0x1136d 0x1136f Disallowed [];
  Row 0x11370 0x11374 Valid [];
  Row 0x11375 0x113ff Disallowed [];
  Row 0x11400 0x1144a Valid [];
  Row 0x1144b 0x1144f Valid [];
  Row 0x11450 0x11459 Valid [];
  Row 0x1145a 0x1145a Valid [];
  Row 0x1145b 0x1145b Valid [];
  Row 0x1145c 0x1145c Disallowed [];
  Row 0x1145d 0x1145d Valid [];
  Row 0x1145e 0x1145e Valid [];
  Row 0x1145f 0x1145f Valid [];
  Row 0x11460 0x11461 Valid [];
  Row 0x11462 0x1147f Disallowed [];
  Row 0x11480 0x114c5 Valid [];
  Row 0x114c6 0x114c6 Valid [];
  Row 0x114c7 0x114c7 Valid [];
  Row 0x114c8 0x114cf Disallowed [];
  Row 0x114d0 0x114d9 Valid [];
  Row 0x114da 0x1157f Disallowed [];
  Row 0x11580 0x115b5 Valid [];
  Row 0x115b6 0x115b7 Disallowed [];
  Row 0x115b8 0x115c0 Valid [];
  Row 0x115c1 0x115c9 Valid [];
  Row 0x115ca 0x115d7 Valid [];
  Row 0x115d8 0x115dd Valid [];
  Row 0x115de 0x115ff Disallowed [];
  Row 0x11600 0x11640 Valid [];
  Row 0x11641 0x11643 Valid [];
  Row 0x11644 0x11644 Valid [];
  Row 0x11645 0x1164f Disallowed [];
  Row 0x11650 0x11659 Valid [];
  Row 0x1165a 0x1165f Disallowed [];
  Row 0x11660 0x1166c Valid [];
  Row 0x1166d 0x1167f Disallowed [];
  Row 0x11680 0x116b7 Valid [];
  Row 0x116b8 0x116b8 Valid [];
  Row 0x116b9 0x116bf Disallowed [];
  Row 0x116c0 0x116c9 Valid []].
Definition idna_rows_62 : list row := [
  Row 0x116ca 0x116ff Disallowed [];
  Row 0x11700 0x11719 Valid [];
  Row 0x1171a 0x1171a Valid [];
  Row 0x1171b 0x1171c Disallowed [];
  Row 0x1171d 0x1172b Valid [];
  Row 0x1172c 0x1172f Disallowed [];
  Row 0x11730 0x11739 Valid [];
  Row 0x1173a 0x1173f Valid [];
  Row 0x11740 0x117ff Disallowed [];
  Row 0x11800 0x1183a Valid [];
  Row 0x1183b 0x1183b Valid [];
  Row 0x1183c 0x1189f Disallowed [];
  Row 0x118a0 0x118a0 Mapped [0x118c0];
  Row 0x118a1 0x118a1 Mapped [0x118c1];
  Row 0x118a2 0x118a2 Mapped [0x118c2];
  Row 0x118a3 0x118a3 Mapped [0x118c3];
  Row 0x118a4 0x118a4 Mapped [0x118c4];
  Row 0x118a5 0x118a5 Mapped [0x118c5];
  Row 0x118a6 0x118a6 Mapped [0x118c6];
  Row 0x118a7 0x118a7 Mapped [0x118c7];
  Row 0x118a8 0x118a8 Mapped [0x118c8];
  Row 0x118a9 0x118a9 Mapped [0x118c9];
  Row 0x118aa 0x118aa Mapped [0x118ca];
  Row 0x118ab 0x118ab Mapped [0x118cb];
  Row 0x118ac 0x118ac Mapped [0x118cc];
  Row 0x118ad 0x118ad Mapped [0x118cd];
  Row 0x118ae 0x118ae Mapped [0x118ce];
  Row 0x118af 0x118af Mapped [0x118cf];
  Row 0x118b0 0x118b0 Mapped [0x118d0];
  Row 0x118b1 0x118b1 Mapped [0x118d1];
  Row 0x118b2 0x118b2 Mapped [0x118d2];
  Row 0x118b3 0x118b3 Mapped [0x118d3];
  Row 0x118b4 0x118b4 Mapped [0x118d4];
  Row 0x118b5 0x118b5 Mapped [0x118d5];
  Row 0x118b6 0x118b6 Mapped [0x118d6];
  Row 0x118b7 0x118b7 Mapped [0x118d7];
  Row 0x118b8 0x118b8 Mapped [0x118d8];
  Row 0x118b9 0x118b9 Mapped [0x118d9];
  Row 0x118ba 0x118ba Mapped [0x118da];
  Row 0x118bb 0x118bb Mapped [0x118db];
  Row 0x118bc 0x118bc Mapped [0x118dc];
  Row 0x118bd 0x118bd Mapped [0x118dd];
  Row 0x118be 0x118be Mapped [0x118de];
  Row 0x118bf 0x118bf Mapped [0x118df];
  Row 0x118c0 0x118e9 Valid [];
  Row 0x118ea 0x118f2 Valid [];
  Row 0x118f3 0x118fe Disallowed [];
  Row 0x118ff 0x118ff Valid [];
  Row 0x11900 0x11906 Valid [];
  Row 0x11907 0x11908 Disallowed [];
  Row 0x11909 0x11909 Valid [];
  Row 0x1190a 0x1190b Disallowed [];
  Row 0x1190c 0x11913 Valid [];
  Row 0x11914 0x11914 Disallowed [];
  Row 0x11915 0x11916 Valid [];
  Row 0x11917 0x11917 Disallowed [];
  Row 0x11918 0x11935 Valid [];
  Row 0x11936 0x11936 Disallowed [];
  Row 0x11937 0x11938 Valid [];
  Row 0x11939 0x1193a Disallowed [];
  Row 0x1193b 0x11943 Valid [];
  Row 0x11944 0x11946 Valid [];
  Row 0x11947 0x1194f Disallowed [];
  Row 0x11950 0x11959 Valid [];
  Row 0x1195a 0x1199f Disallowed [];
  Row 0x119a0 0x119a7 Valid [];
  Row 0x119a8 0x119a9 Disallowed [];
  Row 0x119aa 0x119d7 Valid [];
  Row 0x119d8 0x119d9 Disallowed [];
  Row 0x119da 0x119e1 Valid [];
  Row 0x119e2 0x119e2 Valid [];
  Row 0x119e3 0x119e4 Valid [];
  Row 0x119e5 0x119ff Disallowed [];
  Row 0x11a00 0x11a3e Valid [];
  Row 0x11a3f 0x11a46 Valid [];
  Row 0x11a47 0x11a47 Valid [];
  Row 0x11a48 0x11a4f Disallowed [];
  Row 0x11a50 0x11a83 Valid [];
  Row 0x11a84 0x11a85 Valid [];
  Row 0x11a86 0x11a99 Valid [];
  Row 0x11a9a 0x11a9c Valid [];
  Row 0x11a9d 0x11a9d Valid [];
  Row 0x11a9e 0x11aa2 Valid [];
  Row 0x11aa3 0x11abf Disallowed [];
  Row 0x11ac0 0x11af8 Valid [];
  Row 0x11af9 0x11bff Disallowed [];
  Row 0x11c00 0x11c08 Valid [];
  Row 0x11c09 0x11c09 Disallowed [];
  Row 0x11c0a 0x11c36 Valid [];
  Row 0x11c37 0x11c37 Disallowed [];
  Row 0x11c38 0x11c40 Valid [];
  Row 0x11c41 0x11c45 Valid [];
  Row 0x11c46 0x11c4f Disallowed [];
  Row 0x11c50 0x11c59 Valid [];
  Row 0x11c5a 0x11c6c Valid [];
  Row 0x11c6d 0x11c6f Disallowed [];
  Row 0x11c70 0x11c71 Valid [];
  Row 0x11c72 0x11c8f Valid [];
  Row 0x11c90 0x11c91 Disallowed [];
  Row 0x11c92 0x11ca7 Valid []].
Definition idna_rows_63 : list row := [
  Row 0x11ca8 0x11ca8 Disallowed [];
  Row 0x11ca9 0x11cb6 Valid [];
  Row 0x11cb7 0x11cff Disallowed [];
  Row 0x11d00 0x11d06 Valid [];
  Row 0x11d07 0x11d07 Disallowed [];
  Row 0x11d08 0x11d09 Valid [];
  Row 0x11d0a 0x11d0a Disallowed [];
  Row 0x11d0b 0x11d36 Valid [];
  Row 0x11d37 0x11d39 Disallowed [];
  Row 0x11d3a 0x11d3a Valid [];
  Row 0x11d3b 0x11d3b Disallowed [];
  Row 0x11d3c 0x11d3d Valid [];
  Row 0x11d3e 0x11d3e Disallowed [];
  Row 0x11d3f 0x11d47 Valid [];
  Row 0x11d48 0x11d4f Disallowed [];
  Row 0x11d50 0x11d59 Valid [];
  Row 0x11d5a 0x11d5f Disallowed [];
  Row 0x11d60 0x11d65 Valid [];
  Row 0x11d66 0x11d66 Disallowed [];
  Row 0x11d67 0x11d68 Valid [];
  Row 0x11d69 0x11d69 Disallowed [];
  Row 0x11d6a 0x11d8e Valid [];
  Row 0x11d8f 0x11d8f Disallowed [];
  Row 0x11d90 0x11d91 Valid [];
  Row 0x11d92 0x11d92 Disallowed [];
  Row 0x11d93 0x11d98 Valid [];
  Row 0x11d99 0x11d9f Disallowed [];
  Row 0x11da0 0x11da9 Valid [];
  Row 0x11daa 0x11edf Disallowed [];
  Row 0x11ee0 0x11ef6 Valid [];
  Row 0x11ef7 0x11ef8 Valid [];
  Row 0x11ef9 0x11faf Disallowed [];
  Row 0x11fb0 0x11fb0 Valid [];
  Row 0x11fb1 0x11fbf Disallowed [];
  Row 0x11fc0 0x11ff1 Valid [];
  Row 0x11ff2 0x11ffe Disallowed [];
  Row 0x11fff 0x11fff Valid [];
  Row 0x12000 0x1236e Valid [];
  Row 0x1236f 0x12398 Valid [];
  Row 0x12399 0x12399 Valid [];
  Row 0x1239a 0x123ff Disallowed [];
  Row 0x12400 0x12462 Valid [];
  Row 0x12463 0x1246e Valid [];
  Row 0x1246f 0x1246f Disallowed [];
  Row 0x12470 0x12473 Valid [];
  Row 0x12474 0x12474 Valid [];
  Row 0x12475 0x1247f Disallowed [];
  Row 0x12480 0x12543 Valid [];
  Row 0x12544 0x12fff Disallowed [];
  Row 0x13000 0x1342e Valid [];
  Row 0x1342f 0x1342f Disallowed [];
  Row 0x13430 0x13438 Disallowed [];
  Row 0x13439 0x143ff Disallowed [];
  Row 0x14400 0x14646 Valid [];
  Row 0x14647 0x167ff Disallowed [];
  Row 0x16800 0x16a38 Valid [];
  Row 0x16a39 0x16a3f Disallowed [];
  Row 0x16a40 0x16a5e Valid [];
  Row 0x16a5f 0x16a5f Disallowed [];
  Row 0x16a60 0x16a69 Valid [];
  Row 0x16a6a 0x16a6d Disallowed [];
  Row 0x16a6e 0x16a6f Valid [];
  Row 0x16a70 0x16acf Disallowed [];
  Row 0x16ad0 0x16aed Valid [];
  Row 0x16aee 0x16aef Disallowed [];
  Row 0x16af0 0x16af4 Valid [];
  Row 0x16af5 0x16af5 Valid [];
  Row 0x16af6 0x16aff Disallowed [];
  Row 0x16b00 0x16b36 Valid [];
  Row 0x16b37 0x16b3f Valid [];
  Row 0x16b40 0x16b43 Valid [];
  Row 0x16b44 0x16b45 Valid [];
  Row 0x16b46 0x16b4f Disallowed [];
  Row 0x16b50 0x16b59 Valid [];
  Row 0x16b5a 0x16b5a Disallowed [];
  Row 0x16b5b 0x16b61 Valid [];
  Row 0x16b62 0x16b62 Disallowed [];
  Row 0x16b63 0x16b77 Valid [];
  Row 0x16b78 0x16b7c Disallowed [];
  Row 0x16b7d 0x16b8f Valid [];
  Row 0x16b90 0x16e3f Disallowed [];
  Row 0x16e40 0x16e40 Mapped [0x16e60];
  Row 0x16e41 0x16e41 Mapped [0x16e61];
  Row 0x16e42 0x16e42 Mapped [0x16e62];
  Row 0x16e43 0x16e43 Mapped [0x16e63];
  Row 0x16e44 0x16e44 Mapped [0x16e64];
  Row 0x16e45 0x16e45 Mapped [0x16e65];
  Row 0x16e46 0x16e46 Mapped [0x16e66];
  Row 0x16e47 0x16e47 Mapped [0x16e67];
  Row 0x16e48 0x16e48 Mapped [0x16e68];
  Row 0x16e49 0x16e49 Mapped [0x16e69];
  Row 0x16e4a 0x16e4a Mapped [0x16e6a];
  Row 0x16e4b 0x16e4b Mapped [0x16e6b];
  Row 0x16e4c 0x16e4c Mapped [0x16e6c];
  Row 0x16e4d 0x16e4d Mapped [0x16e6d];
  Row 0x16e4e 0x16e4e Mapped [0x16e6e];
  Row 0x16e4f 0x16e4f Mapped [0x16e6f];
  Row 0x16e50 0x16e50 Mapped [0x16e70];
  Row 0x16e51 0x16e51 Mapped [0x16e71];
  Row 0x16e52 0x16e52 Mapped [0x16e72]].
Definition idna_rows_64 : list row := [
  Row 0x16e53 0x16e53 Mapped [0x16e73];
  Row 0x16e54 0x16e54 Mapped [0x16e74];
  Row 0x16e55 0x16e55 Mapped [0x16e75];
  Row 0x16e56 0x16e56 Mapped [0x16e76];
  Row 0x16e57 0x16e57 Mapped [0x16e77];
  Row 0x16e58 0x16e58 Mapped [0x16e78];
  Row 0x16e59 0x16e59 Mapped [0x16e79];
  Row 0x16e5a 0x16e5a Mapped [0x16e7a];
  Row 0x16e5b 0x16e5b Mapped [0x16e7b];
  Row 0x16e5c 0x16e5c Mapped [0x16e7c];
  Row 0x16e5d 0x16e5d Mapped [0x16e7d];
  Row 0x16e5e 0x16e5e Mapped [0x16e7e];
  Row 0x16e5f 0x16e5f Mapped [0x16e7f];
  Row 0x16e60 0x16e7f Valid [];
  Row 0x16e80 0x16e9a Valid [];
  Row 0x16e9b 0x16eff Disallowed [];
  Row 0x16f00 0x16f44 Valid [];
  Row 0x16f45 0x16f4a Valid [];
  Row 0x16f4b 0x16f4e Disallowed [];
  Row 0x16f4f 0x16f4f Valid [];
  Row 0x16f50 0x16f7e Valid [];
  Row 0x16f7f 0x16f87 Valid [];
  Row 0x16f88 0x16f8e Disallowed [];
  Row 0x16f8f 0x16f9f Valid [];
  Row 0x16fa0 0x16fdf Disallowed [];
  Row 0x16fe0 0x16fe0 Valid [];
  Row 0x16fe1 0x16fe1 Valid [];
  Row 0x16fe2 0x16fe2 Valid [];
  Row 0x16fe3 0x16fe3 Valid [];
  Row 0x16fe4 0x16fe4 Valid [];
  Row 0x16fe5 0x16fef Disallowed [];
  Row 0x16ff0 0x16ff1 Valid [];
  Row 0x16ff2 0x16fff Disallowed [];
  Row 0x17000 0x187ec Valid [];
  Row 0x187ed 0x187f1 Valid [];
  Row 0x187f2 0x187f7 Valid [];
  Row 0x187f8 0x187ff Disallowed [];
  Row 0x18800 0x18af2 Valid [];
  Row 0x18af3 0x18cd5 Valid [];
  Row 0x18cd6 0x18cff Disallowed [];
  Row 0x18d00 0x18d08 Valid [];
  Row 0x18d09 0x1afff Disallowed [];
  Row 0x1b000 0x1b001 Valid [];
  Row 0x1b002 0x1b11e Valid [];
  Row 0x1b11f 0x1b14f Disallowed [];
  Row 0x1b150 0x1b152 Valid [];
  Row 0x1b153 0x1b163 Disallowed [];
  Row 0x1b164 0x1b167 Valid [];
  Row 0x1b168 0x1b16f Disallowed [];
  Row 0x1b170 0x1b2fb Valid [];
  Row 0x1b2fc 0x1bbff Disallowed [];
  Row 0x1bc00 0x1bc6a Valid [];
  Row 0x1bc6b 0x1bc6f Disallowed [];
  Row 0x1bc70 0x1bc7c Valid [];
  Row 0x1bc7d 0x1bc7f Disallowed [];
  Row 0x1bc80 0x1bc88 Valid [];
  Row 0x1bc89 0x1bc8f Disallowed [];
  Row 0x1bc90 0x1bc99 Valid [];
  Row 0x1bc9a 0x1bc9b Disallowed [];
  Row 0x1bc9c 0x1bc9c Valid [];
  Row 0x1bc9d 0x1bc9e Valid [];
  Row 0x1bc9f 0x1bc9f Valid [];
  Row 0x1bca0 0x1bca3 Ignored [];
  Row 0x1bca4 0x1cfff Disallowed [];
  Row 0x1d000 0x1d0f5 Valid [];
  Row 0x1d0f6 0x1d0ff Disallowed [];
  Row 0x1d100 0x1d126 Valid [];
  Row 0x1d127 0x1d128 Disallowed [];
  Row 0x1d129 0x1d129 Valid [];
  Row 0x1d12a 0x1d15d Valid [];
  Row 0x1d15e 0x1d15e Mapped [0x1d157; 0x1d165];
  Row 0x1d15f 0x1d15f Mapped [0x1d158; 0x1d165];
  Row 0x1d160 0x1d160 Mapped [0x1d158; 0x1d165; 0x1d16e];
  Row 0x1d161 0x1d161 Mapped [0x1d158; 0x1d165; 0x1d16f];
  Row 0x1d162 0x1d162 Mapped [0x1d158; 0x1d165; 0x1d170];
  Row 0x1d163 0x1d163 Mapped [0x1d158; 0x1d165; 0x1d171];
  Row 0x1d164 0x1d164 Mapped [0x1d158; 0x1d165; 0x1d172];
  Row 0x1d165 0x1d172 Valid [];
  Row 0x1d173 0x1d17a Disallowed [];
  Row 0x1d17b 0x1d1ba Valid [];
  Row 0x1d1bb 0x1d1bb Mapped [0x1d1b9; 0x1d165];
  Row 0x1d1bc 0x1d1bc Mapped [0x1d1ba; 0x1d165];
  Row 0x1d1bd 0x1d1bd Mapped [0x1d1b9; 0x1d165; 0x1d16e];
  Row 0x1d1be 0x1d1be Mapped [0x1d1ba; 0x1d165; 0x1d16e];
  Row 0x1d1bf 0x1d1bf Mapped [0x1d1b9; 0x1d165; 0x1d16f];
  Row 0x1d1c0 0x1d1c0 Mapped [0x1d1ba; 0x1d165; 0x1d16f];
  Row 0x1d1c1 0x1d1dd Valid [];
  Row 0x1d1de 0x1d1e8 Valid [];
  Row 0x1d1e9 0x1d1ff Disallowed [];
  Row 0x1d200 0x1d245 Valid [];
  Row 0x1d246 0x1d2df Disallowed [];
  Row 0x1d2e0 0x1d2f3 Valid [];
  Row 0x1d2f4 0x1d2ff Disallowed [];
  Row 0x1d300 0x1d356 Valid [];
  Row 0x1d357 0x1d35f Disallowed [];
  Row 0x1d360 0x1d371 Valid [];
  Row 0x1d372 0x1d378 Valid [];
  Row 0x1d379 0x1d3ff Disallowed [];
  Row 0x1d400 0x1d400 Mapped [0x61];
  Row 0x1d401 0x1d401 Mapped [0x62]].
Definition idna_rows_65 : list row := [
  Row 0x1d402 0x1d402 Mapped [0x63];
  Row 0x1d403 0x1d403 Mapped [0x64];
  Row 0x1d404 0x1d404 Mapped [0x65];
  Row 0x1d405 0x1d405 Mapped [0x66];
  Row 0x1d406 0x1d406 Mapped [0x67];
  Row 0x1d407 0x1d407 Mapped [0x68];
  Row 0x1d408 0x1d408 Mapped [0x69];
  Row 0x1d409 0x1d409 Mapped [0x6a];
  Row 0x1d40a 0x1d40a Mapped [0x6b];
  Row 0x1d40b 0x1d40b Mapped [0x6c];
  Row 0x1d40c 0x1d40c Mapped [0x6d];
  Row 0x1d40d 0x1d40d Mapped [0x6e];
  Row 0x1d40e 0x1d40e Mapped [0x6f];
  Row 0x1d40f 0x1d40f Mapped [0x70];
  Row 0x1d410 0x1d410 Mapped [0x71];
  Row 0x1d411 0x1d411 Mapped [0x72];
  Row 0x1d412 0x1d412 Mapped [0x73];
  Row 0x1d413 0x1d413 Mapped [0x74];
  Row 0x1d414 0x1d414 Mapped [0x75];
  Row 0x1d415 0x1d415 Mapped [0x76];
  Row 0x1d416 0x1d416 Mapped [0x77];
  Row 0x1d417 0x1d417 Mapped [0x78];
  Row 0x1d418 0x1d418 Mapped [0x79];
  Row 0x1d419 0x1d419 Mapped [0x7a];
  Row 0x1d41a 0x1d41a Mapped [0x61];
  Row 0x1d41b 0x1d41b Mapped [0x62];
  Row 0x1d41c 0x1d41c Mapped [0x63];
  Row 0x1d41d 0x1d41d Mapped [0x64];
  Row 0x1d41e 0x1d41e Mapped [0x65];
  Row 0x1d41f 0x1d41f Mapped [0x66];
  Row 0x1d420 0x1d420 Mapped [0x67];
  Row 0x1d421 0x1d421 Mapped [0x68];
  Row 0x1d422 0x1d422 Mapped [0x69];
  Row 0x1d423 0x1d423 Mapped [0x6a];
  Row 0x1d424 0x1d424 Mapped [0x6b];
  Row 0x1d425 0x1d425 Mapped [0x6c];
  Row 0x1d426 0x1d426 Mapped [0x6d];
  Row 0x1d427 0x1d427 Mapped [0x6e];
  Row 0x1d428 0x1d428 Mapped [0x6f];
  Row 0x1d429 0x1d429 Mapped [0x70];
  Row 0x1d42a 0x1d42a Mapped [0x71];
  Row 0x1d42b 0x1d42b Mapped [0x72];
  Row 0x1d42c 0x1d42c Mapped [0x73];
  Row 0x1d42d 0x1d42d Mapped [0x74];
  Row 0x1d42e 0x1d42e Mapped [0x75];
  Row 0x1d42f 0x1d42f Mapped [0x76];
  Row 0x1d430 0x1d430 Mapped [0x77];
  Row 0x1d431 0x1d431 Mapped [0x78];
  Row 0x1d432 0x1d432 Mapped [0x79];
  Row 0x1d433 0x1d433 Mapped [0x7a];
  Row 0x1d434 0x1d434 Mapped [0x61];
  Row 0x1d435 0x1d435 Mapped [0x62];
  Row 0x1d436 0x1d436 Mapped [0x63];
  Row 0x1d437 0x1d437 Mapped [0x64];
  Row 0x1d438 0x1d438 Mapped [0x65];
  Row 0x1d439 0x1d439 Mapped [0x66];
  Row 0x1d43a 0x1d43a Mapped [0x67];
  Row 0x1d43b 0x1d43b Mapped [0x68];
  Row 0x1d43c 0x1d43c Mapped [0x69];
  Row 0x1d43d 0x1d43d Mapped [0x6a];
  Row 0x1d43e 0x1d43e Mapped [0x6b];
  Row 0x1d43f 0x1d43f Mapped [0x6c];
  Row 0x1d440 0x1d440 Mapped [0x6d];
  Row 0x1d441 0x1d441 Mapped [0x6e];
  Row 0x1d442 0x1d442 Mapped [0x6f];
  Row 0x1d443 0x1d443 Mapped [0x70];
  Row 0x1d444 0x1d444 Mapped [0x71];
  Row 0x1d445 0x1d445 Mapped [0x72];
  Row 0x1d446 0x1d446 Mapped [0x73];
  Row 0x1d447 0x1d447 Mapped [0x74];
  Row 0x1d448 0x1d448 Mapped [0x75];
  Row 0x1d449 0x1d449 Mapped [0x76];
  Row 0x1d44a 0x1d44a Mapped [0x77];
  Row 0x1d44b 0x1d44b Mapped [0x78];
  Row 0x1d44c 0x1d44c Mapped [0x79];
  Row 0x1d44d 0x1d44d Mapped [0x7a];
  Row 0x1d44e 0x1d44e Mapped [0x61];
  Row 0x1d44f 0x1d44f Mapped [0x62];
  Row 0x1d450 0x1d450 Mapped [0x63];
  Row 0x1d451 0x1d451 Mapped [0x64];
  Row 0x1d452 0x1d452 Mapped [0x65];
  Row 0x1d453 0x1d453 Mapped [0x66];
  Row 0x1d454 0x1d454 Mapped [0x67];
  Row 0x1d455 0x1d455 Disallowed [];
  Row 0x1d456 0x1d456 Mapped [0x69];
  Row 0x1d457 0x1d457 Mapped [0x6a];
  Row 0x1d458 0x1d458 Mapped [0x6b];
  Row 0x1d459 0x1d459 Mapped [0x6c];
  Row 0x1d45a 0x1d45a Mapped [0x6d];
  Row 0x1d45b 0x1d45b Mapped [0x6e];
  Row 0x1d45c 0x1d45c Mapped [0x6f];
  Row 0x1d45d 0x1d45d Mapped [0x70];
  Row 0x1d45e 0x1d45e Mapped [0x71];
  Row 0x1d45f 0x1d45f Mapped [0x72];
  Row 0x1d460 0x1d460 Mapped [0x73];
  Row 0x1d461 0x1d461 Mapped [0x74];
  Row 0x1d462 0x1d462 Mapped [0x75];
  Row 0x1d463 0x1d463 Mapped [0x76];
  Row 0x1d464 0x1d464 Mapped [0x77];
  Row 0x1d465 0x1d465 Mapped [0x78]].
Definition idna_rows_66 : list row := [
  Row 0x1d466 0x1d466 Mapped [0x79];
  Row 0x1d467 0x1d467 Mapped [0x7a];
  Row 0x1d468 0x1d468 Mapped [0x61];
  Row 0x1d469 0x1d469 Mapped [0x62];
  Row 0x1d46a 0x1d46a Mapped [0x63];
  Row 0x1d46b 0x1d46b Mapped [0x64];
  Row 0x1d46c 0x1d46c Mapped [0x65];
  Row 0x1d46d 0x1d46d Mapped [0x66];
  Row 0x1d46e 0x1d46e Mapped [0x67];
  Row 0x1d46f 0x1d46f Mapped [0x68];
  Row 0x1d470 0x1d470 Mapped [0x69];
  Row 0x1d471 0x1d471 Mapped [0x6a];
  Row 0x1d472 0x1d472 Mapped [0x6b];
  Row 0x1d473 0x1d473 Mapped [0x6c];
  Row 0x1d474 0x1d474 Mapped [0x6d];
  Row 0x1d475 0x1d475 Mapped [0x6e];
  Row 0x1d476 0x1d476 Mapped [0x6f];
  Row 0x1d477 0x1d477 Mapped [0x70];
  Row 0x1d478 0x1d478 Mapped [0x71];
  Row 0x1d479 0x1d479 Mapped [0x72];
  Row 0x1d47a 0x1d47a Mapped [0x73];
  Row 0x1d47b 0x1d47b Mapped [0x74];
  Row 0x1d47c 0x1d47c Mapped [0x75];
  Row 0x1d47d 0x1d47d Mapped [0x76];
  Row 0x1d47e 0x1d47e Mapped [0x77];
  Row 0x1d47f 0x1d47f Mapped [0x78];
  Row 0x1d480 0x1d480 Mapped [0x79];
  Row 0x1d481 0x1d481 Mapped [0x7a];
  Row 0x1d482 0x1d482 Mapped [0x61];
  Row 0x1d483 0x1d483 Mapped [0x62];
  Row 0x1d484 0x1d484 Mapped [0x63];
  Row 0x1d485 0x1d485 Mapped [0x64];
  Row 0x1d486 0x1d486 Mapped [0x65];
  Row 0x1d487 0x1d487 Mapped [0x66];
  Row 0x1d488 0x1d488 Mapped [0x67];
  Row 0x1d489 0x1d489 Mapped [0x68];
  Row 0x1d48a 0x1d48a Mapped [0x69];
  Row 0x1d48b 0x1d48b Mapped [0x6a];
  Row 0x1d48c 0x1d48c Mapped [0x6b];
  Row 0x1d48d 0x1d48d Mapped [0x6c];
  Row 0x1d48e 0x1d48e Mapped [0x6d];
  Row 0x1d48f 0x1d48f Mapped [0x6e];
  Row 0x1d490 0x1d490 Mapped [0x6f];
  Row 0x1d491 0x1d491 Mapped [0x70];
  Row 0x1d492 0x1d492 Mapped [0x71];
  Row 0x1d493 0x1d493 Mapped [0x72];
  Row 0x1d494 0x1d494 Mapped [0x73];
  Row 0x1d495 0x1d495 Mapped [0x74];
  Row 0x1d496 0x1d496 Mapped [0x75];
  Row 0x1d497 0x1d497 Mapped [0x76];
  Row 0x1d498 0x1d498 Mapped [0x77];
  Row 0x1d499 0x1d499 Mapped [0x78];
  Row 0x1d49a 0x1d49a Mapped [0x79];
  Row 0x1d49b 0x1d49b Mapped [0x7a];
  Row 0x1d49c 0x1d49c Mapped [0x61];
  Row 0x1d49d 0x1d49d Disallowed [];
  Row 0x1d49e 0x1d49e Mapped [0x63];
  Row 0x1d49f 0x1d49f Mapped [0x64];
  Row 0x1d4a0 0x1d4a1 Disallowed [];
  Row 0x1d4a2 0x1d4a2 Mapped [0x67];
  Row 0x1d4a3 0x1d4a4 Disallowed [];
  Row 0x1d4a5 0x1d4a5 Mapped [0x6a];
  Row 0x1d4a6 0x1d4a6 Mapped [0x6b];
  Row 0x1d4a7 0x1d4a8 Disallowed [];
  Row 0x1d4a9 0x1d4a9 Mapped [0x6e];
  Row 0x1d4aa 0x1d4aa Mapped [0x6f];
  Row 0x1d4ab 0x1d4ab Mapped [0x70];
  Row 0x1d4ac 0x1d4ac Mapped [0x71];
  Row 0x1d4ad 0x1d4ad Disallowed [];
  Row 0x1d4ae 0x1d4ae Mapped [0x73];
  Row 0x1d4af 0x1d4af Mapped [0x74];
  Row 0x1d4b0 0x1d4b0 Mapped [0x75];
  Row 0x1d4b1 0x1d4b1 Mapped [0x76];
  Row 0x1d4b2 0x1d4b2 Mapped [0x77];
  Row 0x1d4b3 0x1d4b3 Mapped [0x78];
  Row 0x1d4b4 0x1d4b4 Mapped [0x79];
  Row 0x1d4b5 0x1d4b5 Mapped [0x7a];
  Row 0x1d4b6 0x1d4b6 Mapped [0x61];
  Row 0x1d4b7 0x1d4b7 Mapped [0x62];
  Row 0x1d4b8 0x1d4b8 Mapped [0x63];
  Row 0x1d4b9 0x1d4b9 Mapped [0x64];
  Row 0x1d4ba 0x1d4ba Disallowed [];
  Row 0x1d4bb 0x1d4bb Mapped [0x66];
  Row 0x1d4bc 0x1d4bc Disallowed [];
  Row 0x1d4bd 0x1d4bd Mapped [0x68];
  Row 0x1d4be 0x1d4be Mapped [0x69];
  Row 0x1d4bf 0x1d4bf Mapped [0x6a];
  Row 0x1d4c0 0x1d4c0 Mapped [0x6b];
  Row 0x1d4c1 0x1d4c1 Mapped [0x6c];
  Row 0x1d4c2 0x1d4c2 Mapped [0x6d];
  Row 0x1d4c3 0x1d4c3 Mapped [0x6e];
  Row 0x1d4c4 0x1d4c4 Disallowed [];
  Row 0x1d4c5 0x1d4c5 Mapped [0x70];
  Row 0x1d4c6 0x1d4c6 Mapped [0x71];
  Row 0x1d4c7 0x1d4c7 Mapped [0x72];
  Row 0x1d4c8 0x1d4c8 Mapped [0x73];
  Row 0x1d4c9 0x1d4c9 Mapped [0x74];
  Row 0x1d4ca 0x1d4ca Mapped [0x75];
  Row 0x1d4cb 0x1d4cb Mapped [0x76];
  Row 0x1d4cc 0x1d4cc Mapped [0x77]].
Definition idna_rows_67 : list row := [
  Row 0x1d4cd 0x1d4cd Mapped [0x78];
  Row 0x1d4ce 0x1d4ce Mapped [0x79];
  Row 0x1d4cf 0x1d4cf Mapped [0x7a];
  Row 0x1d4d0 0x1d4d0 Mapped [0x61];
  Row 0x1d4d1 0x1d4d1 Mapped [0x62];
  Row 0x1d4d2 0x1d4d2 Mapped [0x63];
  Row 0x1d4d3 0x1d4d3 Mapped [0x64];
  Row 0x1d4d4 0x1d4d4 Mapped [0x65];
  Row 0x1d4d5 0x1d4d5 Mapped [0x66];
  Row 0x1d4d6 0x1d4d6 Mapped [0x67];
  Row 0x1d4d7 0x1d4d7 Mapped [0x68];
  Row 0x1d4d8 0x1d4d8 Mapped [0x69];
  Row 0x1d4d9 0x1d4d9 Mapped [0x6a];
  Row 0x1d4da 0x1d4da Mapped [0x6b];
  Row 0x1d4db 0x1d4db Mapped [0x6c];
  Row 0x1d4dc 0x1d4dc Mapped [0x6d];
  Row 0x1d4dd 0x1d4dd Mapped [0x6e];
  Row 0x1d4de 0x1d4de Mapped [0x6f];
  Row 0x1d4df 0x1d4df Mapped [0x70];
  Row 0x1d4e0 0x1d4e0 Mapped [0x71];
  Row 0x1d4e1 0x1d4e1 Mapped [0x72];
  Row 0x1d4e2 0x1d4e2 Mapped [0x73];
  Row 0x1d4e3 0x1d4e3 Mapped [0x74];
  Row 0x1d4e4 0x1d4e4 Mapped [0x75];
  Row 0x1d4e5 0x1d4e5 Mapped [0x76];
  Row 0x1d4e6 0x1d4e6 Mapped [0x77];
  Row 0x1d4e7 0x1d4e7 Mapped [0x78];
  Row 0x1d4e8 0x1d4e8 Mapped [0x79];
  Row 0x1d4e9 0x1d4e9 Mapped [0x7a];
  Row 0x1d4ea 0x1d4ea Mapped [0x61];
  Row 0x1d4eb 0x1d4eb Mapped [0x62];
  Row 0x1d4ec 0x1d4ec Mapped [0x63];
  Row 0x1d4ed 0x1d4ed Mapped [0x64];
  Row 0x1d4ee 0x1d4ee Mapped [0x65];
  Row 0x1d4ef 0x1d4ef Mapped [0x66];
  Row 0x1d4f0 0x1d4f0 Mapped [0x67];
  Row 0x1d4f1 0x1d4f1 Mapped [0x68];
  Row 0x1d4f2 0x1d4f2 Mapped [0x69];
  Row 0x1d4f3 0x1d4f3 Mapped [0x6a];
  Row 0x1d4f4 0x1d4f4 Mapped [0x6b];
  Row 0x1d4f5 0x1d4f5 Mapped [0x6c];
  Row 0x1d4f6 0x1d4f6 Mapped [0x6d];
  Row 0x1d4f7 0x1d4f7 Mapped [0x6e];
  Row 0x1d4f8 0x1d4f8 Mapped [0x6f];
  Row 0x1d4f9 0x1d4f9 Mapped [0x70];
  Row 0x1d4fa 0x1d4fa Mapped [0x71];
  Row 0x1d4fb 0x1d4fb Mapped [0x72];
  Row 0x1d4fc 0x1d4fc Mapped [0x73];
  Row 0x1d4fd 0x1d4fd Mapped [0x74];
  Row 0x1d4fe 0x1d4fe Mapped [0x75];
  Row 0x1d4ff 0x1d4ff Mapped [0x76];
  Row 0x1d500 0x1d500 Mapped [0x77];
  Row 0x1d501 0x1d501 Mapped [0x78];
  Row 0x1d502 0x1d502 Mapped [0x79];
  Row 0x1d503 0x1d503 Mapped [0x7a];
  Row 0x1d504 0x1d504 Mapped [0x61];
  Row 0x1d505 0x1d505 Mapped [0x62];
  Row 0x1d506 0x1d506 Disallowed [];
  Row 0x1d507 0x1d507 Mapped [0x64];
  Row 0x1d508 0x1d508 Mapped [0x65];
  Row 0x1d509 0x1d509 Mapped [0x66];
  Row 0x1d50a 0x1d50a Mapped [0x67];
  Row 0x1d50b 0x1d50c Disallowed [];
  Row 0x1d50d 0x1d50d Mapped [0x6a];
  Row 0x1d50e 0x1d50e Mapped [0x6b];
  Row 0x1d50f 0x1d50f Mapped [0x6c];
  Row 0x1d510 0x1d510 Mapped [0x6d];
  Row 0x1d511 0x1d511 Mapped [0x6e];
  Row 0x1d512 0x1d512 Mapped [0x6f];
  Row 0x1d513 0x1d513 Mapped [0x70];
  Row 0x1d514 0x1d514 Mapped [0x71];
  Row 0x1d515 0x1d515 Disallowed [];
  Row 0x1d516 0x1d516 Mapped [0x73];
  Row 0x1d517 0x1d517 Mapped [0x74];
  Row 0x1d518 0x1d518 Mapped [0x75];
  Row 0x1d519 0x1d519 Mapped [0x76];
  Row 0x1d51a 0x1d51a Mapped [0x77];
  Row 0x1d51b 0x1d51b Mapped [0x78];
  Row 0x1d51c 0x1d51c Mapped [0x79];
  Row 0x1d51d 0x1d51d Disallowed [];
  Row 0x1d51e 0x1d51e Mapped [0x61];
  Row 0x1d51f 0x1d51f Mapped [0x62];
  Row 0x1d520 0x1d520 Mapped [0x63];
  Row 0x1d521 0x1d521 Mapped [0x64];
  Row 0x1d522 0x1d522 Mapped [0x65];
  Row 0x1d523 0x1d523 Mapped [0x66];
  Row 0x1d524 0x1d524 Mapped [0x67];
  Row 0x1d525 0x1d525 Mapped [0x68];
  Row 0x1d526 0x1d526 Mapped [0x69];
  Row 0x1d527 0x1d527 Mapped [0x6a];
  Row 0x1d528 0x1d528 Mapped [0x6b];
  Row 0x1d529 0x1d529 Mapped [0x6c];
  Row 0x1d52a 0x1d52a Mapped [0x6d];
  Row 0x1d52b 0x1d52b Mapped [0x6e];
  Row 0x1d52c 0x1d52c Mapped [0x6f];
  Row 0x1d52d 0x1d52d Mapped [0x70];
  Row 0x1d52e 0x1d52e Mapped [0x71];
  Row 0x1d52f 0x1d52f Mapped [0x72];
  Row 0x1d530 0x1d530 Mapped [0x73];
  Row 0x1d531 0x1d531 Mapped [0x74]].
Definition idna_rows_68 : list row := [
  Row 0x1d532 0x1d532 Mapped [0x75];
  Row 0x1d533 0x1d533 Mapped [0x76];
  Row 0x1d534 0x1d534 Mapped [0x77];
  Row 0x1d535 0x1d535 Mapped [0x78];
  Row 0x1d536 0x1d536 Mapped [0x79];
  Row 0x1d537 0x1d537 Mapped [0x7a];
  Row 0x1d538 0x1d538 Mapped [0x61];
  Row 0x1d539 0x1d539 Mapped [0x62];
  Row 0x1d53a 0x1d53a Disallowed [];
  Row 0x1d53b 0x1d53b Mapped [0x64];
  Row 0x1d53c 0x1d53c Mapped [0x65];
  Row 0x1d53d 0x1d53d Mapped [0x66];
  Row 0x1d53e 0x1d53e Mapped [0x67];
  Row 0x1d53f 0x1d53f Disallowed [];
  Row 0x1d540 0x1d540 Mapped [0x69];
  Row 0x1d541 0x1d541 Mapped [0x6a];
  Row 0x1d542 0x1d542 Mapped [0x6b];
  Row 0x1d543 0x1d543 Mapped [0x6c];
  Row 0x1d544 0x1d544 Mapped [0x6d];
  Row 0x1d545 0x1d545 Disallowed [];
  Row 0x1d546 0x1d546 Mapped [0x6f];
  Row 0x1d547 0x1d549 Disallowed [];
  Row 0x1d54a 0x1d54a Mapped [0x73];
  Row 0x1d54b 0x1d54b Mapped [0x74];
  Row 0x1d54c 0x1d54c Mapped [0x75];
  Row 0x1d54d 0x1d54d Mapped [0x76];
  Row 0x1d54e 0x1d54e Mapped [0x77];
  Row 0x1d54f 0x1d54f Mapped [0x78];
  Row 0x1d550 0x1d550 Mapped [0x79];
  Row 0x1d551 0x1d551 Disallowed [];
  Row 0x1d552 0x1d552 Mapped [0x61];
  Row 0x1d553 0x1d553 Mapped [0x62];
  Row 0x1d554 0x1d554 Mapped [0x63];
  Row 0x1d555 0x1d555 Mapped [0x64];
  Row 0x1d556 0x1d556 Mapped [0x65];
  Row 0x1d557 0x1d557 Mapped [0x66];
  Row 0x1d558 0x1d558 Mapped [0x67];
  Row 0x1d559 0x1d559 Mapped [0x68];
  Row 0x1d55a 0x1d55a Mapped [0x69];
  Row 0x1d55b 0x1d55b Mapped [0x6a];
  Row 0x1d55c 0x1d55c Mapped [0x6b];
  Row 0x1d55d 0x1d55d Mapped [0x6c];
  Row 0x1d55e 0x1d55e Mapped [0x6d];
  Row 0x1d55f 0x1d55f Mapped [0x6e];
  Row 0x1d560 0x1d560 Mapped [0x6f];
  Row 0x1d561 0x1d561 Mapped [0x70];
  Row 0x1d562 0x1d562 Mapped [0x71];
  Row 0x1d563 0x1d563 Mapped [0x72];
  Row 0x1d564 0x1d564 Mapped [0x73];
  Row 0x1d565 0x1d565 Mapped [0x74];
  Row 0x1d566 0x1d566 Mapped [0x75];
  Row 0x1d567 0x1d567 Mapped [0x76];
  Row 0x1d568 0x1d568 Mapped [0x77];
  Row 0x1d569 0x1d569 Mapped [0x78];
  Row 0x1d56a 0x1d56a Mapped [0x79];
  Row 0x1d56b 0x1d56b Mapped [0x7a];
  Row 0x1d56c 0x1d56c Mapped [0x61];
  Row 0x1d56d 0x1d56d Mapped [0x62];
  Row 0x1d56e 0x1d56e Mapped [0x63];
  Row 0x1d56f 0x1d56f Mapped [0x64];
  Row 0x1d570 0x1d570 Mapped [0x65];
  Row 0x1d571 0x1d571 Mapped [0x66];
  Row 0x1d572 0x1d572 Mapped [0x67];
  Row 0x1d573 0x1d573 Mapped [0x68];
  Row 0x1d574 0x1d574 Mapped [0x69];
  Row 0x1d575 0x1d575 Mapped [0x6a];
  Row 0x1d576 0x1d576 Mapped [0x6b];
  Row 0x1d577 0x1d577 Mapped [0x6c];
  Row 0x1d578 0x1d578 Mapped [0x6d];
  Row 0x1d579 0x1d579 Mapped [0x6e];
  Row 0x1d57a 0x1d57a Mapped [0x6f];
  Row 0x1d57b 0x1d57b Mapped [0x70];
  Row 0x1d57c 0x1d57c Mapped [0x71];
  Row 0x1d57d 0x1d57d Mapped [0x72];
  Row 0x1d57e 0x1d57e Mapped [0x73];
  Row 0x1d57f 0x1d57f Mapped [0x74];
  Row 0x1d580 0x1d580 Mapped [0x75];
  Row 0x1d581 0x1d581 Mapped [0x76];
  Row 0x1d582 0x1d582 Mapped [0x77];
  Row 0x1d583 0x1d583 Mapped [0x78];
  Row 0x1d584 0x1d584 Mapped [0x79];
  Row 0x1d585 0x1d585 Mapped [0x7a];
  Row 0x1d586 0x1d586 Mapped [0x61];
  Row 0x1d587 0x1d587 Mapped [0x62];
  Row 0x1d588 0x1d588 Mapped [0x63];
  Row 0x1d589 0x1d589 Mapped [0x64];
  Row 0x1d58a 0x1d58a Mapped [0x65];
  Row 0x1d58b 0x1d58b Mapped [0x66];
  Row 0x1d58c 0x1d58c Mapped [0x67];
  Row 0x1d58d 0x1d58d Mapped [0x68];
  Row 0x1d58e 0x1d58e Mapped [0x69];
  Row 0x1d58f 0x1d58f Mapped [0x6a];
  Row 0x1d590 0x1d590 Mapped [0x6b];
  Row 0x1d591 0x1d591 Mapped [0x6c];
  Row 0x1d592 0x1d592 Mapped [0x6d];
  Row 0x1d593 0x1d593 Mapped [0x6e];
  Row 0x1d594 0x1d594 Mapped [0x6f];
  Row 0x1d595 0x1d595 Mapped [0x70];
  Row 0x1d596 0x1d596 Mapped [0x71];
  Row 0x1d597 0x1d597 Mapped [0x72]].
Definition idna_rows_69 : list row := [
  Row 0x1d598 0x1d598 Mapped [0x73];
  Row 0x1d599 0x1d599 Mapped [0x74];
  Row 0x1d59a 0x1d59a Mapped [0x75];
  Row 0x1d59b 0x1d59b Mapped [0x76];
  Row 0x1d59c 0x1d59c Mapped [0x77];
  Row 0x1d59d 0x1d59d Mapped [0x78];
  Row 0x1d59e 0x1d59e Mapped [0x79];
  Row 0x1d59f 0x1d59f Mapped [0x7a];
  Row 0x1d5a0 0x1d5a0 Mapped [0x61];
  Row 0x1d5a1 0x1d5a1 Mapped [0x62];
  Row 0x1d5a2 0x1d5a2 Mapped [0x63];
  Row 0x1d5a3 0x1d5a3 Mapped [0x64];
  Row 0x1d5a4 0x1d5a4 Mapped [0x65];
  Row 0x1d5a5 0x1d5a5 Mapped [0x66];
  Row 0x1d5a6 0x1d5a6 Mapped [0x67];
  Row 0x1d5a7 0x1d5a7 Mapped [0x68];
  Row 0x1d5a8 0x1d5a8 Mapped [0x69];
  Row 0x1d5a9 0x1d5a9 Mapped [0x6a];
  Row 0x1d5aa 0x1d5aa Mapped [0x6b];
  Row 0x1d5ab 0x1d5ab Mapped [0x6c];
  Row 0x1d5ac 0x1d5ac Mapped [0x6d];
  Row 0x1d5ad 0x1d5ad Mapped [0x6e];
  Row 0x1d5ae 0x1d5ae Mapped [0x6f];
  Row 0x1d5af 0x1d5af Mapped [0x70];
  Row 0x1d5b0 0x1d5b0 Mapped [0x71];
  Row 0x1d5b1 0x1d5b1 Mapped [0x72];
  Row 0x1d5b2 0x1d5b2 Mapped [0x73];
  Row 0x1d5b3 0x1d5b3 Mapped [0x74];
  Row 0x1d5b4 0x1d5b4 Mapped [0x75];
  Row 0x1d5b5 0x1d5b5 Mapped [0x76];
  Row 0x1d5b6 0x1d5b6 Mapped [0x77];
  Row 0x1d5b7 0x1d5b7 Mapped [0x78];
  Row 0x1d5b8 0x1d5b8 Mapped [0x79];
  Row 0x1d5b9 0x1d5b9 Mapped [0x7a];
  Row 0x1d5ba 0x1d5ba Mapped [0x61];
  Row 0x1d5bb 0x1d5bb Mapped [0x62];
  Row 0x1d5bc 0x1d5bc Mapped [0x63];
  Row 0x1d5bd 0x1d5bd Mapped [0x64];
  Row 0x1d5be 0x1d5be Mapped [0x65];
  Row 0x1d5bf 0x1d5bf Mapped [0x66];
  Row 0x1d5c0 0x1d5c0 Mapped [0x67];
  Row 0x1d5c1 0x1d5c1 Mapped [0x68];
  Row 0x1d5c2 0x1d5c2 Mapped [0x69];
  Row 0x1d5c3 0x1d5c3 Mapped [0x6a];
  Row 0x1d5c4 0x1d5c4 Mapped [0x6b];
  Row 0x1d5c5 0x1d5c5 Mapped [0x6c];
  Row 0x1d5c6 0x1d5c6 Mapped [0x6d];
  Row 0x1d5c7 0x1d5c7 Mapped [0x6e];
  Row 0x1d5c8 0x1d5c8 Mapped [0x6f];
  Row 0x1d5c9 0x1d5c9 Mapped [0x70];
  Row 0x1d5ca 0x1d5ca Mapped [0x71];
  Row 0x1d5cb 0x1d5cb Mapped [0x72];
  Row 0x1d5cc 0x1d5cc Mapped [0x73];
  Row 0x1d5cd 0x1d5cd Mapped [0x74];
  Row 0x1d5ce 0x1d5ce Mapped [0x75];
  Row 0x1d5cf 0x1d5cf Mapped [0x76];
  Row 0x1d5d0 0x1d5d0 Mapped [0x77];
  Row 0x1d5d1 0x1d5d1 Mapped [0x78];
  Row 0x1d5d2 0x1d5d2 Mapped [0x79];
  Row 0x1d5d3 0x1d5d3 Mapped [0x7a];
  Row 0x1d5d4 0x1d5d4 Mapped [0x61];
  Row 0x1d5d5 0x1d5d5 Mapped [0x62];
  Row 0x1d5d6 0x1d5d6 Mapped [0x63];
  Row 0x1d5d7 0x1d5d7 Mapped [0x64];
  Row 0x1d5d8 0x1d5d8 Mapped [0x65];
  Row 0x1d5d9 0x1d5d9 Mapped [0x66];
  Row 0x1d5da 0x1d5da Mapped [0x67];
  Row 0x1d5db 0x1d5db Mapped [0x68];
  Row 0x1d5dc 0x1d5dc Mapped [0x69];
  Row 0x1d5dd 0x1d5dd Mapped [0x6a];
  Row 0x1d5de 0x1d5de Mapped [0x6b];
  Row 0x1d5df 0x1d5df Mapped [0x6c];
  Row 0x1d5e0 0x1d5e0 Mapped [0x6d];
  Row 0x1d5e1 0x1d5e1 Mapped [0x6e];
  Row 0x1d5e2 0x1d5e2 Mapped [0x6f];
  Row 0x1d5e3 0x1d5e3 Mapped [0x70];
  Row 0x1d5e4 0x1d5e4 Mapped [0x71];
  Row 0x1d5e5 0x1d5e5 Mapped [0x72];
  Row 0x1d5e6 0x1d5e6 Mapped [0x73];
  Row 0x1d5e7 0x1d5e7 Mapped [0x74];
  Row 0x1d5e8 0x1d5e8 Mapped [0x75];
  Row 0x1d5e9 0x1d5e9 Mapped [0x76];
  Row 0x1d5ea 0x1d5ea Mapped [0x77];
  Row 0x1d5eb 0x1d5eb Mapped [0x78];
  Row 0x1d5ec 0x1d5ec Mapped [0x79];
  Row 0x1d5ed 0x1d5ed Mapped [0x7a];
  Row 0x1d5ee 0x1d5ee Mapped [0x61];
  Row 0x1d5ef 0x1d5ef Mapped [0x62];
  Row 0x1d5f0 0x1d5f0 Mapped [0x63];
  Row 0x1d5f1 0x1d5f1 Mapped [0x64];
  Row 0x1d5f2 0x1d5f2 Mapped [0x65];
  Row 0x1d5f3 0x1d5f3 Mapped [0x66];
  Row 0x1d5f4 0x1d5f4 Mapped [0x67];
  Row 0x1d5f5 0x1d5f5 Mapped [0x68];
  Row 0x1d5f6 0x1d5f6 Mapped [0x69];
  Row 0x1d5f7 0x1d5f7 Mapped [0x6a];
  Row 0x1d5f8 0x1d5f8 Mapped [0x6b];
  Row 0x1d5f9 0x1d5f9 Mapped [0x6c];
  Row 0x1d5fa 0x1d5fa Mapped [0x6d];
  Row 0x1d5fb 0x1d5fb Mapped [0x6e]].
Definition idna_rows_70 : list row := [
  Row 0x1d5fc 0x1d5fc Mapped [0x6f];
  Row 0x1d5fd 0x1d5fd Mapped [0x70];
  Row 0x1d5fe 0x1d5fe Mapped [0x71];
  Row 0x1d5ff 0x1d5ff Mapped [0x72];
  Row 0x1d600 0x1d600 Mapped [0x73];
  Row 0x1d601 0x1d601 Mapped [0x74];
  Row 0x1d602 0x1d602 Mapped [0x75];
  Row 0x1d603 0x1d603 Mapped [0x76];
  Row 0x1d604 0x1d604 Mapped [0x77];
  Row 0x1d605 0x1d605 Mapped [0x78];
  Row 0x1d606 0x1d606 Mapped [0x79];
  Row 0x1d607 0x1d607 Mapped [0x7a];
  Row 0x1d608 0x1d608 Mapped [0x61];
  Row 0x1d609 0x1d609 Mapped [0x62];
  Row 0x1d60a 0x1d60a Mapped [0x63];
  Row 0x1d60b 0x1d60b Mapped [0x64];
  Row 0x1d60c 0x1d60c Mapped [0x65];
  Row 0x1d60d 0x1d60d Mapped [0x66];
  Row 0x1d60e 0x1d60e Mapped [0x67];
  Row 0x1d60f 0x1d60f Mapped [0x68];
  Row 0x1d610 0x1d610 Mapped [0x69];
  Row 0x1d611 0x1d611 Mapped [0x6a];
  Row 0x1d612 0x1d612 Mapped [0x6b];
  Row 0x1d613 0x1d613 Mapped [0x6c];
  Row 0x1d614 0x1d614 Mapped [0x6d];
  Row 0x1d615 0x1d615 Mapped [0x6e];
  Row 0x1d616 0x1d616 Mapped [0x6f];
  Row 0x1d617 0x1d617 Mapped [0x70];
  Row 0x1d618 0x1d618 Mapped [0x71];
  Row 0x1d619 0x1d619 Mapped [0x72];
  Row 0x1d61a 0x1d61a Mapped [0x73];
  Row 0x1d61b 0x1d61b Mapped [0x74];
  Row 0x1d61c 0x1d61c Mapped [0x75];
  Row 0x1d61d 0x1d61d Mapped [0x76];
  Row 0x1d61e 0x1d61e Mapped [0x77];
  Row 0x1d61f 0x1d61f Mapped [0x78];
  Row 0x1d620 0x1d620 Mapped [0x79];
  Row 0x1d621 0x1d621 Mapped [0x7a];
  Row 0x1d622 0x1d622 Mapped [0x61];
  Row 0x1d623 0x1d623 Mapped [0x62];
  Row 0x1d624 0x1d624 Mapped [0x63];
  Row 0x1d625 0x1d625 Mapped [0x64];
  Row 0x1d626 0x1d626 Mapped [0x65];
  Row 0x1d627 0x1d627 Mapped [0x66];
  Row 0x1d628 0x1d628 Mapped [0x67];
  Row 0x1d629 0x1d629 Mapped [0x68];
  Row 0x1d62a 0x1d62a Mapped [0x69];
  Row 0x1d62b 0x1d62b Mapped [0x6a];
  Row 0x1d62c 0x1d62c Mapped [0x6b];
  Row 0x1d62d 0x1d62d Mapped [0x6c];
  Row 0x1d62e 0x1d62e Mapped [0x6d];
  Row 0x1d62f 0x1d62f Mapped [0x6e];
  Row 0x1d630 0x1d630 Mapped [0x6f];
  Row 0x1d631 0x1d631 Mapped [0x70];
  Row 0x1d632 0x1d632 Mapped [0x71];
  Row 0x1d633 0x1d633 Mapped [0x72];
  Row 0x1d634 0x1d634 Mapped [0x73];
  Row 0x1d635 0x1d635 Mapped [0x74];
  Row 0x1d636 0x1d636 Mapped [0x75];
  Row 0x1d637 0x1d637 Mapped [0x76];
  Row 0x1d638 0x1d638 Mapped [0x77];
  Row 0x1d639 0x1d639 Mapped [0x78];
  Row 0x1d63a 0x1d63a Mapped [0x79];
  Row 0x1d63b 0x1d63b Mapped [0x7a];
  Row 0x1d63c 0x1d63c Mapped [0x61];
  Row 0x1d63d 0x1d63d Mapped [0x62];
  Row 0x1d63e 0x1d63e Mapped [0x63];
  Row 0x1d63f 0x1d63f Mapped [0x64];
  Row 0x1d640 0x1d640 Mapped [0x65];
  Row 0x1d641 0x1d641 Mapped [0x66];
  Row 0x1d642 0x1d642 Mapped [0x67];
  Row 0x1d643 0x1d643 Mapped [0x68];
  Row 0x1d644 0x1d644 Mapped [0x69];
  Row 0x1d645 0x1d645 Mapped [0x6a];
  Row 0x1d646 0x1d646 Mapped [0x6b];
  Row 0x1d647 0x1d647 Mapped [0x6c];
  Row 0x1d648 0x1d648 Mapped [0x6d];
  Row 0x1d649 0x1d649 Mapped [0x6e];
  Row 0x1d64a 0x1d64a Mapped [0x6f];
  Row 0x1d64b 0x1d64b Mapped [0x70];
  Row 0x1d64c 0x1d64c Mapped [0x71];
  Row 0x1d64d 0x1d64d Mapped [0x72];
  Row 0x1d64e 0x1d64e Mapped [0x73];
  Row 0x1d64f 0x1d64f Mapped [0x74];
  Row 0x1d650 0x1d650 Mapped [0x75];
  Row 0x1d651 0x1d651 Mapped [0x76];
  Row 0x1d652 0x1d652 Mapped [0x77];
  Row 0x1d653 0x1d653 Mapped [0x78];
  Row 0x1d654 0x1d654 Mapped [0x79];
  Row 0x1d655 0x1d655 Mapped [0x7a];
  Row 0x1d656 0x1d656 Mapped [0x61];
  Row 0x1d657 0x1d657 Mapped [0x62];
  Row 0x1d658 0x1d658 Mapped [0x63];
  Row 0x1d659 0x1d659 Mapped [0x64];
  Row 0x1d65a 0x1d65a Mapped [0x65];
  Row 0x1d65b 0x1d65b Mapped [0x66];
  Row 0x1d65c 0x1d65c Mapped [0x67];
  Row 0x1d65d 0x1d65d Mapped [0x68];
  Row 0x1d65e 0x1d65e Mapped [0x69];
  Row 0x1d65f 0x1d65f Mapped [0x6a]].
Definition idna_rows_71 : list row := [
  Row 0x1d660 0x1d660 Mapped [0x6b];
  Row 0x1d661 0x1d661 Mapped [0x6c];
  Row 0x1d662 0x1d662 Mapped [0x6d];
  Row 0x1d663 0x1d663 Mapped [0x6e];
  Row 0x1d664 0x1d664 Mapped [0x6f];
  Row 0x1d665 0x1d665 Mapped [0x70];
  Row 0x1d666 0x1d666 Mapped [0x71];
  Row 0x1d667 0x1d667 Mapped [0x72];
  Row 0x1d668 0x1d668 Mapped [0x73];
  Row 0x1d669 0x1d669 Mapped [0x74];
  Row 0x1d66a 0x1d66a Mapped [0x75];
  Row 0x1d66b 0x1d66b Mapped [0x76];
  Row 0x1d66c 0x1d66c Mapped [0x77];
  Row 0x1d66d 0x1d66d Mapped [0x78];
  Row 0x1d66e 0x1d66e Mapped [0x79];
  Row 0x1d66f 0x1d66f Mapped [0x7a];
  Row 0x1d670 0x1d670 Mapped [0x61];
  Row 0x1d671 0x1d671 Mapped [0x62];
  Row 0x1d672 0x1d672 Mapped [0x63];
  Row 0x1d673 0x1d673 Mapped [0x64];
  Row 0x1d674 0x1d674 Mapped [0x65];
  Row 0x1d675 0x1d675 Mapped [0x66];
  Row 0x1d676 0x1d676 Mapped [0x67];
  Row 0x1d677 0x1d677 Mapped [0x68];
  Row 0x1d678 0x1d678 Mapped [0x69];
  Row 0x1d679 0x1d679 Mapped [0x6a];
  Row 0x1d67a 0x1d67a Mapped [0x6b];
  Row 0x1d67b 0x1d67b Mapped [0x6c];
  Row 0x1d67c 0x1d67c Mapped [0x6d];
  Row 0x1d67d 0x1d67d Mapped [0x6e];
  Row 0x1d67e 0x1d67e Mapped [0x6f];
  Row 0x1d67f 0x1d67f Mapped [0x70];
  Row 0x1d680 0x1d680 Mapped [0x71];
  Row 0x1d681 0x1d681 Mapped [0x72];
  Row 0x1d682 0x1d682 Mapped [0x73];
  Row 0x1d683 0x1d683 Mapped [0x74];
  Row 0x1d684 0x1d684 Mapped [0x75];
  Row 0x1d685 0x1d685 Mapped [0x76];
  Row 0x1d686 0x1d686 Mapped [0x77];
  Row 0x1d687 0x1d687 Mapped [0x78];
  Row 0x1d688 0x1d688 Mapped [0x79];
  Row 0x1d689 0x1d689 Mapped [0x7a];
  Row 0x1d68a 0x1d68a Mapped [0x61];
  Row 0x1d68b 0x1d68b Mapped [0x62];
  Row 0x1d68c 0x1d68c Mapped [0x63];
  Row 0x1d68d 0x1d68d Mapped [0x64];
  Row 0x1d68e 0x1d68e Mapped [0x65];
  Row 0x1d68f 0x1d68f Mapped [0x66];
  Row 0x1d690 0x1d690 Mapped [0x67];
  Row 0x1d691 0x1d691 Mapped [0x68];
  Row 0x1d692 0x1d692 Mapped [0x69];
  Row 0x1d693 0x1d693 Mapped [0x6a];
  Row 0x1d694 0x1d694 Mapped [0x6b];
  Row 0x1d695 0x1d695 Mapped [0x6c];
  Row 0x1d696 0x1d696 Mapped [0x6d];
  Row 0x1d697 0x1d697 Mapped [0x6e];
  Row 0x1d698 0x1d698 Mapped [0x6f];
  Row 0x1d699 0x1d699 Mapped [0x70];
  Row 0x1d69a 0x1d69a Mapped [0x71];
  Row 0x1d69b 0x1d69b Mapped [0x72];
  Row 0x1d69c 0x1d69c Mapped [0x73];
  Row 0x1d69d 0x1d69d Mapped [0x74];
  Row 0x1d69e 0x1d69e Mapped [0x75];
  Row 0x1d69f 0x1d69f Mapped [0x76];
  Row 0x1d6a0 0x1d6a0 Mapped [0x77];
  Row 0x1d6a1 0x1d6a1 Mapped [0x78];
  Row 0x1d6a2 0x1d6a2 Mapped [0x79];
  Row 0x1d6a3 0x1d6a3 Mapped [0x7a];
  Row 0x1d6a4 0x1d6a4 Mapped [0x131];
  Row 0x1d6a5 0x1d6a5 Mapped [0x237];
  Row 0x1d6a6 0x1d6a7 Disallowed [];
  Row 0x1d6a8 0x1d6a8 Mapped [0x3b1];
  Row 0x1d6a9 0x1d6a9 Mapped [0x3b2];
  Row 0x1d6aa 0x1d6aa Mapped [0x3b3];
  Row 0x1d6ab 0x1d6ab Mapped [0x3b4];
  Row 0x1d6ac 0x1d6ac Mapped [0x3b5];
  Row 0x1d6ad 0x1d6ad Mapped [0x3b6];
  Row 0x1d6ae 0x1d6ae Mapped [0x3b7];
  Row 0x1d6af 0x1d6af Mapped [0x3b8];
  Row 0x1d6b0 0x1d6b0 Mapped [0x3b9];
  Row 0x1d6b1 0x1d6b1 Mapped [0x3ba];
  Row 0x1d6b2 0x1d6b2 Mapped [0x3bb];
  Row 0x1d6b3 0x1d6b3 Mapped [0x3bc];
  Row 0x1d6b4 0x1d6b4 Mapped [0x3bd];
  Row 0x1d6b5 0x1d6b5 Mapped [0x3be];
  Row 0x1d6b6 0x1d6b6 Mapped [0x3bf];
  Row 0x1d6b7 0x1d6b7 Mapped [0x3c0];
  Row 0x1d6b8 0x1d6b8 Mapped [0x3c1];
  Row 0x1d6b9 0x1d6b9 Mapped [0x3b8];
  Row 0x1d6ba 0x1d6ba Mapped [0x3c3];
  Row 0x1d6bb 0x1d6bb Mapped [0x3c4];
  Row 0x1d6bc 0x1d6bc Mapped [0x3c5];
  Row 0x1d6bd 0x1d6bd Mapped [0x3c6];
  Row 0x1d6be 0x1d6be Mapped [0x3c7];
  Row 0x1d6bf 0x1d6bf Mapped [0x3c8];
  Row 0x1d6c0 0x1d6c0 Mapped [0x3c9];
  Row 0x1d6c1 0x1d6c1 Mapped [0x2207];
  Row 0x1d6c2 0x1d6c2 Mapped [0x3b1];
  Row 0x1d6c3 0x1d6c3 Mapped [0x3b2];
  Row 0x1d6c4 0x1d6c4 Mapped [0x3b3]].
Definition idna_rows_72 : list row := [
  Row 0x1d6c5 0x1d6c5 Mapped [0x3b4];
  Row 0x1d6c6 0x1d6c6 Mapped [0x3b5];
  Row 0x1d6c7 0x1d6c7 Mapped [0x3b6];
  Row 0x1d6c8 0x1d6c8 Mapped [0x3b7];
  Row 0x1d6c9 0x1d6c9 Mapped [0x3b8];
  Row 0x1d6ca 0x1d6ca Mapped [0x3b9];
  Row 0x1d6cb 0x1d6cb Mapped [0x3ba];
  Row 0x1d6cc 0x1d6cc Mapped [0x3bb];
  Row 0x1d6cd 0x1d6cd Mapped [0x3bc];
  Row 0x1d6ce 0x1d6ce Mapped [0x3bd];
  Row 0x1d6cf 0x1d6cf Mapped [0x3be];
  Row 0x1d6d0 0x1d6d0 Mapped [0x3bf];
  Row 0x1d6d1 0x1d6d1 Mapped [0x3c0];
  Row 0x1d6d2 0x1d6d2 Mapped [0x3c1];
  Row 0x1d6d3 0x1d6d4 Mapped [0x3c3];
  Row 0x1d6d5 0x1d6d5 Mapped [0x3c4];
  Row 0x1d6d6 0x1d6d6 Mapped [0x3c5];
  Row 0x1d6d7 0x1d6d7 Mapped [0x3c6];
  Row 0x1d6d8 0x1d6d8 Mapped [0x3c7];
  Row 0x1d6d9 0x1d6d9 Mapped [0x3c8];
  Row 0x1d6da 0x1d6da Mapped [0x3c9];
  Row 0x1d6db 0x1d6db Mapped [0x2202];
  Row 0x1d6dc 0x1d6dc Mapped [0x3b5];
  Row 0x1d6dd 0x1d6dd Mapped [0x3b8];
  Row 0x1d6de 0x1d6de Mapped [0x3ba];
  Row 0x1d6df 0x1d6df Mapped [0x3c6];
  Row 0x1d6e0 0x1d6e0 Mapped [0x3c1];
  Row 0x1d6e1 0x1d6e1 Mapped [0x3c0];
  Row 0x1d6e2 0x1d6e2 Mapped [0x3b1];
  Row 0x1d6e3 0x1d6e3 Mapped [0x3b2];
  Row 0x1d6e4 0x1d6e4 Mapped [0x3b3];
  Row 0x1d6e5 0x1d6e5 Mapped [0x3b4];
  Row 0x1d6e6 0x1d6e6 Mapped [0x3b5];
  Row 0x1d6e7 0x1d6e7 Mapped [0x3b6];
  Row 0x1d6e8 0x1d6e8 Mapped [0x3b7];
  Row 0x1d6e9 0x1d6e9 Mapped [0x3b8];
  Row 0x1d6ea 0x1d6ea Mapped [0x3b9];
  Row 0x1d6eb 0x1d6eb Mapped [0x3ba];
  Row 0x1d6ec 0x1d6ec Mapped [0x3bb];
  Row 0x1d6ed 0x1d6ed Mapped [0x3bc];
  Row 0x1d6ee 0x1d6ee Mapped [0x3bd];
  Row 0x1d6ef 0x1d6ef Mapped [0x3be];
  Row 0x1d6f0 0x1d6f0 Mapped [0x3bf];
  Row 0x1d6f1 0x1d6f1 Mapped [0x3c0];
  Row 0x1d6f2 0x1d6f2 Mapped [0x3c1];
  Row 0x1d6f3 0x1d6f3 Mapped [0x3b8];
  Row 0x1d6f4 0x1d6f4 Mapped [0x3c3];
  Row 0x1d6f5 0x1d6f5 Mapped [0x3c4];
  Row 0x1d6f6 0x1d6f6 Mapped [0x3c5];
  Row 0x1d6f7 0x1d6f7 Mapped [0x3c6];
  Row 0x1d6f8 0x1d6f8 Mapped [0x3c7];
  Row 0x1d6f9 0x1d6f9 Mapped [0x3c8];
  Row 0x1d6fa 0x1d6fa Mapped [0x3c9];
  Row 0x1d6fb 0x1d6fb Mapped [0x2207];
  Row 0x1d6fc 0x1d6fc Mapped [0x3b1];
  Row 0x1d6fd 0x1d6fd Mapped [0x3b2];
  Row 0x1d6fe 0x1d6fe Mapped [0x3b3];
  Row 0x1d6ff 0x1d6ff Mapped [0x3b4];
  Row 0x1d700 0x1d700 Mapped [0x3b5];
  Row 0x1d701 0x1d701 Mapped [0x3b6];
  Row 0x1d702 0x1d702 Mapped [0x3b7];
  Row 0x1d703 0x1d703 Mapped [0x3b8];
  Row 0x1d704 0x1d704 Mapped [0x3b9];
  Row 0x1d705 0x1d705 Mapped [0x3ba];
  Row 0x1d706 0x1d706 Mapped [0x3bb];
  Row 0x1d707 0x1d707 Mapped [0x3bc];
  Row 0x1d708 0x1d708 Mapped [0x3bd];
  Row 0x1d709 0x1d709 Mapped [0x3be];
  Row 0x1d70a 0x1d70a Mapped [0x3bf];
  Row 0x1d70b 0x1d70b Mapped [0x3c0];
  Row 0x1d70c 0x1d70c Mapped [0x3c1];
  Row 0x1d70d 0x1d70e Mapped [0x3c3];
  Row 0x1d70f 0x1d70f Mapped [0x3c4];
  Row 0x1d710 0x1d710 Mapped [0x3c5];
  Row 0x1d711 0x1d711 Mapped [0x3c6];
  Row 0x1d712 0x1d712 Mapped [0x3c7];
  Row 0x1d713 0x1d713 Mapped [0x3c8];
  Row 0x1d714 0x1d714 Mapped [0x3c9];
  Row 0x1d715 0x1d715 Mapped [0x2202];
  Row 0x1d716 0x1d716 Mapped [0x3b5];
  Row 0x1d717 0x1d717 Mapped [0x3b8];
  Row 0x1d718 0x1d718 Mapped [0x3ba];
  Row 0x1d719 0x1d719 Mapped [0x3c6];
  Row 0x1d71a 0x1d71a Mapped [0x3c1];
  Row 0x1d71b 0x1d71b Mapped [0x3c0];
  Row 0x1d71c 0x1d71c Mapped [0x3b1];
  Row 0x1d71d 0x1d71d Mapped [0x3b2];
  Row 0x1d71e 0x1d71e Mapped [0x3b3];
  Row 0x1d71f 0x1d71f Mapped [0x3b4];
  Row 0x1d720 0x1d720 Mapped [0x3b5];
  Row 0x1d721 0x1d721 Mapped [0x3b6];
  Row 0x1d722 0x1d722 Mapped [0x3b7];
  Row 0x1d723 0x1d723 Mapped [0x3b8];
  Row 0x1d724 0x1d724 Mapped [0x3b9];
  Row 0x1d725 0x1d725 Mapped [0x3ba];
  Row 0x1d726 0x1d726 Mapped [0x3bb];
  Row 0x1d727 0x1d727 Mapped [0x3bc];
  Row 0x1d728 0x1d728 Mapped [0x3bd];
  Row 0x1d729 0x1d729 Mapped [0x3be];
  Row 0x1d72a 0x1d72a Mapped [0x3bf]].
Definition idna_rows_73 : list row := [
  Row 0x1d72b 0x1d72b Mapped [0x3c0];
  Row 0x1d72c 0x1d72c Mapped [0x3c1];
  Row 0x1d72d 0x1d72d Mapped [0x3b8];
  Row 0x1d72e 0x1d72e Mapped [0x3c3];
  Row 0x1d72f 0x1d72f Mapped [0x3c4];
  Row 0x1d730 0x1d730 Mapped [0x3c5];
  Row 0x1d731 0x1d731 Mapped [0x3c6];
  Row 0x1d732 0x1d732 Mapped [0x3c7];
  Row 0x1d733 0x1d733 Mapped [0x3c8];
  Row 0x1d734 0x1d734 Mapped [0x3c9];
  Row 0x1d735 0x1d735 Mapped [0x2207];
  Row 0x1d736 0x1d736 Mapped [0x3b1];
  Row 0x1d737 0x1d737 Mapped [0x3b2];
  Row 0x1d738 0x1d738 Mapped [0x3b3];
  Row 0x1d739 0x1d739 Mapped [0x3b4];
  Row 0x1d73a 0x1d73a Mapped [0x3b5];
  Row 0x1d73b 0x1d73b Mapped [0x3b6];
  Row 0x1d73c 0x1d73c Mapped [0x3b7];
  Row 0x1d73d 0x1d73d Mapped [0x3b8];
  Row 0x1d73e 0x1d73e Mapped [0x3b9];
  Row 0x1d73f 0x1d73f Mapped [0x3ba];
  Row 0x1d740 0x1d740 Mapped [0x3bb];
  Row 0x1d741 0x1d741 Mapped [0x3bc];
  Row 0x1d742 0x1d742 Mapped [0x3bd];
  Row 0x1d743 0x1d743 Mapped [0x3be];
  Row 0x1d744 0x1d744 Mapped [0x3bf];
  Row 0x1d745 0x1d745 Mapped [0x3c0];
  Row 0x1d746 0x1d746 Mapped [0x3c1];
  Row 0x1d747 0x1d748 Mapped [0x3c3];
  Row 0x1d749 0x1d749 Mapped [0x3c4];
  Row 0x1d74a 0x1d74a Mapped [0x3c5];
  Row 0x1d74b 0x1d74b Mapped [0x3c6];
  Row 0x1d74c 0x1d74c Mapped [0x3c7];
  Row 0x1d74d 0x1d74d Mapped [0x3c8];
  Row 0x1d74e 0x1d74e Mapped [0x3c9];
  Row 0x1d74f 0x1d74f Mapped [0x2202];
  Row 0x1d750 0x1d750 Mapped [0x3b5];
  Row 0x1d751 0x1d751 Mapped [0x3b8];
  Row 0x1d752 0x1d752 Mapped [0x3ba];
  Row 0x1d753 0x1d753 Mapped [0x3c6];
  Row 0x1d754 0x1d754 Mapped [0x3c1];
  Row 0x1d755 0x1d755 Mapped [0x3c0];
  Row 0x1d756 0x1d756 Mapped [0x3b1];
  Row 0x1d757 0x1d757 Mapped [0x3b2];
  Row 0x1d758 0x1d758 Mapped [0x3b3];
  Row 0x1d759 0x1d759 Mapped [0x3b4];
  Row 0x1d75a 0x1d75a Mapped [0x3b5];
  Row 0x1d75b 0x1d75b Mapped [0x3b6];
  Row 0x1d75c 0x1d75c Mapped [0x3b7];
  Row 0x1d75d 0x1d75d Mapped [0x3b8];
  Row 0x1d75e 0x1d75e Mapped [0x3b9];
  Row 0x1d75f 0x1d75f Mapped [0x3ba];
  Row 0x1d760 0x1d760 Mapped [0x3bb];
  Row 0x1d761 0x1d761 Mapped [0x3bc];
  Row 0x1d762 0x1d762 Mapped [0x3bd];
  Row 0x1d763 0x1d763 Mapped [0x3be];
  Row 0x1d764 0x1d764 Mapped [0x3bf];
  Row 0x1d765 0x1d765 Mapped [0x3c0];
  Row 0x1d766 0x1d766 Mapped [0x3c1];
  Row 0x1d767 0x1d767 Mapped [0x3b8];
  Row 0x1d768 0x1d768 Mapped [0x3c3];
  Row 0x1d769 0x1d769 Mapped [0x3c4];
  Row 0x1d76a 0x1d76a Mapped [0x3c5];
  Row 0x1d76b 0x1d76b Mapped [0x3c6];
  Row 0x1d76c 0x1d76c Mapped [0x3c7];
  Row 0x1d76d 0x1d76d Mapped [0x3c8];
  Row 0x1d76e 0x1d76e Mapped [0x3c9];
  Row 0x1d76f 0x1d76f Mapped [0x2207];
  Row 0x1d770 0x1d770 Mapped [0x3b1];
  Row 0x1d771 0x1d771 Mapped [0x3b2];
  Row 0x1d772 0x1d772 Mapped [0x3b3];
  Row 0x1d773 0x1d773 Mapped [0x3b4];
  Row 0x1d774 0x1d774 Mapped [0x3b5];
  Row 0x1d775 0x1d775 Mapped [0x3b6];
  Row 0x1d776 0x1d776 Mapped [0x3b7];
  Row 0x1d777 0x1d777 Mapped [0x3b8];
  Row 0x1d778 0x1d778 Mapped [0x3b9];
  Row 0x1d779 0x1d779 Mapped [0x3ba];
  Row 0x1d77a 0x1d77a Mapped [0x3bb];
  Row 0x1d77b 0x1d77b Mapped [0x3bc];
  Row 0x1d77c 0x1d77c Mapped [0x3bd];
  Row 0x1d77d 0x1d77d Mapped [0x3be];
  Row 0x1d77e 0x1d77e Mapped [0x3bf];
  Row 0x1d77f 0x1d77f Mapped [0x3c0];
  Row 0x1d780 0x1d780 Mapped [0x3c1];
  Row 0x1d781 0x1d782 Mapped [0x3c3];
  Row 0x1d783 0x1d783 Mapped [0x3c4];
  Row 0x1d784 0x1d784 Mapped [0x3c5];
  Row 0x1d785 0x1d785 Mapped [0x3c6];
  Row 0x1d786 0x1d786 Mapped [0x3c7];
  Row 0x1d787 0x1d787 Mapped [0x3c8];
  Row 0x1d788 0x1d788 Mapped [0x3c9];
  Row 0x1d789 0x1d789 Mapped [0x2202];
  Row 0x1d78a 0x1d78a Mapped [0x3b5];
  Row 0x1d78b 0x1d78b Mapped [0x3b8];
  Row 0x1d78c 0x1d78c Mapped [0x3ba];
  Row 0x1d78d 0x1d78d Mapped [0x3c6];
  Row 0x1d78e 0x1d78e Mapped [0x3c1];
  Row 0x1d78f 0x1d78f Mapped [0x3c0];
  Row 0x1d790 0x1d790 Mapped [0x3b1]].
Definition idna_rows_74 : list row := [
  Row 0x1d791 0x1d791 Mapped [0x3b2];
  Row 0x1d792 0x1d792 Mapped [0x3b3];
  Row 0x1d793 0x1d793 Mapped [0x3b4];
  Row 0x1d794 0x1d794 Mapped [0x3b5];
  Row 0x1d795 0x1d795 Mapped [0x3b6];
  Row 0x1d796 0x1d796 Mapped [0x3b7];
  Row 0x1d797 0x1d797 Mapped [0x3b8];
  Row 0x1d798 0x1d798 Mapped [0x3b9];
  Row 0x1d799 0x1d799 Mapped [0x3ba];
  Row 0x1d79a 0x1d79a Mapped [0x3bb];
  Row 0x1d79b 0x1d79b Mapped [0x3bc];
  Row 0x1d79c 0x1d79c Mapped [0x3bd];
  Row 0x1d79d 0x1d79d Mapped [0x3be];
  Row 0x1d79e 0x1d79e Mapped [0x3bf];
  Row 0x1d79f 0x1d79f Mapped [0x3c0];
  Row 0x1d7a0 0x1d7a0 Mapped [0x3c1];
  Row 0x1d7a1 0x1d7a1 Mapped [0x3b8];
  Row 0x1d7a2 0x1d7a2 Mapped [0x3c3];
  Row 0x1d7a3 0x1d7a3 Mapped [0x3c4];
  Row 0x1d7a4 0x1d7a4 Mapped [0x3c5];
  Row 0x1d7a5 0x1d7a5 Mapped [0x3c6];
  Row 0x1d7a6 0x1d7a6 Mapped [0x3c7];
  Row 0x1d7a7 0x1d7a7 Mapped [0x3c8];
  Row 0x1d7a8 0x1d7a8 Mapped [0x3c9];
  Row 0x1d7a9 0x1d7a9 Mapped [0x2207];
  Row 0x1d7aa 0x1d7aa Mapped [0x3b1];
  Row 0x1d7ab 0x1d7ab Mapped [0x3b2];
  Row 0x1d7ac 0x1d7ac Mapped [0x3b3];
  Row 0x1d7ad 0x1d7ad Mapped [0x3b4];
  Row 0x1d7ae 0x1d7ae Mapped [0x3b5];
  Row 0x1d7af 0x1d7af Mapped [0x3b6];
  Row 0x1d7b0 0x1d7b0 Mapped [0x3b7];
  Row 0x1d7b1 0x1d7b1 Mapped [0x3b8];
  Row 0x1d7b2 0x1d7b2 Mapped [0x3b9];
  Row 0x1d7b3 0x1d7b3 Mapped [0x3ba];
  Row 0x1d7b4 0x1d7b4 Mapped [0x3bb];
  Row 0x1d7b5 0x1d7b5 Mapped [0x3bc];
  Row 0x1d7b6 0x1d7b6 Mapped [0x3bd];
  Row 0x1d7b7 0x1d7b7 Mapped [0x3be];
  Row 0x1d7b8 0x1d7b8 Mapped [0x3bf];
  Row 0x1d7b9 0x1d7b9 Mapped [0x3c0];
  Row 0x1d7ba 0x1d7ba Mapped [0x3c1];
  Row 0x1d7bb 0x1d7bc Mapped [0x3c3];
  Row 0x1d7bd 0x1d7bd Mapped [0x3c4];
  Row 0x1d7be 0x1d7be Mapped [0x3c5];
  Row 0x1d7bf 0x1d7bf Mapped [0x3c6];
  Row 0x1d7c0 0x1d7c0 Mapped [0x3c7];
  Row 0x1d7c1 0x1d7c1 Mapped [0x3c8];
  Row 0x1d7c2 0x1d7c2 Mapped [0x3c9];
  Row 0x1d7c3 0x1d7c3 Mapped [0x2202];
  Row 0x1d7c4 0x1d7c4 Mapped [0x3b5];
  Row 0x1d7c5 0x1d7c5 Mapped [0x3b8];
  Row 0x1d7c6 0x1d7c6 Mapped [0x3ba];
  Row 0x1d7c7 0x1d7c7 Mapped [0x3c6];
  Row 0x1d7c8 0x1d7c8 Mapped [0x3c1];
  Row 0x1d7c9 0x1d7c9 Mapped [0x3c0];
  Row 0x1d7ca 0x1d7cb Mapped [0x3dd];
  Row 0x1d7cc 0x1d7cd Disallowed [];
  Row 0x1d7ce 0x1d7ce Mapped [0x30];
  Row 0x1d7cf 0x1d7cf Mapped [0x31];
  Row 0x1d7d0 0x1d7d0 Mapped [0x32];
  Row 0x1d7d1 0x1d7d1 Mapped [0x33];
  Row 0x1d7d2 0x1d7d2 Mapped [0x34];
  Row 0x1d7d3 0x1d7d3 Mapped [0x35];
  Row 0x1d7d4 0x1d7d4 Mapped [0x36];
  Row 0x1d7d5 0x1d7d5 Mapped [0x37];
  Row 0x1d7d6 0x1d7d6 Mapped [0x38];
  Row 0x1d7d7 0x1d7d7 Mapped [0x39];
  Row 0x1d7d8 0x1d7d8 Mapped [0x30];
  Row 0x1d7d9 0x1d7d9 Mapped [0x31];
  Row 0x1d7da 0x1d7da Mapped [0x32];
  Row 0x1d7db 0x1d7db Mapped [0x33];
  Row 0x1d7dc 0x1d7dc Mapped [0x34];
  Row 0x1d7dd 0x1d7dd Mapped [0x35];
  Row 0x1d7de 0x1d7de Mapped [0x36];
  Row 0x1d7df 0x1d7df Mapped [0x37];
  Row 0x1d7e0 0x1d7e0 Mapped [0x38];
  Row 0x1d7e1 0x1d7e1 Mapped [0x39];
  Row 0x1d7e2 0x1d7e2 Mapped [0x30];
  Row 0x1d7e3 0x1d7e3 Mapped [0x31];
  Row 0x1d7e4 0x1d7e4 Mapped [0x32];
  Row 0x1d7e5 0x1d7e5 Mapped [0x33];
  Row 0x1d7e6 0x1d7e6 Mapped [0x34];
  Row 0x1d7e7 0x1d7e7 Mapped [0x35];
  Row 0x1d7e8 0x1d7e8 Mapped [0x36];
  Row 0x1d7e9 0x1d7e9 Mapped [0x37];
  Row 0x1d7ea 0x1d7ea Mapped [0x38];
  Row 0x1d7eb 0x1d7eb Mapped [0x39];
  Row 0x1d7ec 0x1d7ec Mapped [0x30];
  Row 0x1d7ed 0x1d7ed Mapped [0x31];
  Row 0x1d7ee 0x1d7ee Mapped [0x32];
  Row 0x1d7ef 0x1d7ef Mapped [0x33];
  Row 0x1d7f0 0x1d7f0 Mapped [0x34];
  Row 0x1d7f1 0x1d7f1 Mapped [0x35];
  Row 0x1d7f2 0x1d7f2 Mapped [0x36];
  Row 0x1d7f3 0x1d7f3 Mapped [0x37];
  Row 0x1d7f4 0x1d7f4 Mapped [0x38];
  Row 0x1d7f5 0x1d7f5 Mapped [0x39];
  Row 0x1d7f6 0x1d7f6 Mapped [0x30];
  Row 0x1d7f7 0x1d7f7 Mapped [0x31]].
Definition idna_rows_75 : list row := [
  Row 0x1d7f8 0x1d7f8 Mapped [0x32];
  Row 0x1d7f9 0x1d7f9 Mapped [0x33];
  Row 0x1d7fa 0x1d7fa Mapped [0x34];
  Row 0x1d7fb 0x1d7fb Mapped [0x35];
  Row 0x1d7fc 0x1d7fc Mapped [0x36];
  Row 0x1d7fd 0x1d7fd Mapped [0x37];
  Row 0x1d7fe 0x1d7fe Mapped [0x38];
  Row 0x1d7ff 0x1d7ff Mapped [0x39];
  Row 0x1d800 0x1d9ff Valid [];
  Row 0x1da00 0x1da36 Valid [];
  Row 0x1da37 0x1da3a Valid [];
  Row 0x1da3b 0x1da6c Valid [];
  Row 0x1da6d 0x1da74 Valid [];
  Row 0x1da75 0x1da75 Valid [];
  Row 0x1da76 0x1da83 Valid [];
  Row 0x1da84 0x1da84 Valid [];
  Row 0x1da85 0x1da8b Valid [];
  Row 0x1da8c 0x1da9a Disallowed [];
  Row 0x1da9b 0x1da9f Valid [];
  Row 0x1daa0 0x1daa0 Disallowed [];
  Row 0x1daa1 0x1daaf Valid [];
  Row 0x1dab0 0x1dfff Disallowed [];
  Row 0x1e000 0x1e006 Valid [];
  Row 0x1e007 0x1e007 Disallowed [];
  Row 0x1e008 0x1e018 Valid [];
  Row 0x1e019 0x1e01a Disallowed [];
  Row 0x1e01b 0x1e021 Valid [];
  Row 0x1e022 0x1e022 Disallowed [];
  Row 0x1e023 0x1e024 Valid [];
  Row 0x1e025 0x1e025 Disallowed [];
  Row 0x1e026 0x1e02a Valid [];
  Row 0x1e02b 0x1e0ff Disallowed [];
  Row 0x1e100 0x1e12c Valid [];
  Row 0x1e12d 0x1e12f Disallowed [];
  Row 0x1e130 0x1e13d Valid [];
  Row 0x1e13e 0x1e13f Disallowed [];
  Row 0x1e140 0x1e149 Valid [];
  Row 0x1e14a 0x1e14d Disallowed [];
  Row 0x1e14e 0x1e14e Valid [];
  Row 0x1e14f 0x1e14f Valid [];
  Row 0x1e150 0x1e2bf Disallowed [];
  Row 0x1e2c0 0x1e2f9 Valid [];
  Row 0x1e2fa 0x1e2fe Disallowed [];
  Row 0x1e2ff 0x1e2ff Valid [];
  Row 0x1e300 0x1e7ff Disallowed [];
  Row 0x1e800 0x1e8c4 Valid [];
  Row 0x1e8c5 0x1e8c6 Disallowed [];
  Row 0x1e8c7 0x1e8cf Valid [];
  Row 0x1e8d0 0x1e8d6 Valid [];
  Row 0x1e8d7 0x1e8ff Disallowed [];
  Row 0x1e900 0x1e900 Mapped [0x1e922];
  Row 0x1e901 0x1e901 Mapped [0x1e923];
  Row 0x1e902 0x1e902 Mapped [0x1e924];
  Row 0x1e903 0x1e903 Mapped [0x1e925];
  Row 0x1e904 0x1e904 Mapped [0x1e926];
  Row 0x1e905 0x1e905 Mapped [0x1e927];
  Row 0x1e906 0x1e906 Mapped [0x1e928];
  Row 0x1e907 0x1e907 Mapped [0x1e929];
  Row 0x1e908 0x1e908 Mapped [0x1e92a];
  Row 0x1e909 0x1e909 Mapped [0x1e92b];
  Row 0x1e90a 0x1e90a Mapped [0x1e92c];
  Row 0x1e90b 0x1e90b Mapped [0x1e92d];
  Row 0x1e90c 0x1e90c Mapped [0x1e92e];
  Row 0x1e90d 0x1e90d Mapped [0x1e92f];
  Row 0x1e90e 0x1e90e Mapped [0x1e930];
  Row 0x1e90f 0x1e90f Mapped [0x1e931];
  Row 0x1e910 0x1e910 Mapped [0x1e932];
  Row 0x1e911 0x1e911 Mapped [0x1e933];
  Row 0x1e912 0x1e912 Mapped [0x1e934];
  Row 0x1e913 0x1e913 Mapped [0x1e935];
  Row 0x1e914 0x1e914 Mapped [0x1e936];
  Row 0x1e915 0x1e915 Mapped [0x1e937];
  Row 0x1e916 0x1e916 Mapped [0x1e938];
  Row 0x1e917 0x1e917 Mapped [0x1e939];
  Row 0x1e918 0x1e918 Mapped [0x1e93a];
  Row 0x1e919 0x1e919 Mapped [0x1e93b];
  Row 0x1e91a 0x1e91a Mapped [0x1e93c];
  Row 0x1e91b 0x1e91b Mapped [0x1e93d];
  Row 0x1e91c 0x1e91c Mapped [0x1e93e];
  Row 0x1e91d 0x1e91d Mapped [0x1e93f];
  Row 0x1e91e 0x1e91e Mapped [0x1e940];
  Row 0x1e91f 0x1e91f Mapped [0x1e941];
  Row 0x1e920 0x1e920 Mapped [0x1e942];
  Row 0x1e921 0x1e921 Mapped [0x1e943];
  Row 0x1e922 0x1e94a Valid [];
  Row 0x1e94b 0x1e94b Valid [];
  Row 0x1e94c 0x1e94f Disallowed [];
  Row 0x1e950 0x1e959 Valid [];
  Row 0x1e95a 0x1e95d Disallowed [];
  Row 0x1e95e 0x1e95f Valid [];
  Row 0x1e960 0x1ec70 Disallowed [];
  Row 0x1ec71 0x1ecb4 Valid [];
  Row 0x1ecb5 0x1ed00 Disallowed [];
  Row 0x1ed01 0x1ed3d Valid [];
  Row 0x1ed3e 0x1edff Disallowed [];
  Row 0x1ee00 0x1ee00 Mapped [0x627];
  Row 0x1ee01 0x1ee01 Mapped [0x628];
  Row 0x1ee02 0x1ee02 Mapped [0x62c];
  Row 0x1ee03 0x1ee03 Mapped [0x62f];
  Row 0x1ee04 0x1ee04 Disallowed []].
Definition idna_rows_76 : list row := [
  Row 0x1ee05 0x1ee05 Mapped [0x648];
  Row 0x1ee06 0x1ee06 Mapped [0x632];
  Row 0x1ee07 0x1ee07 Mapped [0x62d];
  Row 0x1ee08 0x1ee08 Mapped [0x637];
  Row 0x1ee09 0x1ee09 Mapped [0x64a];
  Row 0x1ee0a 0x1ee0a Mapped [0x643];
  Row 0x1ee0b 0x1ee0b Mapped [0x644];
  Row 0x1ee0c 0x1ee0c Mapped [0x645];
  Row 0x1ee0d 0x1ee0d Mapped [0x646];
  Row 0x1ee0e 0x1ee0e Mapped [0x633];
  Row 0x1ee0f 0x1ee0f Mapped [0x639];
  Row 0x1ee10 0x1ee10 Mapped [0x641];
  Row 0x1ee11 0x1ee11 Mapped [0x635];
  Row 0x1ee12 0x1ee12 Mapped [0x642];
  Row 0x1ee13 0x1ee13 Mapped [0x631];
  Row 0x1ee14 0x1ee14 Mapped [0x634];
  Row 0x1ee15 0x1ee15 Mapped [0x62a];
  Row 0x1ee16 0x1ee16 Mapped [0x62b];
  Row 0x1ee17 0x1ee17 Mapped [0x62e];
  Row 0x1ee18 0x1ee18 Mapped [0x630];
  Row 0x1ee19 0x1ee19 Mapped [0x636];
  Row 0x1ee1a 0x1ee1a Mapped [0x638];
  Row 0x1ee1b 0x1ee1b Mapped [0x63a];
  Row 0x1ee1c 0x1ee1c Mapped [0x66e];
  Row 0x1ee1d 0x1ee1d Mapped [0x6ba];
  Row 0x1ee1e 0x1ee1e Mapped [0x6a1];
  Row 0x1ee1f 0x1ee1f Mapped [0x66f];
  Row 0x1ee20 0x1ee20 Disallowed [];
  Row 0x1ee21 0x1ee21 Mapped [0x628];
  Row 0x1ee22 0x1ee22 Mapped [0x62c];
  Row 0x1ee23 0x1ee23 Disallowed [];
  Row 0x1ee24 0x1ee24 Mapped [0x647];
  Row 0x1ee25 0x1ee26 Disallowed [];
  Row 0x1ee27 0x1ee27 Mapped [0x62d];
  Row 0x1ee28 0x1ee28 Disallowed [];
  Row 0x1ee29 0x1ee29 Mapped [0x64a];
  Row 0x1ee2a 0x1ee2a Mapped [0x643];
  Row 0x1ee2b 0x1ee2b Mapped [0x644];
  Row 0x1ee2c 0x1ee2c Mapped [0x645];
  Row 0x1ee2d 0x1ee2d Mapped [0x646];
  Row 0x1ee2e 0x1ee2e Mapped [0x633];
  Row 0x1ee2f 0x1ee2f Mapped [0x639];
  Row 0x1ee30 0x1ee30 Mapped [0x641];
  Row 0x1ee31 0x1ee31 Mapped [0x635];
  Row 0x1ee32 0x1ee32 Mapped [0x642];
  Row 0x1ee33 0x1ee33 Disallowed [];
  Row 0x1ee34 0x1ee34 Mapped [0x634];
  Row 0x1ee35 0x1ee35 Mapped [0x62a];
  Row 0x1ee36 0x1ee36 Mapped [0x62b];
  Row 0x1ee37 0x1ee37 Mapped [0x62e];
  Row 0x1ee38 0x1ee38 Disallowed [];
  Row 0x1ee39 0x1ee39 Mapped [0x636];
  Row 0x1ee3a 0x1ee3a Disallowed [];
  Row 0x1ee3b 0x1ee3b Mapped [0x63a];
  Row 0x1ee3c 0x1ee41 Disallowed [];
  Row 0x1ee42 0x1ee42 Mapped [0x62c];
  Row 0x1ee43 0x1ee46 Disallowed [];
  Row 0x1ee47 0x1ee47 Mapped [0x62d];
  Row 0x1ee48 0x1ee48 Disallowed [];
  Row 0x1ee49 0x1ee49 Mapped [0x64a];
  Row 0x1ee4a 0x1ee4a Disallowed [];
  Row 0x1ee4b 0x1ee4b Mapped [0x644];
  Row 0x1ee4c 0x1ee4c Disallowed [];
  Row 0x1ee4d 0x1ee4d Mapped [0x646];
  Row 0x1ee4e 0x1ee4e Mapped [0x633];
  Row 0x1ee4f 0x1ee4f Mapped [0x639];
  Row 0x1ee50 0x1ee50 Disallowed [];
  Row 0x1ee51 0x1ee51 Mapped [0x635];
  Row 0x1ee52 0x1ee52 Mapped [0x642];
  Row 0x1ee53 0x1ee53 Disallowed [];
  Row 0x1ee54 0x1ee54 Mapped [0x634];
  Row 0x1ee55 0x1ee56 Disallowed [];
  Row 0x1ee57 0x1ee57 Mapped [0x62e];
  Row 0x1ee58 0x1ee58 Disallowed [];
  Row 0x1ee59 0x1ee59 Mapped [0x636];
  Row 0x1ee5a 0x1ee5a Disallowed [];
  Row 0x1ee5b 0x1ee5b Mapped [0x63a];
  Row 0x1ee5c 0x1ee5c Disallowed [];
  Row 0x1ee5d 0x1ee5d Mapped [0x6ba];
  Row 0x1ee5e 0x1ee5e Disallowed [];
  Row 0x1ee5f 0x1ee5f Mapped [0x66f];
  Row 0x1ee60 0x1ee60 Disallowed [];
  Row 0x1ee61 0x1ee61 Mapped [0x628];
  Row 0x1ee62 0x1ee62 Mapped [0x62c];
  Row 0x1ee63 0x1ee63 Disallowed [];
  Row 0x1ee64 0x1ee64 Mapped [0x647];
  Row 0x1ee65 0x1ee66 Disallowed [];
  Row 0x1ee67 0x1ee67 Mapped [0x62d];
  Row 0x1ee68 0x1ee68 Mapped [0x637];
  Row 0x1ee69 0x1ee69 Mapped [0x64a];
  Row 0x1ee6a 0x1ee6a Mapped [0x643];
  Row 0x1ee6b 0x1ee6b Disallowed [];
  Row 0x1ee6c 0x1ee6c Mapped [0x645];
  Row 0x1ee6d 0x1ee6d Mapped [0x646];
  Row 0x1ee6e 0x1ee6e Mapped [0x633];
  Row 0x1ee6f 0x1ee6f Mapped [0x639];
  Row 0x1ee70 0x1ee70 Mapped [0x641];
  Row 0x1ee71 0x1ee71 Mapped [0x635];
  Row 0x1ee72 0x1ee72 Mapped [0x642];
  Row 0x1ee73 0x1ee73 Disallowed []].
Definition idna_rows_77 : list row := [
  Row 0x1ee74 0x1ee74 Mapped [0x634];
  Row 0x1ee75 0x1ee75 Mapped [0x62a];
  Row 0x1ee76 0x1ee76 Mapped [0x62b];
  Row 0x1ee77 0x1ee77 Mapped [0x62e];
  Row 0x1ee78 0x1ee78 Disallowed [];
  Row 0x1ee79 0x1ee79 Mapped [0x636];
  Row 0x1ee7a 0x1ee7a Mapped [0x638];
  Row 0x1ee7b 0x1ee7b Mapped [0x63a];
  Row 0x1ee7c 0x1ee7c Mapped [0x66e];
  Row 0x1ee7d 0x1ee7d Disallowed [];
  Row 0x1ee7e 0x1ee7e Mapped [0x6a1];
  Row 0x1ee7f 0x1ee7f Disallowed [];
  Row 0x1ee80 0x1ee80 Mapped [0x627];
  Row 0x1ee81 0x1ee81 Mapped [0x628];
  Row 0x1ee82 0x1ee82 Mapped [0x62c];
  Row 0x1ee83 0x1ee83 Mapped [0x62f];
  Row 0x1ee84 0x1ee84 Mapped [0x647];
  Row 0x1ee85 0x1ee85 Mapped [0x648];
  Row 0x1ee86 0x1ee86 Mapped [0x632];
  Row 0x1ee87 0x1ee87 Mapped [0x62d];
  Row 0x1ee88 0x1ee88 Mapped [0x637];
  Row 0x1ee89 0x1ee89 Mapped [0x64a];
  Row 0x1ee8a 0x1ee8a Disallowed [];
  Row 0x1ee8b 0x1ee8b Mapped [0x644];
  Row 0x1ee8c 0x1ee8c Mapped [0x645];
  Row 0x1ee8d 0x1ee8d Mapped [0x646];
  Row 0x1ee8e 0x1ee8e Mapped [0x633];
  Row 0x1ee8f 0x1ee8f Mapped [0x639];
  Row 0x1ee90 0x1ee90 Mapped [0x641];
  Row 0x1ee91 0x1ee91 Mapped [0x635];
  Row 0x1ee92 0x1ee92 Mapped [0x642];
  Row 0x1ee93 0x1ee93 Mapped [0x631];
  Row 0x1ee94 0x1ee94 Mapped [0x634];
  Row 0x1ee95 0x1ee95 Mapped [0x62a];
  Row 0x1ee96 0x1ee96 Mapped [0x62b];
  Row 0x1ee97 0x1ee97 Mapped [0x62e];
  Row 0x1ee98 0x1ee98 Mapped [0x630];
  Row 0x1ee99 0x1ee99 Mapped [0x636];
  Row 0x1ee9a 0x1ee9a Mapped [0x638];
  Row 0x1ee9b 0x1ee9b Mapped [0x63a];
  Row 0x1ee9c 0x1eea0 Disallowed [];
  Row 0x1eea1 0x1eea1 Mapped [0x628];
  Row 0x1eea2 0x1eea2 Mapped [0x62c];
  Row 0x1eea3 0x1eea3 Mapped [0x62f];
  Row 0x1eea4 0x1eea4 Disallowed [];
  Row 0x1eea5 0x1eea5 Mapped [0x648];
  Row 0x1eea6 0x1eea6 Mapped [0x632];
  Row 0x1eea7 0x1eea7 Mapped [0x62d];
  Row 0x1eea8 0x1eea8 Mapped [0x637];
  Row 0x1eea9 0x1eea9 Mapped [0x64a];
  Row 0x1eeaa 0x1eeaa Disallowed [];
  Row 0x1eeab 0x1eeab Mapped [0x644];
  Row 0x1eeac 0x1eeac Mapped [0x645];
  Row 0x1eead 0x1eead Mapped [0x646];
  Row 0x1eeae 0x1eeae Mapped [0x633];
  Row 0x1eeaf 0x1eeaf Mapped [0x639];
  Row 0x1eeb0 0x1eeb0 Mapped [0x641];
  Row 0x1eeb1 0x1eeb1 Mapped [0x635];
  Row 0x1eeb2 0x1eeb2 Mapped [0x642];
  Row 0x1eeb3 0x1eeb3 Mapped [0x631];
  Row 0x1eeb4 0x1eeb4 Mapped [0x634];
  Row 0x1eeb5 0x1eeb5 Mapped [0x62a];
  Row 0x1eeb6 0x1eeb6 Mapped [0x62b];
  Row 0x1eeb7 0x1eeb7 Mapped [0x62e];
  Row 0x1eeb8 0x1eeb8 Mapped [0x630];
  Row 0x1eeb9 0x1eeb9 Mapped [0x636];
  Row 0x1eeba 0x1eeba Mapped [0x638];
  Row 0x1eebb 0x1eebb Mapped [0x63a];
  Row 0x1eebc 0x1eeef Disallowed [];
  Row 0x1eef0 0x1eef1 Valid [];
  Row 0x1eef2 0x1efff Disallowed [];
  Row 0x1f000 0x1f02b Valid [];
  Row 0x1f02c 0x1f02f Disallowed [];
  Row 0x1f030 0x1f093 Valid [];
  Row 0x1f094 0x1f09f Disallowed [];
  Row 0x1f0a0 0x1f0ae Valid [];
  Row 0x1f0af 0x1f0b0 Disallowed [];
  Row 0x1f0b1 0x1f0be Valid [];
  Row 0x1f0bf 0x1f0bf Valid [];
  Row 0x1f0c0 0x1f0c0 Disallowed [];
  Row 0x1f0c1 0x1f0cf Valid [];
  Row 0x1f0d0 0x1f0d0 Disallowed [];
  Row 0x1f0d1 0x1f0df Valid [];
  Row 0x1f0e0 0x1f0f5 Valid [];
  Row 0x1f0f6 0x1f0ff Disallowed [];
  Row 0x1f100 0x1f100 Disallowed [];
  Row 0x1f101 0x1f101 Std3Mapped [0x30; 0x2c];
  Row 0x1f102 0x1f102 Std3Mapped [0x31; 0x2c];
  Row 0x1f103 0x1f103 Std3Mapped [0x32; 0x2c];
  Row 0x1f104 0x1f104 Std3Mapped [0x33; 0x2c];
  Row 0x1f105 0x1f105 Std3Mapped [0x34; 0x2c];
  Row 0x1f106 0x1f106 Std3Mapped [0x35; 0x2c];
  Row 0x1f107 0x1f107 Std3Mapped [0x36; 0x2c];
  Row 0x1f108 0x1f108 Std3Mapped [0x37; 0x2c];
  Row 0x1f109 0x1f109 Std3Mapped [0x38; 0x2c];
  Row 0x1f10a 0x1f10a Std3Mapped [0x39; 0x2c];
  Row 0x1f10b 0x1f10c Valid [];
  Row 0x1f10d 0x1f10f Valid [];
  Row 0x1f110 0x1f110 Std3Mapped [0x28; 0x61; 0x29];
  Row 0x1f111 0x1f111 Std3Mapped [0x28; 0x62; 0x29]].
Definition idna_rows_78 : list row := [
  Row 0x1f112 0x1f112 Std3Mapped [0x28; 0x63; 0x29];
  Row 0x1f113 0x1f113 Std3Mapped [0x28; 0x64; 0x29];
  Row 0x1f114 0x1f114 Std3Mapped [0x28; 0x65; 0x29];
  Row 0x1f115 0x1f115 Std3Mapped [0x28; 0x66; 0x29];
  Row 0x1f116 0x1f116 Std3Mapped [0x28; 0x67; 0x29];
  Row 0x1f117 0x1f117 Std3Mapped [0x28; 0x68; 0x29];
  Row 0x1f118 0x1f118 Std3Mapped [0x28; 0x69; 0x29];
  Row 0x1f119 0x1f119 Std3Mapped [0x28; 0x6a; 0x29];
  Row 0x1f11a 0x1f11a Std3Mapped [0x28; 0x6b; 0x29];
  Row 0x1f11b 0x1f11b Std3Mapped [0x28; 0x6c; 0x29];
  Row 0x1f11c 0x1f11c Std3Mapped [0x28; 0x6d; 0x29];
  Row 0x1f11d 0x1f11d Std3Mapped [0x28; 0x6e; 0x29];
  Row 0x1f11e 0x1f11e Std3Mapped [0x28; 0x6f; 0x29];
  Row 0x1f11f 0x1f11f Std3Mapped [0x28; 0x70; 0x29];
  Row 0x1f120 0x1f120 Std3Mapped [0x28; 0x71; 0x29];
  Row 0x1f121 0x1f121 Std3Mapped [0x28; 0x72; 0x29];
  Row 0x1f122 0x1f122 Std3Mapped [0x28; 0x73; 0x29];
  Row 0x1f123 0x1f123 Std3Mapped [0x28; 0x74; 0x29];
  Row 0x1f124 0x1f124 Std3Mapped [0x28; 0x75; 0x29];
  Row 0x1f125 0x1f125 Std3Mapped [0x28; 0x76; 0x29];
  Row 0x1f126 0x1f126 Std3Mapped [0x28; 0x77; 0x29];
  Row 0x1f127 0x1f127 Std3Mapped [0x28; 0x78; 0x29];
  Row 0x1f128 0x1f128 Std3Mapped [0x28; 0x79; 0x29];
  Row 0x1f129 0x1f129 Std3Mapped [0x28; 0x7a; 0x29];
  Row 0x1f12a 0x1f12a Mapped [0x3014; 0x73; 0x3015];
  Row 0x1f12b 0x1f12b Mapped [0x63];
  Row 0x1f12c 0x1f12c Mapped [0x72];
  Row 0x1f12d 0x1f12d Mapped [0x63; 0x64];
  Row 0x1f12e 0x1f12e Mapped [0x77; 0x7a];
  Row 0x1f12f 0x1f12f Valid [];
  Row 0x1f130 0x1f130 Mapped [0x61];
  Row 0x1f131 0x1f131 Mapped [0x62];
  Row 0x1f132 0x1f132 Mapped [0x63];
  Row 0x1f133 0x1f133 Mapped [0x64];
  Row 0x1f134 0x1f134 Mapped [0x65];
  Row 0x1f135 0x1f135 Mapped [0x66];
  Row 0x1f136 0x1f136 Mapped [0x67];
  Row 0x1f137 0x1f137 Mapped [0x68];
  Row 0x1f138 0x1f138 Mapped [0x69];
  Row 0x1f139 0x1f139 Mapped [0x6a];
  Row 0x1f13a 0x1f13a Mapped [0x6b];
  Row 0x1f13b 0x1f13b Mapped [0x6c];
  Row 0x1f13c 0x1f13c Mapped [0x6d];
  Row 0x1f13d 0x1f13d Mapped [0x6e];
  Row 0x1f13e 0x1f13e Mapped [0x6f];
  Row 0x1f13f 0x1f13f Mapped [0x70];
  Row 0x1f140 0x1f140 Mapped [0x71];
  Row 0x1f141 0x1f141 Mapped [0x72];
  Row 0x1f142 0x1f142 Mapped [0x73];
  Row 0x1f143 0x1f143 Mapped [0x74];
  Row 0x1f144 0x1f144 Mapped [0x75];
  Row 0x1f145 0x1f145 Mapped [0x76];
  Row 0x1f146 0x1f146 Mapped [0x77];
  Row 0x1f147 0x1f147 Mapped [0x78];
  Row 0x1f148 0x1f148 Mapped [0x79];
  Row 0x1f149 0x1f149 Mapped [0x7a];
  Row 0x1f14a 0x1f14a Mapped [0x68; 0x76];
  Row 0x1f14b 0x1f14b Mapped [0x6d; 0x76];
  Row 0x1f14c 0x1f14c Mapped [0x73; 0x64];
  Row 0x1f14d 0x1f14d Mapped [0x73; 0x73];
  Row 0x1f14e 0x1f14e Mapped [0x70; 0x70; 0x76];
  Row 0x1f14f 0x1f14f Mapped [0x77; 0x63];
  Row 0x1f150 0x1f156 Valid [];
  Row 0x1f157 0x1f157 Valid [];
  Row 0x1f158 0x1f15e Valid [];
  Row 0x1f15f 0x1f15f Valid [];
  Row 0x1f160 0x1f169 Valid [];
  Row 0x1f16a 0x1f16a Mapped [0x6d; 0x63];
  Row 0x1f16b 0x1f16b Mapped [0x6d; 0x64];
  Row 0x1f16c 0x1f16c Mapped [0x6d; 0x72];
  Row 0x1f16d 0x1f16f Valid [];
  Row 0x1f170 0x1f178 Valid [];
  Row 0x1f179 0x1f179 Valid [];
  Row 0x1f17a 0x1f17a Valid [];
  Row 0x1f17b 0x1f17c Valid [];
  Row 0x1f17d 0x1f17e Valid [];
  Row 0x1f17f 0x1f17f Valid [];
  Row 0x1f180 0x1f189 Valid [];
  Row 0x1f18a 0x1f18d Valid [];
  Row 0x1f18e 0x1f18f Valid [];
  Row 0x1f190 0x1f190 Mapped [0x64; 0x6a];
  Row 0x1f191 0x1f19a Valid [];
  Row 0x1f19b 0x1f1ac Valid [];
  Row 0x1f1ad 0x1f1ad Valid [];
  Row 0x1f1ae 0x1f1e5 Disallowed [];
  Row 0x1f1e6 0x1f1ff Valid [];
  Row 0x1f200 0x1f200 Mapped [0x307b; 0x304b];
  Row 0x1f201 0x1f201 Mapped [0x30b3; 0x30b3];
  Row 0x1f202 0x1f202 Mapped [0x30b5];
  Row 0x1f203 0x1f20f Disallowed [];
  Row 0x1f210 0x1f210 Mapped [0x624b];
  Row 0x1f211 0x1f211 Mapped [0x5b57];
  Row 0x1f212 0x1f212 Mapped [0x53cc];
  Row 0x1f213 0x1f213 Mapped [0x30c7];
  Row 0x1f214 0x1f214 Mapped [0x4e8c];
  Row 0x1f215 0x1f215 Mapped [0x591a];
  Row 0x1f216 0x1f216 Mapped [0x89e3];
  Row 0x1f217 0x1f217 Mapped [0x5929];
  Row 0x1f218 0x1f218 Mapped [0x4ea4];
  Row 0x1f219 0x1f219 Mapped [0x6620]].
Definition idna_rows_79 : list row := [
  Row 0x1f21a 0x1f21a Mapped [0x7121];
  Row 0x1f21b 0x1f21b Mapped [0x6599];
  Row 0x1f21c 0x1f21c Mapped [0x524d];
  Row 0x1f21d 0x1f21d Mapped [0x5f8c];
  Row 0x1f21e 0x1f21e Mapped [0x518d];
  Row 0x1f21f 0x1f21f Mapped [0x65b0];
  Row 0x1f220 0x1f220 Mapped [0x521d];
  Row 0x1f221 0x1f221 Mapped [0x7d42];
  Row 0x1f222 0x1f222 Mapped [0x751f];
  Row 0x1f223 0x1f223 Mapped [0x8ca9];
  Row 0x1f224 0x1f224 Mapped [0x58f0];
  Row 0x1f225 0x1f225 Mapped [0x5439];
  Row 0x1f226 0x1f226 Mapped [0x6f14];
  Row 0x1f227 0x1f227 Mapped [0x6295];
  Row 0x1f228 0x1f228 Mapped [0x6355];
  Row 0x1f229 0x1f229 Mapped [0x4e00];
  Row 0x1f22a 0x1f22a Mapped [0x4e09];
  Row 0x1f22b 0x1f22b Mapped [0x904a];
  Row 0x1f22c 0x1f22c Mapped [0x5de6];
  Row 0x1f22d 0x1f22d Mapped [0x4e2d];
  Row 0x1f22e 0x1f22e Mapped [0x53f3];
  Row 0x1f22f 0x1f22f Mapped [0x6307];
  Row 0x1f230 0x1f230 Mapped [0x8d70];
  Row 0x1f231 0x1f231 Mapped [0x6253];
  Row 0x1f232 0x1f232 Mapped [0x7981];
  Row 0x1f233 0x1f233 Mapped [0x7a7a];
  Row 0x1f234 0x1f234 Mapped [0x5408];
  Row 0x1f235 0x1f235 Mapped [0x6e80];
  Row 0x1f236 0x1f236 Mapped [0x6709];
  Row 0x1f237 0x1f237 Mapped [0x6708];
  Row 0x1f238 0x1f238 Mapped [0x7533];
  Row 0x1f239 0x1f239 Mapped [0x5272];
  Row 0x1f23a 0x1f23a Mapped [0x55b6];
  Row 0x1f23b 0x1f23b Mapped [0x914d];
  Row 0x1f23c 0x1f23f Disallowed [];
  Row 0x1f240 0x1f240 Mapped [0x3014; 0x672c; 0x3015];
  Row 0x1f241 0x1f241 Mapped [0x3014; 0x4e09; 0x3015];
  Row 0x1f242 0x1f242 Mapped [0x3014; 0x4e8c; 0x3015];
  Row 0x1f243 0x1f243 Mapped [0x3014; 0x5b89; 0x3015];
  Row 0x1f244 0x1f244 Mapped [0x3014; 0x70b9; 0x3015];
  Row 0x1f245 0x1f245 Mapped [0x3014; 0x6253; 0x3015];
  Row 0x1f246 0x1f246 Mapped [0x3014; 0x76d7; 0x3015];
  Row 0x1f247 0x1f247 Mapped [0x3014; 0x52dd; 0x3015];
  Row 0x1f248 0x1f248 Mapped [0x3014; 0x6557; 0x3015];
  Row 0x1f249 0x1f24f Disallowed [];
  Row 0x1f250 0x1f250 Mapped [0x5f97];
  Row 0x1f251 0x1f251 Mapped [0x53ef];
  Row 0x1f252 0x1f25f Disallowed [];
  Row 0x1f260 0x1f265 Valid [];
  Row 0x1f266 0x1f2ff Disallowed [];
  Row 0x1f300 0x1f320 Valid [];
  Row 0x1f321 0x1f32c Valid [];
  Row 0x1f32d 0x1f32f Valid [];
  Row 0x1f330 0x1f335 Valid [];
  Row 0x1f336 0x1f336 Valid [];
  Row 0x1f337 0x1f37c Valid [];
  Row 0x1f37d 0x1f37d Valid [];
  Row 0x1f37e 0x1f37f Valid [];
  Row 0x1f380 0x1f393 Valid [];
  Row 0x1f394 0x1f39f Valid [];
  Row 0x1f3a0 0x1f3c4 Valid [];
  Row 0x1f3c5 0x1f3c5 Valid [];
  Row 0x1f3c6 0x1f3ca Valid [];
  Row 0x1f3cb 0x1f3ce Valid [];
  Row 0x1f3cf 0x1f3d3 Valid [];
  Row 0x1f3d4 0x1f3df Valid [];
  Row 0x1f3e0 0x1f3f0 Valid [];
  Row 0x1f3f1 0x1f3f7 Valid [];
  Row 0x1f3f8 0x1f3ff Valid [];
  Row 0x1f400 0x1f43e Valid [];
  Row 0x1f43f 0x1f43f Valid [];
  Row 0x1f440 0x1f440 Valid [];
  Row 0x1f441 0x1f441 Valid [];
  Row 0x1f442 0x1f4f7 Valid [];
  Row 0x1f4f8 0x1f4f8 Valid [];
  Row 0x1f4f9 0x1f4fc Valid [];
  Row 0x1f4fd 0x1f4fe Valid [];
  Row 0x1f4ff 0x1f4ff Valid [];
  Row 0x1f500 0x1f53d Valid [];
  Row 0x1f53e 0x1f53f Valid [];
  Row 0x1f540 0x1f543 Valid [];
  Row 0x1f544 0x1f54a Valid [];
  Row 0x1f54b 0x1f54f Valid [];
  Row 0x1f550 0x1f567 Valid [];
  Row 0x1f568 0x1f579 Valid [];
  Row 0x1f57a 0x1f57a Valid [];
  Row 0x1f57b 0x1f5a3 Valid [];
  Row 0x1f5a4 0x1f5a4 Valid [];
  Row 0x1f5a5 0x1f5fa Valid [];
  Row 0x1f5fb 0x1f5ff Valid [];
  Row 0x1f600 0x1f600 Valid [];
  Row 0x1f601 0x1f610 Valid [];
  Row 0x1f611 0x1f611 Valid [];
  Row 0x1f612 0x1f614 Valid [];
  Row 0x1f615 0x1f615 Valid [];
  Row 0x1f616 0x1f616 Valid [];
  Row 0x1f617 0x1f617 Valid [];
  Row 0x1f618 0x1f618 Valid [];
  Row 0x1f619 0x1f619 Valid [];
  Row 0x1f61a 0x1f61a Valid []].
Definition idna_rows_80 : list row := [
  Row 0x1f61b 0x1f61b Valid [];
  Row 0x1f61c 0x1f61e Valid [];
  Row 0x1f61f 0x1f61f Valid [];
  Row 0x1f620 0x1f625 Valid [];
  Row 0x1f626 0x1f627 Valid [];
  Row 0x1f628 0x1f62b Valid [];
  Row 0x1f62c 0x1f62c Valid [];
  Row 0x1f62d 0x1f62d Valid [];
  Row 0x1f62e 0x1f62f Valid [];
  Row 0x1f630 0x1f633 Valid [];
  Row 0x1f634 0x1f634 Valid [];
  Row 0x1f635 0x1f640 Valid [];
  Row 0x1f641 0x1f642 Valid [];
  Row 0x1f643 0x1f644 Valid [];
  Row 0x1f645 0x1f64f Valid [];
  Row 0x1f650 0x1f67f Valid [];
  Row 0x1f680 0x1f6c5 Valid [];
  Row 0x1f6c6 0x1f6cf Valid [];
  Row 0x1f6d0 0x1f6d0 Valid [];
  Row 0x1f6d1 0x1f6d2 Valid [];
  Row 0x1f6d3 0x1f6d4 Valid [];
  Row 0x1f6d5 0x1f6d5 Valid [];
  Row 0x1f6d6 0x1f6d7 Valid [];
  Row 0x1f6d8 0x1f6df Disallowed [];
  Row 0x1f6e0 0x1f6ec Valid [];
  Row 0x1f6ed 0x1f6ef Disallowed [];
  Row 0x1f6f0 0x1f6f3 Valid [];
  Row 0x1f6f4 0x1f6f6 Valid [];
  Row 0x1f6f7 0x1f6f8 Valid [];
  Row 0x1f6f9 0x1f6f9 Valid [];
  Row 0x1f6fa 0x1f6fa Valid [];
  Row 0x1f6fb 0x1f6fc Valid [];
  Row 0x1f6fd 0x1f6ff Disallowed [];
  Row 0x1f700 0x1f773 Valid [];
  Row 0x1f774 0x1f77f Disallowed [];
  Row 0x1f780 0x1f7d4 Valid [];
  Row 0x1f7d5 0x1f7d8 Valid [];
  Row 0x1f7d9 0x1f7df Disallowed [];
  Row 0x1f7e0 0x1f7eb Valid [];
  Row 0x1f7ec 0x1f7ff Disallowed [];
  Row 0x1f800 0x1f80b Valid [];
  Row 0x1f80c 0x1f80f Disallowed [];
  Row 0x1f810 0x1f847 Valid [];
  Row 0x1f848 0x1f84f Disallowed [];
  Row 0x1f850 0x1f859 Valid [];
  Row 0x1f85a 0x1f85f Disallowed [];
  Row 0x1f860 0x1f887 Valid [];
  Row 0x1f888 0x1f88f Disallowed [];
  Row 0x1f890 0x1f8ad Valid [];
  Row 0x1f8ae 0x1f8af Disallowed [];
  Row 0x1f8b0 0x1f8b1 Valid [];
  Row 0x1f8b2 0x1f8ff Disallowed [];
  Row 0x1f900 0x1f90b Valid [];
  Row 0x1f90c 0x1f90c Valid [];
  Row 0x1f90d 0x1f90f Valid [];
  Row 0x1f910 0x1f918 Valid [];
  Row 0x1f919 0x1f91e Valid [];
  Row 0x1f91f 0x1f91f Valid [];
  Row 0x1f920 0x1f927 Valid [];
  Row 0x1f928 0x1f92f Valid [];
  Row 0x1f930 0x1f930 Valid [];
  Row 0x1f931 0x1f932 Valid [];
  Row 0x1f933 0x1f93e Valid [];
  Row 0x1f93f 0x1f93f Valid [];
  Row 0x1f940 0x1f94b Valid [];
  Row 0x1f94c 0x1f94c Valid [];
  Row 0x1f94d 0x1f94f Valid [];
  Row 0x1f950 0x1f95e Valid [];
  Row 0x1f95f 0x1f96b Valid [];
  Row 0x1f96c 0x1f970 Valid [];
  Row 0x1f971 0x1f971 Valid [];
  Row 0x1f972 0x1f972 Valid [];
  Row 0x1f973 0x1f976 Valid [];
  Row 0x1f977 0x1f978 Valid [];
  Row 0x1f979 0x1f979 Disallowed [];
  Row 0x1f97a 0x1f97a Valid [];
  Row 0x1f97b 0x1f97b Valid [];
  Row 0x1f97c 0x1f97f Valid [];
  Row 0x1f980 0x1f984 Valid [];
  Row 0x1f985 0x1f991 Valid [];
  Row 0x1f992 0x1f997 Valid [];
  Row 0x1f998 0x1f9a2 Valid [];
  Row 0x1f9a3 0x1f9a4 Valid [];
  Row 0x1f9a5 0x1f9aa Valid [];
  Row 0x1f9ab 0x1f9ad Valid [];
  Row 0x1f9ae 0x1f9af Valid [];
  Row 0x1f9b0 0x1f9b9 Valid [];
  Row 0x1f9ba 0x1f9bf Valid [];
  Row 0x1f9c0 0x1f9c0 Valid [];
  Row 0x1f9c1 0x1f9c2 Valid [];
  Row 0x1f9c3 0x1f9ca Valid [];
  Row 0x1f9cb 0x1f9cb Valid [];
  Row 0x1f9cc 0x1f9cc Disallowed [];
  Row 0x1f9cd 0x1f9cf Valid [];
  Row 0x1f9d0 0x1f9e6 Valid [];
  Row 0x1f9e7 0x1f9ff Valid [];
  Row 0x1fa00 0x1fa53 Valid [];
  Row 0x1fa54 0x1fa5f Disallowed [];
  Row 0x1fa60 0x1fa6d Valid [];
  Row 0x1fa6e 0x1fa6f Disallowed []].
Definition idna_rows_81 : list row := [
  Row 0x1fa70 0x1fa73 Valid [];
  Row 0x1fa74 0x1fa74 Valid [];
  Row 0x1fa75 0x1fa77 Disallowed [];
  Row 0x1fa78 0x1fa7a Valid [];
  Row 0x1fa7b 0x1fa7f Disallowed [];
  Row 0x1fa80 0x1fa82 Valid [];
  Row 0x1fa83 0x1fa86 Valid [];
  Row 0x1fa87 0x1fa8f Disallowed [];
  Row 0x1fa90 0x1fa95 Valid [];
  Row 0x1fa96 0x1faa8 Valid [];
  Row 0x1faa9 0x1faaf Disallowed [];
  Row 0x1fab0 0x1fab6 Valid [];
  Row 0x1fab7 0x1fabf Disallowed [];
  Row 0x1fac0 0x1fac2 Valid [];
  Row 0x1fac3 0x1facf Disallowed [];
  Row 0x1fad0 0x1fad6 Valid [];
  Row 0x1fad7 0x1faff Disallowed [];
  Row 0x1fb00 0x1fb92 Valid [];
  Row 0x1fb93 0x1fb93 Disallowed [];
  Row 0x1fb94 0x1fbca Valid [];
  Row 0x1fbcb 0x1fbef Disallowed [];
  Row 0x1fbf0 0x1fbf0 Mapped [0x30];
  Row 0x1fbf1 0x1fbf1 Mapped [0x31];
  Row 0x1fbf2 0x1fbf2 Mapped [0x32];
  Row 0x1fbf3 0x1fbf3 Mapped [0x33];
  Row 0x1fbf4 0x1fbf4 Mapped [0x34];
  Row 0x1fbf5 0x1fbf5 Mapped [0x35];
  Row 0x1fbf6 0x1fbf6 Mapped [0x36];
  Row 0x1fbf7 0x1fbf7 Mapped [0x37];
  Row 0x1fbf8 0x1fbf8 Mapped [0x38];
  Row 0x1fbf9 0x1fbf9 Mapped [0x39];
  Row 0x1fbfa 0x1fffd Disallowed [];
  Row 0x1fffe 0x1ffff Disallowed [];
  Row 0x20000 0x2a6d6 Valid [];
  Row 0x2a6d7 0x2a6dd Valid [];
  Row 0x2a6de 0x2a6ff Disallowed [];
  Row 0x2a700 0x2b734 Valid [];
  Row 0x2b735 0x2b73f Disallowed [];
  Row 0x2b740 0x2b81d Valid [];
  Row 0x2b81e 0x2b81f Disallowed [];
  Row 0x2b820 0x2cea1 Valid [];
  Row 0x2cea2 0x2ceaf Disallowed [];
  Row 0x2ceb0 0x2ebe0 Valid [];
  Row 0x2ebe1 0x2f7ff Disallowed [];
  Row 0x2f800 0x2f800 Mapped [0x4e3d];
  Row 0x2f801 0x2f801 Mapped [0x4e38];
  Row 0x2f802 0x2f802 Mapped [0x4e41];
  Row 0x2f803 0x2f803 Mapped [0x20122];
  Row 0x2f804 0x2f804 Mapped [0x4f60];
  Row 0x2f805 0x2f805 Mapped [0x4fae];
  Row 0x2f806 0x2f806 Mapped [0x4fbb];
  Row 0x2f807 0x2f807 Mapped [0x5002];
  Row 0x2f808 0x2f808 Mapped [0x507a];
  Row 0x2f809 0x2f809 Mapped [0x5099];
  Row 0x2f80a 0x2f80a Mapped [0x50e7];
  Row 0x2f80b 0x2f80b Mapped [0x50cf];
  Row 0x2f80c 0x2f80c Mapped [0x349e];
  Row 0x2f80d 0x2f80d Mapped [0x2063a];
  Row 0x2f80e 0x2f80e Mapped [0x514d];
  Row 0x2f80f 0x2f80f Mapped [0x5154];
  Row 0x2f810 0x2f810 Mapped [0x5164];
  Row 0x2f811 0x2f811 Mapped [0x5177];
  Row 0x2f812 0x2f812 Mapped [0x2051c];
  Row 0x2f813 0x2f813 Mapped [0x34b9];
  Row 0x2f814 0x2f814 Mapped [0x5167];
  Row 0x2f815 0x2f815 Mapped [0x518d];
  Row 0x2f816 0x2f816 Mapped [0x2054b];
  Row 0x2f817 0x2f817 Mapped [0x5197];
  Row 0x2f818 0x2f818 Mapped [0x51a4];
  Row 0x2f819 0x2f819 Mapped [0x4ecc];
  Row 0x2f81a 0x2f81a Mapped [0x51ac];
  Row 0x2f81b 0x2f81b Mapped [0x51b5];
  Row 0x2f81c 0x2f81c Mapped [0x291df];
  Row 0x2f81d 0x2f81d Mapped [0x51f5];
  Row 0x2f81e 0x2f81e Mapped [0x5203];
  Row 0x2f81f 0x2f81f Mapped [0x34df];
  Row 0x2f820 0x2f820 Mapped [0x523b];
  Row 0x2f821 0x2f821 Mapped [0x5246];
  Row 0x2f822 0x2f822 Mapped [0x5272];
  Row 0x2f823 0x2f823 Mapped [0x5277];
  Row 0x2f824 0x2f824 Mapped [0x3515];
  Row 0x2f825 0x2f825 Mapped [0x52c7];
  Row 0x2f826 0x2f826 Mapped [0x52c9];
  Row 0x2f827 0x2f827 Mapped [0x52e4];
  Row 0x2f828 0x2f828 Mapped [0x52fa];
  Row 0x2f829 0x2f829 Mapped [0x5305];
  Row 0x2f82a 0x2f82a Mapped [0x5306];
  Row 0x2f82b 0x2f82b Mapped [0x5317];
  Row 0x2f82c 0x2f82c Mapped [0x5349];
  Row 0x2f82d 0x2f82d Mapped [0x5351];
  Row 0x2f82e 0x2f82e Mapped [0x535a];
  Row 0x2f82f 0x2f82f Mapped [0x5373];
  Row 0x2f830 0x2f830 Mapped [0x537d];
  Row 0x2f831 0x2f833 Mapped [0x537f];
  Row 0x2f834 0x2f834 Mapped [0x20a2c];
  Row 0x2f835 0x2f835 Mapped [0x7070];
  Row 0x2f836 0x2f836 Mapped [0x53ca];
  Row 0x2f837 0x2f837 Mapped [0x53df];
  Row 0x2f838 0x2f838 Mapped [0x20b63];
  Row 0x2f839 0x2f839 Mapped [0x53eb]].
Definition idna_rows_82 : list row := [
  Row 0x2f83a 0x2f83a Mapped [0x53f1];
  Row 0x2f83b 0x2f83b Mapped [0x5406];
  Row 0x2f83c 0x2f83c Mapped [0x549e];
  Row 0x2f83d 0x2f83d Mapped [0x5438];
  Row 0x2f83e 0x2f83e Mapped [0x5448];
  Row 0x2f83f 0x2f83f Mapped [0x5468];
  Row 0x2f840 0x2f840 Mapped [0x54a2];
  Row 0x2f841 0x2f841 Mapped [0x54f6];
  Row 0x2f842 0x2f842 Mapped [0x5510];
  Row 0x2f843 0x2f843 Mapped [0x5553];
  Row 0x2f844 0x2f844 Mapped [0x5563];
  Row 0x2f845 0x2f846 Mapped [0x5584];
  Row 0x2f847 0x2f847 Mapped [0x5599];
  Row 0x2f848 0x2f848 Mapped [0x55ab];
  Row 0x2f849 0x2f849 Mapped [0x55b3];
  Row 0x2f84a 0x2f84a Mapped [0x55c2];
  Row 0x2f84b 0x2f84b Mapped [0x5716];
  Row 0x2f84c 0x2f84c Mapped [0x5606];
  Row 0x2f84d 0x2f84d Mapped [0x5717];
  Row 0x2f84e 0x2f84e Mapped [0x5651];
  Row 0x2f84f 0x2f84f Mapped [0x5674];
  Row 0x2f850 0x2f850 Mapped [0x5207];
  Row 0x2f851 0x2f851 Mapped [0x58ee];
  Row 0x2f852 0x2f852 Mapped [0x57ce];
  Row 0x2f853 0x2f853 Mapped [0x57f4];
  Row 0x2f854 0x2f854 Mapped [0x580d];
  Row 0x2f855 0x2f855 Mapped [0x578b];
  Row 0x2f856 0x2f856 Mapped [0x5832];
  Row 0x2f857 0x2f857 Mapped [0x5831];
  Row 0x2f858 0x2f858 Mapped [0x58ac];
  Row 0x2f859 0x2f859 Mapped [0x214e4];
  Row 0x2f85a 0x2f85a Mapped [0x58f2];
  Row 0x2f85b 0x2f85b Mapped [0x58f7];
  Row 0x2f85c 0x2f85c Mapped [0x5906];
  Row 0x2f85d 0x2f85d Mapped [0x591a];
  Row 0x2f85e 0x2f85e Mapped [0x5922];
  Row 0x2f85f 0x2f85f Mapped [0x5962];
  Row 0x2f860 0x2f860 Mapped [0x216a8];
  Row 0x2f861 0x2f861 Mapped [0x216ea];
  Row 0x2f862 0x2f862 Mapped [0x59ec];
  Row 0x2f863 0x2f863 Mapped [0x5a1b];
  Row 0x2f864 0x2f864 Mapped [0x5a27];
  Row 0x2f865 0x2f865 Mapped [0x59d8];
  Row 0x2f866 0x2f866 Mapped [0x5a66];
  Row 0x2f867 0x2f867 Mapped [0x36ee];
  Row 0x2f868 0x2f868 Disallowed [];
  Row 0x2f869 0x2f869 Mapped [0x5b08];
  Row 0x2f86a 0x2f86b Mapped [0x5b3e];
  Row 0x2f86c 0x2f86c Mapped [0x219c8];
  Row 0x2f86d 0x2f86d Mapped [0x5bc3];
  Row 0x2f86e 0x2f86e Mapped [0x5bd8];
  Row 0x2f86f 0x2f86f Mapped [0x5be7];
  Row 0x2f870 0x2f870 Mapped [0x5bf3];
  Row 0x2f871 0x2f871 Mapped [0x21b18];
  Row 0x2f872 0x2f872 Mapped [0x5bff];
  Row 0x2f873 0x2f873 Mapped [0x5c06];
  Row 0x2f874 0x2f874 Disallowed [];
  Row 0x2f875 0x2f875 Mapped [0x5c22];
  Row 0x2f876 0x2f876 Mapped [0x3781];
  Row 0x2f877 0x2f877 Mapped [0x5c60];
  Row 0x2f878 0x2f878 Mapped [0x5c6e];
  Row 0x2f879 0x2f879 Mapped [0x5cc0];
  Row 0x2f87a 0x2f87a Mapped [0x5c8d];
  Row 0x2f87b 0x2f87b Mapped [0x21de4];
  Row 0x2f87c 0x2f87c Mapped [0x5d43];
  Row 0x2f87d 0x2f87d Mapped [0x21de6];
  Row 0x2f87e 0x2f87e Mapped [0x5d6e];
  Row 0x2f87f 0x2f87f Mapped [0x5d6b];
  Row 0x2f880 0x2f880 Mapped [0x5d7c];
  Row 0x2f881 0x2f881 Mapped [0x5de1];
  Row 0x2f882 0x2f882 Mapped [0x5de2];
  Row 0x2f883 0x2f883 Mapped [0x382f];
  Row 0x2f884 0x2f884 Mapped [0x5dfd];
  Row 0x2f885 0x2f885 Mapped [0x5e28];
  Row 0x2f886 0x2f886 Mapped [0x5e3d];
  Row 0x2f887 0x2f887 Mapped [0x5e69];
  Row 0x2f888 0x2f888 Mapped [0x3862];
  Row 0x2f889 0x2f889 Mapped [0x22183];
  Row 0x2f88a 0x2f88a Mapped [0x387c];
  Row 0x2f88b 0x2f88b Mapped [0x5eb0];
  Row 0x2f88c 0x2f88c Mapped [0x5eb3];
  Row 0x2f88d 0x2f88d Mapped [0x5eb6];
  Row 0x2f88e 0x2f88e Mapped [0x5eca];
  Row 0x2f88f 0x2f88f Mapped [0x2a392];
  Row 0x2f890 0x2f890 Mapped [0x5efe];
  Row 0x2f891 0x2f892 Mapped [0x22331];
  Row 0x2f893 0x2f893 Mapped [0x8201];
  Row 0x2f894 0x2f895 Mapped [0x5f22];
  Row 0x2f896 0x2f896 Mapped [0x38c7];
  Row 0x2f897 0x2f897 Mapped [0x232b8];
  Row 0x2f898 0x2f898 Mapped [0x261da];
  Row 0x2f899 0x2f899 Mapped [0x5f62];
  Row 0x2f89a 0x2f89a Mapped [0x5f6b];
  Row 0x2f89b 0x2f89b Mapped [0x38e3];
  Row 0x2f89c 0x2f89c Mapped [0x5f9a];
  Row 0x2f89d 0x2f89d Mapped [0x5fcd];
  Row 0x2f89e 0x2f89e Mapped [0x5fd7];
  Row 0x2f89f 0x2f89f Mapped [0x5ff9];
  Row 0x2f8a0 0x2f8a0 Mapped [0x6081];
  Row 0x2f8a1 0x2f8a1 Mapped [0x393a]].
Definition idna_rows_83 : list row := [
  Row 0x2f8a2 0x2f8a2 Mapped [0x391c];
  Row 0x2f8a3 0x2f8a3 Mapped [0x6094];
  Row 0x2f8a4 0x2f8a4 Mapped [0x226d4];
  Row 0x2f8a5 0x2f8a5 Mapped [0x60c7];
  Row 0x2f8a6 0x2f8a6 Mapped [0x6148];
  Row 0x2f8a7 0x2f8a7 Mapped [0x614c];
  Row 0x2f8a8 0x2f8a8 Mapped [0x614e];
  Row 0x2f8a9 0x2f8a9 Mapped [0x614c];
  Row 0x2f8aa 0x2f8aa Mapped [0x617a];
  Row 0x2f8ab 0x2f8ab Mapped [0x618e];
  Row 0x2f8ac 0x2f8ac Mapped [0x61b2];
  Row 0x2f8ad 0x2f8ad Mapped [0x61a4];
  Row 0x2f8ae 0x2f8ae Mapped [0x61af];
  Row 0x2f8af 0x2f8af Mapped [0x61de];
  Row 0x2f8b0 0x2f8b0 Mapped [0x61f2];
  Row 0x2f8b1 0x2f8b1 Mapped [0x61f6];
  Row 0x2f8b2 0x2f8b2 Mapped [0x6210];
  Row 0x2f8b3 0x2f8b3 Mapped [0x621b];
  Row 0x2f8b4 0x2f8b4 Mapped [0x625d];
  Row 0x2f8b5 0x2f8b5 Mapped [0x62b1];
  Row 0x2f8b6 0x2f8b6 Mapped [0x62d4];
  Row 0x2f8b7 0x2f8b7 Mapped [0x6350];
  Row 0x2f8b8 0x2f8b8 Mapped [0x22b0c];
  Row 0x2f8b9 0x2f8b9 Mapped [0x633d];
  Row 0x2f8ba 0x2f8ba Mapped [0x62fc];
  Row 0x2f8bb 0x2f8bb Mapped [0x6368];
  Row 0x2f8bc 0x2f8bc Mapped [0x6383];
  Row 0x2f8bd 0x2f8bd Mapped [0x63e4];
  Row 0x2f8be 0x2f8be Mapped [0x22bf1];
  Row 0x2f8bf 0x2f8bf Mapped [0x6422];
  Row 0x2f8c0 0x2f8c0 Mapped [0x63c5];
  Row 0x2f8c1 0x2f8c1 Mapped [0x63a9];
  Row 0x2f8c2 0x2f8c2 Mapped [0x3a2e];
  Row 0x2f8c3 0x2f8c3 Mapped [0x6469];
  Row 0x2f8c4 0x2f8c4 Mapped [0x647e];
  Row 0x2f8c5 0x2f8c5 Mapped [0x649d];
  Row 0x2f8c6 0x2f8c6 Mapped [0x6477];
  Row 0x2f8c7 0x2f8c7 Mapped [0x3a6c];
  Row 0x2f8c8 0x2f8c8 Mapped [0x654f];
  Row 0x2f8c9 0x2f8c9 Mapped [0x656c];
  Row 0x2f8ca 0x2f8ca Mapped [0x2300a];
  Row 0x2f8cb 0x2f8cb Mapped [0x65e3];
  Row 0x2f8cc 0x2f8cc Mapped [0x66f8];
  Row 0x2f8cd 0x2f8cd Mapped [0x6649];
  Row 0x2f8ce 0x2f8ce Mapped [0x3b19];
  Row 0x2f8cf 0x2f8cf Mapped [0x6691];
  Row 0x2f8d0 0x2f8d0 Mapped [0x3b08];
  Row 0x2f8d1 0x2f8d1 Mapped [0x3ae4];
  Row 0x2f8d2 0x2f8d2 Mapped [0x5192];
  Row 0x2f8d3 0x2f8d3 Mapped [0x5195];
  Row 0x2f8d4 0x2f8d4 Mapped [0x6700];
  Row 0x2f8d5 0x2f8d5 Mapped [0x669c];
  Row 0x2f8d6 0x2f8d6 Mapped [0x80ad];
  Row 0x2f8d7 0x2f8d7 Mapped [0x43d9];
  Row 0x2f8d8 0x2f8d8 Mapped [0x6717];
  Row 0x2f8d9 0x2f8d9 Mapped [0x671b];
  Row 0x2f8da 0x2f8da Mapped [0x6721];
  Row 0x2f8db 0x2f8db Mapped [0x675e];
  Row 0x2f8dc 0x2f8dc Mapped [0x6753];
  Row 0x2f8dd 0x2f8dd Mapped [0x233c3];
  Row 0x2f8de 0x2f8de Mapped [0x3b49];
  Row 0x2f8df 0x2f8df Mapped [0x67fa];
  Row 0x2f8e0 0x2f8e0 Mapped [0x6785];
  Row 0x2f8e1 0x2f8e1 Mapped [0x6852];
  Row 0x2f8e2 0x2f8e2 Mapped [0x6885];
  Row 0x2f8e3 0x2f8e3 Mapped [0x2346d];
  Row 0x2f8e4 0x2f8e4 Mapped [0x688e];
  Row 0x2f8e5 0x2f8e5 Mapped [0x681f];
  Row 0x2f8e6 0x2f8e6 Mapped [0x6914];
  Row 0x2f8e7 0x2f8e7 Mapped [0x3b9d];
  Row 0x2f8e8 0x2f8e8 Mapped [0x6942];
  Row 0x2f8e9 0x2f8e9 Mapped [0x69a3];
  Row 0x2f8ea 0x2f8ea Mapped [0x69ea];
  Row 0x2f8eb 0x2f8eb Mapped [0x6aa8];
  Row 0x2f8ec 0x2f8ec Mapped [0x236a3];
  Row 0x2f8ed 0x2f8ed Mapped [0x6adb];
  Row 0x2f8ee 0x2f8ee Mapped [0x3c18];
  Row 0x2f8ef 0x2f8ef Mapped [0x6b21];
  Row 0x2f8f0 0x2f8f0 Mapped [0x238a7];
  Row 0x2f8f1 0x2f8f1 Mapped [0x6b54];
  Row 0x2f8f2 0x2f8f2 Mapped [0x3c4e];
  Row 0x2f8f3 0x2f8f3 Mapped [0x6b72];
  Row 0x2f8f4 0x2f8f4 Mapped [0x6b9f];
  Row 0x2f8f5 0x2f8f5 Mapped [0x6bba];
  Row 0x2f8f6 0x2f8f6 Mapped [0x6bbb];
  Row 0x2f8f7 0x2f8f7 Mapped [0x23a8d];
  Row 0x2f8f8 0x2f8f8 Mapped [0x21d0b];
  Row 0x2f8f9 0x2f8f9 Mapped [0x23afa];
  Row 0x2f8fa 0x2f8fa Mapped [0x6c4e];
  Row 0x2f8fb 0x2f8fb Mapped [0x23cbc];
  Row 0x2f8fc 0x2f8fc Mapped [0x6cbf];
  Row 0x2f8fd 0x2f8fd Mapped [0x6ccd];
  Row 0x2f8fe 0x2f8fe Mapped [0x6c67];
  Row 0x2f8ff 0x2f8ff Mapped [0x6d16];
  Row 0x2f900 0x2f900 Mapped [0x6d3e];
  Row 0x2f901 0x2f901 Mapped [0x6d77];
  Row 0x2f902 0x2f902 Mapped [0x6d41];
  Row 0x2f903 0x2f903 Mapped [0x6d69];
  Row 0x2f904 0x2f904 Mapped [0x6d78];
  Row 0x2f905 0x2f905 Mapped [0x6d85]].
Definition idna_rows_84 : list row := [
  Row 0x2f906 0x2f906 Mapped [0x23d1e];
  Row 0x2f907 0x2f907 Mapped [0x6d34];
  Row 0x2f908 0x2f908 Mapped [0x6e2f];
  Row 0x2f909 0x2f909 Mapped [0x6e6e];
  Row 0x2f90a 0x2f90a Mapped [0x3d33];
  Row 0x2f90b 0x2f90b Mapped [0x6ecb];
  Row 0x2f90c 0x2f90c Mapped [0x6ec7];
  Row 0x2f90d 0x2f90d Mapped [0x23ed1];
  Row 0x2f90e 0x2f90e Mapped [0x6df9];
  Row 0x2f90f 0x2f90f Mapped [0x6f6e];
  Row 0x2f910 0x2f910 Mapped [0x23f5e];
  Row 0x2f911 0x2f911 Mapped [0x23f8e];
  Row 0x2f912 0x2f912 Mapped [0x6fc6];
  Row 0x2f913 0x2f913 Mapped [0x7039];
  Row 0x2f914 0x2f914 Mapped [0x701e];
  Row 0x2f915 0x2f915 Mapped [0x701b];
  Row 0x2f916 0x2f916 Mapped [0x3d96];
  Row 0x2f917 0x2f917 Mapped [0x704a];
  Row 0x2f918 0x2f918 Mapped [0x707d];
  Row 0x2f919 0x2f919 Mapped [0x7077];
  Row 0x2f91a 0x2f91a Mapped [0x70ad];
  Row 0x2f91b 0x2f91b Mapped [0x20525];
  Row 0x2f91c 0x2f91c Mapped [0x7145];
  Row 0x2f91d 0x2f91d Mapped [0x24263];
  Row 0x2f91e 0x2f91e Mapped [0x719c];
  Row 0x2f91f 0x2f91f Disallowed [];
  Row 0x2f920 0x2f920 Mapped [0x7228];
  Row 0x2f921 0x2f921 Mapped [0x7235];
  Row 0x2f922 0x2f922 Mapped [0x7250];
  Row 0x2f923 0x2f923 Mapped [0x24608];
  Row 0x2f924 0x2f924 Mapped [0x7280];
  Row 0x2f925 0x2f925 Mapped [0x7295];
  Row 0x2f926 0x2f926 Mapped [0x24735];
  Row 0x2f927 0x2f927 Mapped [0x24814];
  Row 0x2f928 0x2f928 Mapped [0x737a];
  Row 0x2f929 0x2f929 Mapped [0x738b];
  Row 0x2f92a 0x2f92a Mapped [0x3eac];
  Row 0x2f92b 0x2f92b Mapped [0x73a5];
  Row 0x2f92c 0x2f92d Mapped [0x3eb8];
  Row 0x2f92e 0x2f92e Mapped [0x7447];
  Row 0x2f92f 0x2f92f Mapped [0x745c];
  Row 0x2f930 0x2f930 Mapped [0x7471];
  Row 0x2f931 0x2f931 Mapped [0x7485];
  Row 0x2f932 0x2f932 Mapped [0x74ca];
  Row 0x2f933 0x2f933 Mapped [0x3f1b];
  Row 0x2f934 0x2f934 Mapped [0x7524];
  Row 0x2f935 0x2f935 Mapped [0x24c36];
  Row 0x2f936 0x2f936 Mapped [0x753e];
  Row 0x2f937 0x2f937 Mapped [0x24c92];
  Row 0x2f938 0x2f938 Mapped [0x7570];
  Row 0x2f939 0x2f939 Mapped [0x2219f];
  Row 0x2f93a 0x2f93a Mapped [0x7610];
  Row 0x2f93b 0x2f93b Mapped [0x24fa1];
  Row 0x2f93c 0x2f93c Mapped [0x24fb8];
  Row 0x2f93d 0x2f93d Mapped [0x25044];
  Row 0x2f93e 0x2f93e Mapped [0x3ffc];
  Row 0x2f93f 0x2f93f Mapped [0x4008];
  Row 0x2f940 0x2f940 Mapped [0x76f4];
  Row 0x2f941 0x2f941 Mapped [0x250f3];
  Row 0x2f942 0x2f942 Mapped [0x250f2];
  Row 0x2f943 0x2f943 Mapped [0x25119];
  Row 0x2f944 0x2f944 Mapped [0x25133];
  Row 0x2f945 0x2f945 Mapped [0x771e];
  Row 0x2f946 0x2f947 Mapped [0x771f];
  Row 0x2f948 0x2f948 Mapped [0x774a];
  Row 0x2f949 0x2f949 Mapped [0x4039];
  Row 0x2f94a 0x2f94a Mapped [0x778b];
  Row 0x2f94b 0x2f94b Mapped [0x4046];
  Row 0x2f94c 0x2f94c Mapped [0x4096];
  Row 0x2f94d 0x2f94d Mapped [0x2541d];
  Row 0x2f94e 0x2f94e Mapped [0x784e];
  Row 0x2f94f 0x2f94f Mapped [0x788c];
  Row 0x2f950 0x2f950 Mapped [0x78cc];
  Row 0x2f951 0x2f951 Mapped [0x40e3];
  Row 0x2f952 0x2f952 Mapped [0x25626];
  Row 0x2f953 0x2f953 Mapped [0x7956];
  Row 0x2f954 0x2f954 Mapped [0x2569a];
  Row 0x2f955 0x2f955 Mapped [0x256c5];
  Row 0x2f956 0x2f956 Mapped [0x798f];
  Row 0x2f957 0x2f957 Mapped [0x79eb];
  Row 0x2f958 0x2f958 Mapped [0x412f];
  Row 0x2f959 0x2f959 Mapped [0x7a40];
  Row 0x2f95a 0x2f95a Mapped [0x7a4a];
  Row 0x2f95b 0x2f95b Mapped [0x7a4f];
  Row 0x2f95c 0x2f95c Mapped [0x2597c];
  Row 0x2f95d 0x2f95e Mapped [0x25aa7];
  Row 0x2f95f 0x2f95f Disallowed [];
  Row 0x2f960 0x2f960 Mapped [0x4202];
  Row 0x2f961 0x2f961 Mapped [0x25bab];
  Row 0x2f962 0x2f962 Mapped [0x7bc6];
  Row 0x2f963 0x2f963 Mapped [0x7bc9];
  Row 0x2f964 0x2f964 Mapped [0x4227];
  Row 0x2f965 0x2f965 Mapped [0x25c80];
  Row 0x2f966 0x2f966 Mapped [0x7cd2];
  Row 0x2f967 0x2f967 Mapped [0x42a0];
  Row 0x2f968 0x2f968 Mapped [0x7ce8];
  Row 0x2f969 0x2f969 Mapped [0x7ce3];
  Row 0x2f96a 0x2f96a Mapped [0x7d00];
  Row 0x2f96b 0x2f96b Mapped [0x25f86];
  Row 0x2f96c 0x2f96c Mapped [0x7d63]].
Definition idna_rows_85 : list row := [
  Row 0x2f96d 0x2f96d Mapped [0x4301];
  Row 0x2f96e 0x2f96e Mapped [0x7dc7];
  Row 0x2f96f 0x2f96f Mapped [0x7e02];
  Row 0x2f970 0x2f970 Mapped [0x7e45];
  Row 0x2f971 0x2f971 Mapped [0x4334];
  Row 0x2f972 0x2f972 Mapped [0x26228];
  Row 0x2f973 0x2f973 Mapped [0x26247];
  Row 0x2f974 0x2f974 Mapped [0x4359];
  Row 0x2f975 0x2f975 Mapped [0x262d9];
  Row 0x2f976 0x2f976 Mapped [0x7f7a];
  Row 0x2f977 0x2f977 Mapped [0x2633e];
  Row 0x2f978 0x2f978 Mapped [0x7f95];
  Row 0x2f979 0x2f979 Mapped [0x7ffa];
  Row 0x2f97a 0x2f97a Mapped [0x8005];
  Row 0x2f97b 0x2f97b Mapped [0x264da];
  Row 0x2f97c 0x2f97c Mapped [0x26523];
  Row 0x2f97d 0x2f97d Mapped [0x8060];
  Row 0x2f97e 0x2f97e Mapped [0x265a8];
  Row 0x2f97f 0x2f97f Mapped [0x8070];
  Row 0x2f980 0x2f980 Mapped [0x2335f];
  Row 0x2f981 0x2f981 Mapped [0x43d5];
  Row 0x2f982 0x2f982 Mapped [0x80b2];
  Row 0x2f983 0x2f983 Mapped [0x8103];
  Row 0x2f984 0x2f984 Mapped [0x440b];
  Row 0x2f985 0x2f985 Mapped [0x813e];
  Row 0x2f986 0x2f986 Mapped [0x5ab5];
  Row 0x2f987 0x2f987 Mapped [0x267a7];
  Row 0x2f988 0x2f988 Mapped [0x267b5];
  Row 0x2f989 0x2f989 Mapped [0x23393];
  Row 0x2f98a 0x2f98a Mapped [0x2339c];
  Row 0x2f98b 0x2f98b Mapped [0x8201];
  Row 0x2f98c 0x2f98c Mapped [0x8204];
  Row 0x2f98d 0x2f98d Mapped [0x8f9e];
  Row 0x2f98e 0x2f98e Mapped [0x446b];
  Row 0x2f98f 0x2f98f Mapped [0x8291];
  Row 0x2f990 0x2f990 Mapped [0x828b];
  Row 0x2f991 0x2f991 Mapped [0x829d];
  Row 0x2f992 0x2f992 Mapped [0x52b3];
  Row 0x2f993 0x2f993 Mapped [0x82b1];
  Row 0x2f994 0x2f994 Mapped [0x82b3];
  Row 0x2f995 0x2f995 Mapped [0x82bd];
  Row 0x2f996 0x2f996 Mapped [0x82e6];
  Row 0x2f997 0x2f997 Mapped [0x26b3c];
  Row 0x2f998 0x2f998 Mapped [0x82e5];
  Row 0x2f999 0x2f999 Mapped [0x831d];
  Row 0x2f99a 0x2f99a Mapped [0x8363];
  Row 0x2f99b 0x2f99b Mapped [0x83ad];
  Row 0x2f99c 0x2f99c Mapped [0x8323];
  Row 0x2f99d 0x2f99d Mapped [0x83bd];
  Row 0x2f99e 0x2f99e Mapped [0x83e7];
  Row 0x2f99f 0x2f99f Mapped [0x8457];
  Row 0x2f9a0 0x2f9a0 Mapped [0x8353];
  Row 0x2f9a1 0x2f9a1 Mapped [0x83ca];
  Row 0x2f9a2 0x2f9a2 Mapped [0x83cc];
  Row 0x2f9a3 0x2f9a3 Mapped [0x83dc];
  Row 0x2f9a4 0x2f9a4 Mapped [0x26c36];
  Row 0x2f9a5 0x2f9a5 Mapped [0x26d6b];
  Row 0x2f9a6 0x2f9a6 Mapped [0x26cd5];
  Row 0x2f9a7 0x2f9a7 Mapped [0x452b];
  Row 0x2f9a8 0x2f9a8 Mapped [0x84f1];
  Row 0x2f9a9 0x2f9a9 Mapped [0x84f3];
  Row 0x2f9aa 0x2f9aa Mapped [0x8516];
  Row 0x2f9ab 0x2f9ab Mapped [0x273ca];
  Row 0x2f9ac 0x2f9ac Mapped [0x8564];
  Row 0x2f9ad 0x2f9ad Mapped [0x26f2c];
  Row 0x2f9ae 0x2f9ae Mapped [0x455d];
  Row 0x2f9af 0x2f9af Mapped [0x4561];
  Row 0x2f9b0 0x2f9b0 Mapped [0x26fb1];
  Row 0x2f9b1 0x2f9b1 Mapped [0x270d2];
  Row 0x2f9b2 0x2f9b2 Mapped [0x456b];
  Row 0x2f9b3 0x2f9b3 Mapped [0x8650];
  Row 0x2f9b4 0x2f9b4 Mapped [0x865c];
  Row 0x2f9b5 0x2f9b5 Mapped [0x8667];
  Row 0x2f9b6 0x2f9b6 Mapped [0x8669];
  Row 0x2f9b7 0x2f9b7 Mapped [0x86a9];
  Row 0x2f9b8 0x2f9b8 Mapped [0x8688];
  Row 0x2f9b9 0x2f9b9 Mapped [0x870e];
  Row 0x2f9ba 0x2f9ba Mapped [0x86e2];
  Row 0x2f9bb 0x2f9bb Mapped [0x8779];
  Row 0x2f9bc 0x2f9bc Mapped [0x8728];
  Row 0x2f9bd 0x2f9bd Mapped [0x876b];
  Row 0x2f9be 0x2f9be Mapped [0x8786];
  Row 0x2f9bf 0x2f9bf Disallowed [];
  Row 0x2f9c0 0x2f9c0 Mapped [0x87e1];
  Row 0x2f9c1 0x2f9c1 Mapped [0x8801];
  Row 0x2f9c2 0x2f9c2 Mapped [0x45f9];
  Row 0x2f9c3 0x2f9c3 Mapped [0x8860];
  Row 0x2f9c4 0x2f9c4 Mapped [0x8863];
  Row 0x2f9c5 0x2f9c5 Mapped [0x27667];
  Row 0x2f9c6 0x2f9c6 Mapped [0x88d7];
  Row 0x2f9c7 0x2f9c7 Mapped [0x88de];
  Row 0x2f9c8 0x2f9c8 Mapped [0x4635];
  Row 0x2f9c9 0x2f9c9 Mapped [0x88fa];
  Row 0x2f9ca 0x2f9ca Mapped [0x34bb];
  Row 0x2f9cb 0x2f9cb Mapped [0x278ae];
  Row 0x2f9cc 0x2f9cc Mapped [0x27966];
  Row 0x2f9cd 0x2f9cd Mapped [0x46be];
  Row 0x2f9ce 0x2f9ce Mapped [0x46c7];
  Row 0x2f9cf 0x2f9cf Mapped [0x8aa0];
  Row 0x2f9d0 0x2f9d0 Mapped [0x8aed]].
Definition idna_rows_86 : list row := [
  Row 0x2f9d1 0x2f9d1 Mapped [0x8b8a];
  Row 0x2f9d2 0x2f9d2 Mapped [0x8c55];
  Row 0x2f9d3 0x2f9d3 Mapped [0x27ca8];
  Row 0x2f9d4 0x2f9d4 Mapped [0x8cab];
  Row 0x2f9d5 0x2f9d5 Mapped [0x8cc1];
  Row 0x2f9d6 0x2f9d6 Mapped [0x8d1b];
  Row 0x2f9d7 0x2f9d7 Mapped [0x8d77];
  Row 0x2f9d8 0x2f9d8 Mapped [0x27f2f];
  Row 0x2f9d9 0x2f9d9 Mapped [0x20804];
  Row 0x2f9da 0x2f9da Mapped [0x8dcb];
  Row 0x2f9db 0x2f9db Mapped [0x8dbc];
  Row 0x2f9dc 0x2f9dc Mapped [0x8df0];
  Row 0x2f9dd 0x2f9dd Mapped [0x208de];
  Row 0x2f9de 0x2f9de Mapped [0x8ed4];
  Row 0x2f9df 0x2f9df Mapped [0x8f38];
  Row 0x2f9e0 0x2f9e0 Mapped [0x285d2];
  Row 0x2f9e1 0x2f9e1 Mapped [0x285ed];
  Row 0x2f9e2 0x2f9e2 Mapped [0x9094];
  Row 0x2f9e3 0x2f9e3 Mapped [0x90f1];
  Row 0x2f9e4 0x2f9e4 Mapped [0x9111];
  Row 0x2f9e5 0x2f9e5 Mapped [0x2872e];
  Row 0x2f9e6 0x2f9e6 Mapped [0x911b];
  Row 0x2f9e7 0x2f9e7 Mapped [0x9238];
  Row 0x2f9e8 0x2f9e8 Mapped [0x92d7];
  Row 0x2f9e9 0x2f9e9 Mapped [0x92d8];
  Row 0x2f9ea 0x2f9ea Mapped [0x927c];
  Row 0x2f9eb 0x2f9eb Mapped [0x93f9];
  Row 0x2f9ec 0x2f9ec Mapped [0x9415];
  Row 0x2f9ed 0x2f9ed Mapped [0x28bfa];
  Row 0x2f9ee 0x2f9ee Mapped [0x958b];
  Row 0x2f9ef 0x2f9ef Mapped [0x4995];
  Row 0x2f9f0 0x2f9f0 Mapped [0x95b7];
  Row 0x2f9f1 0x2f9f1 Mapped [0x28d77];
  Row 0x2f9f2 0x2f9f2 Mapped [0x49e6];
  Row 0x2f9f3 0x2f9f3 Mapped [0x96c3];
  Row 0x2f9f4 0x2f9f4 Mapped [0x5db2];
  Row 0x2f9f5 0x2f9f5 Mapped [0x9723];
  Row 0x2f9f6 0x2f9f6 Mapped [0x29145];
  Row 0x2f9f7 0x2f9f7 Mapped [0x2921a];
  Row 0x2f9f8 0x2f9f8 Mapped [0x4a6e];
  Row 0x2f9f9 0x2f9f9 Mapped [0x4a76];
  Row 0x2f9fa 0x2f9fa Mapped [0x97e0];
  Row 0x2f9fb 0x2f9fb Mapped [0x2940a];
  Row 0x2f9fc 0x2f9fc Mapped [0x4ab2];
  Row 0x2f9fd 0x2f9fd Mapped [0x29496];
  Row 0x2f9fe 0x2f9ff Mapped [0x980b];
  Row 0x2fa00 0x2fa00 Mapped [0x9829];
  Row 0x2fa01 0x2fa01 Mapped [0x295b6];
  Row 0x2fa02 0x2fa02 Mapped [0x98e2];
  Row 0x2fa03 0x2fa03 Mapped [0x4b33];
  Row 0x2fa04 0x2fa04 Mapped [0x9929];
  Row 0x2fa05 0x2fa05 Mapped [0x99a7];
  Row 0x2fa06 0x2fa06 Mapped [0x99c2];
  Row 0x2fa07 0x2fa07 Mapped [0x99fe];
  Row 0x2fa08 0x2fa08 Mapped [0x4bce];
  Row 0x2fa09 0x2fa09 Mapped [0x29b30];
  Row 0x2fa0a 0x2fa0a Mapped [0x9b12];
  Row 0x2fa0b 0x2fa0b Mapped [0x9c40];
  Row 0x2fa0c 0x2fa0c Mapped [0x9cfd];
  Row 0x2fa0d 0x2fa0d Mapped [0x4cce];
  Row 0x2fa0e 0x2fa0e Mapped [0x4ced];
  Row 0x2fa0f 0x2fa0f Mapped [0x9d67];
  Row 0x2fa10 0x2fa10 Mapped [0x2a0ce];
  Row 0x2fa11 0x2fa11 Mapped [0x4cf8];
  Row 0x2fa12 0x2fa12 Mapped [0x2a105];
  Row 0x2fa13 0x2fa13 Mapped [0x2a20e];
  Row 0x2fa14 0x2fa14 Mapped [0x2a291];
  Row 0x2fa15 0x2fa15 Mapped [0x9ebb];
  Row 0x2fa16 0x2fa16 Mapped [0x4d56];
  Row 0x2fa17 0x2fa17 Mapped [0x9ef9];
  Row 0x2fa18 0x2fa18 Mapped [0x9efe];
  Row 0x2fa19 0x2fa19 Mapped [0x9f05];
  Row 0x2fa1a 0x2fa1a Mapped [0x9f0f];
  Row 0x2fa1b 0x2fa1b Mapped [0x9f16];
  Row 0x2fa1c 0x2fa1c Mapped [0x9f3b];
  Row 0x2fa1d 0x2fa1d Mapped [0x2a600];
  Row 0x2fa1e 0x2fffd Disallowed [];
  Row 0x2fffe 0x2ffff Disallowed [];
  Row 0x30000 0x3134a Valid [];
  Row 0x3134b 0x3fffd Disallowed [];
  Row 0x3fffe 0x3ffff Disallowed [];
  Row 0x40000 0x4fffd Disallowed [];
  Row 0x4fffe 0x4ffff Disallowed [];
  Row 0x50000 0x5fffd Disallowed [];
  Row 0x5fffe 0x5ffff Disallowed [];
  Row 0x60000 0x6fffd Disallowed [];
  Row 0x6fffe 0x6ffff Disallowed [];
  Row 0x70000 0x7fffd Disallowed [];
  Row 0x7fffe 0x7ffff Disallowed [];
  Row 0x80000 0x8fffd Disallowed [];
  Row 0x8fffe 0x8ffff Disallowed [];
  Row 0x90000 0x9fffd Disallowed [];
  Row 0x9fffe 0x9ffff Disallowed [];
  Row 0xa0000 0xafffd Disallowed [];
  Row 0xafffe 0xaffff Disallowed [];
  Row 0xb0000 0xbfffd Disallowed [];
  Row 0xbfffe 0xbffff Disallowed [];
  Row 0xc0000 0xcfffd Disallowed [];
  Row 0xcfffe 0xcffff Disallowed [];
  Row 0xd0000 0xdfffd Disallowed []].
Definition idna_rows_87 : list row := [
  Row 0xdfffe 0xdffff Disallowed [];
  Row 0xe0000 0xe0000 Disallowed [];
  Row 0xe0001 0xe0001 Disallowed [];
  Row 0xe0002 0xe001f Disallowed [];
  Row 0xe0020 0xe007f Disallowed [];
  Row 0xe0080 0xe00ff Disallowed [];
  Row 0xe0100 0xe01ef Ignored [];
  Row 0xe01f0 0xefffd Disallowed [];
  Row 0xefffe 0xeffff Disallowed [];
  Row 0xf0000 0xffffd Disallowed [];
  Row 0xffffe 0xfffff Disallowed [];
  Row 0x100000 0x10fffd Disallowed [];
  Row 0x10fffe 0x10ffff Disallowed []].
Definition idna_rows : list row :=
  concat [idna_rows_0; idna_rows_1; idna_rows_2; idna_rows_3; idna_rows_4; idna_rows_5; idna_rows_6; idna_rows_7; idna_rows_8; idna_rows_9; idna_rows_10; idna_rows_11; idna_rows_12; idna_rows_13; idna_rows_14; idna_rows_15; idna_rows_16; idna_rows_17; idna_rows_18; idna_rows_19; idna_rows_20; idna_rows_21; idna_rows_22; idna_rows_23; idna_rows_24; idna_rows_25; idna_rows_26; idna_rows_27; idna_rows_28; idna_rows_29; idna_rows_30; idna_rows_31; idna_rows_32; idna_rows_33; idna_rows_34; idna_rows_35; idna_rows_36; idna_rows_37; idna_rows_38; idna_rows_39; idna_rows_40; idna_rows_41; idna_rows_42; idna_rows_43; idna_rows_44; idna_rows_45; idna_rows_46; idna_rows_47; idna_rows_48; idna_rows_49; idna_rows_50; idna_rows_51; idna_rows_52; idna_rows_53; idna_rows_54; idna_rows_55; idna_rows_56; idna_rows_57; idna_rows_58; idna_rows_59; idna_rows_60; idna_rows_61; idna_rows_62; idna_rows_63; idna_rows_64; idna_rows_65; idna_rows_66; idna_rows_67; idna_rows_68; idna_rows_69; idna_rows_70; idna_rows_71; idna_rows_72; idna_rows_73; idna_rows_74; idna_rows_75; idna_rows_76; idna_rows_77; idna_rows_78; idna_rows_79; idna_rows_80; idna_rows_81; idna_rows_82; idna_rows_83; idna_rows_84; idna_rows_85; idna_rows_86; idna_rows_87].
