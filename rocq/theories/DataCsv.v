(** Rows of /repo/lib/idna-tables-properties.csv (generated by tools/mkdata.py). *)
From Verif Require Import Base DataTypes.
Definition csv_rows_0 : list prow := [
  Prow 0x0 0x2c DISALLOWED;
  Prow 0x2d 0x2d PVALID;
  Prow 0x2e 0x2f DISALLOWED;
  Prow 0x30 0x39 PVALID;
  Prow 0x3a 0x60 DISALLOWED;
  Prow 0x61 0x7a PVALID;
  Prow 0x7b 0xb6 DISALLOWED;
  Prow 0xb7 0xb7 CONTEXTO;
  Prow 0xb8 0xde DISALLOWED;
  Prow 0xdf 0xf6 PVALID;
  Prow 0xf7 0xf7 DISALLOWED;
  Prow 0xf8 0xff PVALID;
  Prow 0x100 0x100 DISALLOWED;
  Prow 0x101 0x101 PVALID;
  Prow 0x102 0x102 DISALLOWED;
  Prow 0x103 0x103 PVALID;
  Prow 0x104 0x104 DISALLOWED;
  Prow 0x105 0x105 PVALID;
  Prow 0x106 0x106 DISALLOWED;
  Prow 0x107 0x107 PVALID;
  Prow 0x108 0x108 DISALLOWED;
  Prow 0x109 0x109 PVALID;
  Prow 0x10a 0x10a DISALLOWED;
  Prow 0x10b 0x10b PVALID;
  Prow 0x10c 0x10c DISALLOWED;
  Prow 0x10d 0x10d PVALID;
  Prow 0x10e 0x10e DISALLOWED;
  Prow 0x10f 0x10f PVALID;
  Prow 0x110 0x110 DISALLOWED;
  Prow 0x111 0x111 PVALID;
  Prow 0x112 0x112 DISALLOWED;
  Prow 0x113 0x113 PVALID;
  Prow 0x114 0x114 DISALLOWED;
  Prow 0x115 0x115 PVALID;
  Prow 0x116 0x116 DISALLOWED;
  Prow 0x117 0x117 PVALID;
  Prow 0x118 0x118 DISALLOWED;
  Prow 0x119 0x119 PVALID;
  Prow 0x11a 0x11a DISALLOWED;
  Prow 0x11b 0x11b PVALID;
  Prow 0x11c 0x11c DISALLOWED;
  Prow 0x11d 0x11d PVALID;
  Prow 0x11e 0x11e DISALLOWED;
  Prow 0x11f 0x11f PVALID;
  Prow 0x120 0x120 DISALLOWED;
  Prow 0x121 0x121 PVALID;
  Prow 0x122 0x122 DISALLOWED;
  Prow 0x123 0x123 PVALID;
  Prow 0x124 0x124 DISALLOWED;
  Prow 0x125 0x125 PVALID;
  Prow 0x126 0x126 DISALLOWED;
  Prow 0x127 0x127 PVALID;
  Prow 0x128 0x128 DISALLOWED;
  Prow 0x129 0x129 PVALID;
  Prow 0x12a 0x12a DISALLOWED;
  Prow 0x12b 0x12b PVALID;
  Prow 0x12c 0x12c DISALLOWED;
  Prow 0x12d 0x12d PVALID;
  Prow 0x12e 0x12e DISALLOWED;
  Prow 0x12f 0x12f PVALID;
  Prow 0x130 0x130 DISALLOWED;
  Prow 0x131 0x131 PVALID;
  Prow 0x132 0x134 DISALLOWED;
  Prow 0x135 0x135 PVALID;
  Prow 0x136 0x136 DISALLOWED;
  Prow 0x137 0x138 PVALID;
  Prow 0x139 0x139 DISALLOWED;
  Prow 0x13a 0x13a PVALID;
  Prow 0x13b 0x13b DISALLOWED;
  Prow 0x13c 0x13c PVALID;
  Prow 0x13d 0x13d DISALLOWED;
  Prow 0x13e 0x13e PVALID;
  Prow 0x13f 0x141 DISALLOWED;
  Prow 0x142 0x142 PVALID;
  Prow 0x143 0x143 DISALLOWED;
  Prow 0x144 0x144 PVALID;
  Prow 0x145 0x145 DISALLOWED;
  Prow 0x146 0x146 PVALID;
  Prow 0x147 0x147 DISALLOWED;
  Prow 0x148 0x148 PVALID;
  Prow 0x149 0x14a DISALLOWED;
  Prow 0x14b 0x14b PVALID;
  Prow 0x14c 0x14c DISALLOWED;
  Prow 0x14d 0x14d PVALID;
  Prow 0x14e 0x14e DISALLOWED;
  Prow 0x14f 0x14f PVALID;
  Prow 0x150 0x150 DISALLOWED;
  Prow 0x151 0x151 PVALID;
  Prow 0x152 0x152 DISALLOWED;
  Prow 0x153 0x153 PVALID;
  Prow 0x154 0x154 DISALLOWED;
  Prow 0x155 0x155 PVALID;
  Prow 0x156 0x156 DISALLOWED;
  Prow 0x157 0x157 PVALID;
  Prow 0x158 0x158 DISALLOWED;
  Prow 0x159 0x159 PVALID;
  Prow 0x15a 0x15a DISALLOWED;
  Prow 0x15b 0x15b PVALID;
  Prow 0x15c 0x15c DISALLOWED;
  Prow 0x15d 0x15d PVALID].
Definition csv_rows_1 : list prow := [
  Prow 0x15e 0x15e DISALLOWED;
  Prow 0x15f 0x15f PVALID;
  Prow 0x160 0x160 DISALLOWED;
  Prow 0x161 0x161 PVALID;
  Prow 0x162 0x162 DISALLOWED;
  Prow 0x163 0x163 PVALID;
  Prow 0x164 0x164 DISALLOWED;
  Prow 0x165 0x165 PVALID;
  Prow 0x166 0x166 DISALLOWED;
  Prow 0x167 0x167 PVALID;
  Prow 0x168 0x168 DISALLOWED;
  Prow 0x169 0x169 PVALID;
  Prow 0x16a 0x16a DISALLOWED;
  Prow 0x16b 0x16b PVALID;
  Prow 0x16c 0x16c DISALLOWED;
  Prow 0x16d 0x16d PVALID;
  Prow 0x16e 0x16e DISALLOWED;
  Prow 0x16f 0x16f PVALID;
  Prow 0x170 0x170 DISALLOWED;
  Prow 0x171 0x171 PVALID;
  Prow 0x172 0x172 DISALLOWED;
  Prow 0x173 0x173 PVALID;
  Prow 0x174 0x174 DISALLOWED;
  Prow 0x175 0x175 PVALID;
  Prow 0x176 0x176 DISALLOWED;
  Prow 0x177 0x177 PVALID;
  Prow 0x178 0x179 DISALLOWED;
  Prow 0x17a 0x17a PVALID;
  Prow 0x17b 0x17b DISALLOWED;
  Prow 0x17c 0x17c PVALID;
  Prow 0x17d 0x17d DISALLOWED;
  Prow 0x17e 0x17e PVALID;
  Prow 0x17f 0x17f DISALLOWED;
  Prow 0x180 0x180 PVALID;
  Prow 0x181 0x182 DISALLOWED;
  Prow 0x183 0x183 PVALID;
  Prow 0x184 0x184 DISALLOWED;
  Prow 0x185 0x185 PVALID;
  Prow 0x186 0x187 DISALLOWED;
  Prow 0x188 0x188 PVALID;
  Prow 0x189 0x18b DISALLOWED;
  Prow 0x18c 0x18d PVALID;
  Prow 0x18e 0x191 DISALLOWED;
  Prow 0x192 0x192 PVALID;
  Prow 0x193 0x194 DISALLOWED;
  Prow 0x195 0x195 PVALID;
  Prow 0x196 0x198 DISALLOWED;
  Prow 0x199 0x19b PVALID;
  Prow 0x19c 0x19d DISALLOWED;
  Prow 0x19e 0x19e PVALID;
  Prow 0x19f 0x1a0 DISALLOWED;
  Prow 0x1a1 0x1a1 PVALID;
  Prow 0x1a2 0x1a2 DISALLOWED;
  Prow 0x1a3 0x1a3 PVALID;
  Prow 0x1a4 0x1a4 DISALLOWED;
  Prow 0x1a5 0x1a5 PVALID;
  Prow 0x1a6 0x1a7 DISALLOWED;
  Prow 0x1a8 0x1a8 PVALID;
  Prow 0x1a9 0x1a9 DISALLOWED;
  Prow 0x1aa 0x1ab PVALID;
  Prow 0x1ac 0x1ac DISALLOWED;
  Prow 0x1ad 0x1ad PVALID;
  Prow 0x1ae 0x1af DISALLOWED;
  Prow 0x1b0 0x1b0 PVALID;
  Prow 0x1b1 0x1b3 DISALLOWED;
  Prow 0x1b4 0x1b4 PVALID;
  Prow 0x1b5 0x1b5 DISALLOWED;
  Prow 0x1b6 0x1b6 PVALID;
  Prow 0x1b7 0x1b8 DISALLOWED;
  Prow 0x1b9 0x1bb PVALID;
  Prow 0x1bc 0x1bc DISALLOWED;
  Prow 0x1bd 0x1c3 PVALID;
  Prow 0x1c4 0x1cd DISALLOWED;
  Prow 0x1ce 0x1ce PVALID;
  Prow 0x1cf 0x1cf DISALLOWED;
  Prow 0x1d0 0x1d0 PVALID;
  Prow 0x1d1 0x1d1 DISALLOWED;
  Prow 0x1d2 0x1d2 PVALID;
  Prow 0x1d3 0x1d3 DISALLOWED;
  Prow 0x1d4 0x1d4 PVALID;
  Prow 0x1d5 0x1d5 DISALLOWED;
  Prow 0x1d6 0x1d6 PVALID;
  Prow 0x1d7 0x1d7 DISALLOWED;
  Prow 0x1d8 0x1d8 PVALID;
  Prow 0x1d9 0x1d9 DISALLOWED;
  Prow 0x1da 0x1da PVALID;
  Prow 0x1db 0x1db DISALLOWED;
  Prow 0x1dc 0x1dd PVALID;
  Prow 0x1de 0x1de DISALLOWED;
  Prow 0x1df 0x1df PVALID;
  Prow 0x1e0 0x1e0 DISALLOWED;
  Prow 0x1e1 0x1e1 PVALID;
  Prow 0x1e2 0x1e2 DISALLOWED;
  Prow 0x1e3 0x1e3 PVALID;
  Prow 0x1e4 0x1e4 DISALLOWED;
  Prow 0x1e5 0x1e5 PVALID;
  Prow 0x1e6 0x1e6 DISALLOWED;
  Prow 0x1e7 0x1e7 PVALID;
  Prow 0x1e8 0x1e8 DISALLOWED;
  Prow 0x1e9 0x1e9 PVALID].
Definition csv_rows_2 : list prow := [
  Prow 0x1ea 0x1ea DISALLOWED;
  Prow 0x1eb 0x1eb PVALID;
  Prow 0x1ec 0x1ec DISALLOWED;
  Prow 0x1ed 0x1ed PVALID;
  Prow 0x1ee 0x1ee DISALLOWED;
  Prow 0x1ef 0x1f0 PVALID;
  Prow 0x1f1 0x1f4 DISALLOWED;
  Prow 0x1f5 0x1f5 PVALID;
  Prow 0x1f6 0x1f8 DISALLOWED;
  Prow 0x1f9 0x1f9 PVALID;
  Prow 0x1fa 0x1fa DISALLOWED;
  Prow 0x1fb 0x1fb PVALID;
  Prow 0x1fc 0x1fc DISALLOWED;
  Prow 0x1fd 0x1fd PVALID;
  Prow 0x1fe 0x1fe DISALLOWED;
  Prow 0x1ff 0x1ff PVALID;
  Prow 0x200 0x200 DISALLOWED;
  Prow 0x201 0x201 PVALID;
  Prow 0x202 0x202 DISALLOWED;
  Prow 0x203 0x203 PVALID;
  Prow 0x204 0x204 DISALLOWED;
  Prow 0x205 0x205 PVALID;
  Prow 0x206 0x206 DISALLOWED;
  Prow 0x207 0x207 PVALID;
  Prow 0x208 0x208 DISALLOWED;
  Prow 0x209 0x209 PVALID;
  Prow 0x20a 0x20a DISALLOWED;
  Prow 0x20b 0x20b PVALID;
  Prow 0x20c 0x20c DISALLOWED;
  Prow 0x20d 0x20d PVALID;
  Prow 0x20e 0x20e DISALLOWED;
  Prow 0x20f 0x20f PVALID;
  Prow 0x210 0x210 DISALLOWED;
  Prow 0x211 0x211 PVALID;
  Prow 0x212 0x212 DISALLOWED;
  Prow 0x213 0x213 PVALID;
  Prow 0x214 0x214 DISALLOWED;
  Prow 0x215 0x215 PVALID;
  Prow 0x216 0x216 DISALLOWED;
  Prow 0x217 0x217 PVALID;
  Prow 0x218 0x218 DISALLOWED;
  Prow 0x219 0x219 PVALID;
  Prow 0x21a 0x21a DISALLOWED;
  Prow 0x21b 0x21b PVALID;
  Prow 0x21c 0x21c DISALLOWED;
  Prow 0x21d 0x21d PVALID;
  Prow 0x21e 0x21e DISALLOWED;
  Prow 0x21f 0x21f PVALID;
  Prow 0x220 0x220 DISALLOWED;
  Prow 0x221 0x221 PVALID;
  Prow 0x222 0x222 DISALLOWED;
  Prow 0x223 0x223 PVALID;
  Prow 0x224 0x224 DISALLOWED;
  Prow 0x225 0x225 PVALID;
  Prow 0x226 0x226 DISALLOWED;
  Prow 0x227 0x227 PVALID;
  Prow 0x228 0x228 DISALLOWED;
  Prow 0x229 0x229 PVALID;
  Prow 0x22a 0x22a DISALLOWED;
  Prow 0x22b 0x22b PVALID;
  Prow 0x22c 0x22c DISALLOWED;
  Prow 0x22d 0x22d PVALID;
  Prow 0x22e 0x22e DISALLOWED;
  Prow 0x22f 0x22f PVALID;
  Prow 0x230 0x230 DISALLOWED;
  Prow 0x231 0x231 PVALID;
  Prow 0x232 0x232 DISALLOWED;
  Prow 0x233 0x239 PVALID;
  Prow 0x23a 0x23b DISALLOWED;
  Prow 0x23c 0x23c PVALID;
  Prow 0x23d 0x23e DISALLOWED;
  Prow 0x23f 0x240 PVALID;
  Prow 0x241 0x241 DISALLOWED;
  Prow 0x242 0x242 PVALID;
  Prow 0x243 0x246 DISALLOWED;
  Prow 0x247 0x247 PVALID;
  Prow 0x248 0x248 DISALLOWED;
  Prow 0x249 0x249 PVALID;
  Prow 0x24a 0x24a DISALLOWED;
  Prow 0x24b 0x24b PVALID;
  Prow 0x24c 0x24c DISALLOWED;
  Prow 0x24d 0x24d PVALID;
  Prow 0x24e 0x24e DISALLOWED;
  Prow 0x24f 0x2af PVALID;
  Prow 0x2b0 0x2b8 DISALLOWED;
  Prow 0x2b9 0x2c1 PVALID;
  Prow 0x2c2 0x2c5 DISALLOWED;
  Prow 0x2c6 0x2d1 PVALID;
  Prow 0x2d2 0x2eb DISALLOWED;
  Prow 0x2ec 0x2ec PVALID;
  Prow 0x2ed 0x2ed DISALLOWED;
  Prow 0x2ee 0x2ee PVALID;
  Prow 0x2ef 0x2ff DISALLOWED;
  Prow 0x300 0x33f PVALID;
  Prow 0x340 0x341 DISALLOWED;
  Prow 0x342 0x342 PVALID;
  Prow 0x343 0x345 DISALLOWED;
  Prow 0x346 0x34e PVALID;
  Prow 0x34f 0x34f DISALLOWED;
  Prow 0x350 0x36f PVALID].
Definition csv_rows_3 : list prow := [
  Prow 0x370 0x370 DISALLOWED;
  Prow 0x371 0x371 PVALID;
  Prow 0x372 0x372 DISALLOWED;
  Prow 0x373 0x373 PVALID;
  Prow 0x374 0x374 DISALLOWED;
  Prow 0x375 0x375 CONTEXTO;
  Prow 0x376 0x376 DISALLOWED;
  Prow 0x377 0x377 PVALID;
  Prow 0x378 0x379 UNASSIGNED;
  Prow 0x37a 0x37a DISALLOWED;
  Prow 0x37b 0x37d PVALID;
  Prow 0x37e 0x37f DISALLOWED;
  Prow 0x380 0x383 UNASSIGNED;
  Prow 0x384 0x38a DISALLOWED;
  Prow 0x38b 0x38b UNASSIGNED;
  Prow 0x38c 0x38c DISALLOWED;
  Prow 0x38d 0x38d UNASSIGNED;
  Prow 0x38e 0x38f DISALLOWED;
  Prow 0x390 0x390 PVALID;
  Prow 0x391 0x3a1 DISALLOWED;
  Prow 0x3a2 0x3a2 UNASSIGNED;
  Prow 0x3a3 0x3ab DISALLOWED;
  Prow 0x3ac 0x3ce PVALID;
  Prow 0x3cf 0x3d6 DISALLOWED;
  Prow 0x3d7 0x3d7 PVALID;
  Prow 0x3d8 0x3d8 DISALLOWED;
  Prow 0x3d9 0x3d9 PVALID;
  Prow 0x3da 0x3da DISALLOWED;
  Prow 0x3db 0x3db PVALID;
  Prow 0x3dc 0x3dc DISALLOWED;
  Prow 0x3dd 0x3dd PVALID;
  Prow 0x3de 0x3de DISALLOWED;
  Prow 0x3df 0x3df PVALID;
  Prow 0x3e0 0x3e0 DISALLOWED;
  Prow 0x3e1 0x3e1 PVALID;
  Prow 0x3e2 0x3e2 DISALLOWED;
  Prow 0x3e3 0x3e3 PVALID;
  Prow 0x3e4 0x3e4 DISALLOWED;
  Prow 0x3e5 0x3e5 PVALID;
  Prow 0x3e6 0x3e6 DISALLOWED;
  Prow 0x3e7 0x3e7 PVALID;
  Prow 0x3e8 0x3e8 DISALLOWED;
  Prow 0x3e9 0x3e9 PVALID;
  Prow 0x3ea 0x3ea DISALLOWED;
  Prow 0x3eb 0x3eb PVALID;
  Prow 0x3ec 0x3ec DISALLOWED;
  Prow 0x3ed 0x3ed PVALID;
  Prow 0x3ee 0x3ee DISALLOWED;
  Prow 0x3ef 0x3ef PVALID;
  Prow 0x3f0 0x3f2 DISALLOWED;
  Prow 0x3f3 0x3f3 PVALID;
  Prow 0x3f4 0x3f7 DISALLOWED;
  Prow 0x3f8 0x3f8 PVALID;
  Prow 0x3f9 0x3fa DISALLOWED;
  Prow 0x3fb 0x3fc PVALID;
  Prow 0x3fd 0x42f DISALLOWED;
  Prow 0x430 0x45f PVALID;
  Prow 0x460 0x460 DISALLOWED;
  Prow 0x461 0x461 PVALID;
  Prow 0x462 0x462 DISALLOWED;
  Prow 0x463 0x463 PVALID;
  Prow 0x464 0x464 DISALLOWED;
  Prow 0x465 0x465 PVALID;
  Prow 0x466 0x466 DISALLOWED;
  Prow 0x467 0x467 PVALID;
  Prow 0x468 0x468 DISALLOWED;
  Prow 0x469 0x469 PVALID;
  Prow 0x46a 0x46a DISALLOWED;
  Prow 0x46b 0x46b PVALID;
  Prow 0x46c 0x46c DISALLOWED;
  Prow 0x46d 0x46d PVALID;
  Prow 0x46e 0x46e DISALLOWED;
  Prow 0x46f 0x46f PVALID;
  Prow 0x470 0x470 DISALLOWED;
  Prow 0x471 0x471 PVALID;
  Prow 0x472 0x472 DISALLOWED;
  Prow 0x473 0x473 PVALID;
  Prow 0x474 0x474 DISALLOWED;
  Prow 0x475 0x475 PVALID;
  Prow 0x476 0x476 DISALLOWED;
  Prow 0x477 0x477 PVALID;
  Prow 0x478 0x478 DISALLOWED;
  Prow 0x479 0x479 PVALID;
  Prow 0x47a 0x47a DISALLOWED;
  Prow 0x47b 0x47b PVALID;
  Prow 0x47c 0x47c DISALLOWED;
  Prow 0x47d 0x47d PVALID;
  Prow 0x47e 0x47e DISALLOWED;
  Prow 0x47f 0x47f PVALID;
  Prow 0x480 0x480 DISALLOWED;
  Prow 0x481 0x481 PVALID;
  Prow 0x482 0x482 DISALLOWED;
  Prow 0x483 0x487 PVALID;
  Prow 0x488 0x48a DISALLOWED;
  Prow 0x48b 0x48b PVALID;
  Prow 0x48c 0x48c DISALLOWED;
  Prow 0x48d 0x48d PVALID;
  Prow 0x48e 0x48e DISALLOWED;
  Prow 0x48f 0x48f PVALID;
  Prow 0x490 0x490 DISALLOWED].
Definition csv_rows_4 : list prow := [
  Prow 0x491 0x491 PVALID;
  Prow 0x492 0x492 DISALLOWED;
  Prow 0x493 0x493 PVALID;
  Prow 0x494 0x494 DISALLOWED;
  Prow 0x495 0x495 PVALID;
  Prow 0x496 0x496 DISALLOWED;
  Prow 0x497 0x497 PVALID;
  Prow 0x498 0x498 DISALLOWED;
  Prow 0x499 0x499 PVALID;
  Prow 0x49a 0x49a DISALLOWED;
  Prow 0x49b 0x49b PVALID;
  Prow 0x49c 0x49c DISALLOWED;
  Prow 0x49d 0x49d PVALID;
  Prow 0x49e 0x49e DISALLOWED;
  Prow 0x49f 0x49f PVALID;
  Prow 0x4a0 0x4a0 DISALLOWED;
  Prow 0x4a1 0x4a1 PVALID;
  Prow 0x4a2 0x4a2 DISALLOWED;
  Prow 0x4a3 0x4a3 PVALID;
  Prow 0x4a4 0x4a4 DISALLOWED;
  Prow 0x4a5 0x4a5 PVALID;
  Prow 0x4a6 0x4a6 DISALLOWED;
  Prow 0x4a7 0x4a7 PVALID;
  Prow 0x4a8 0x4a8 DISALLOWED;
  Prow 0x4a9 0x4a9 PVALID;
  Prow 0x4aa 0x4aa DISALLOWED;
  Prow 0x4ab 0x4ab PVALID;
  Prow 0x4ac 0x4ac DISALLOWED;
  Prow 0x4ad 0x4ad PVALID;
  Prow 0x4ae 0x4ae DISALLOWED;
  Prow 0x4af 0x4af PVALID;
  Prow 0x4b0 0x4b0 DISALLOWED;
  Prow 0x4b1 0x4b1 PVALID;
  Prow 0x4b2 0x4b2 DISALLOWED;
  Prow 0x4b3 0x4b3 PVALID;
  Prow 0x4b4 0x4b4 DISALLOWED;
  Prow 0x4b5 0x4b5 PVALID;
  Prow 0x4b6 0x4b6 DISALLOWED;
  Prow 0x4b7 0x4b7 PVALID;
  Prow 0x4b8 0x4b8 DISALLOWED;
  Prow 0x4b9 0x4b9 PVALID;
  Prow 0x4ba 0x4ba DISALLOWED;
  Prow 0x4bb 0x4bb PVALID;
  Prow 0x4bc 0x4bc DISALLOWED;
  Prow 0x4bd 0x4bd PVALID;
  Prow 0x4be 0x4be DISALLOWED;
  Prow 0x4bf 0x4bf PVALID;
  Prow 0x4c0 0x4c1 DISALLOWED;
  Prow 0x4c2 0x4c2 PVALID;
  Prow 0x4c3 0x4c3 DISALLOWED;
  Prow 0x4c4 0x4c4 PVALID;
  Prow 0x4c5 0x4c5 DISALLOWED;
  Prow 0x4c6 0x4c6 PVALID;
  Prow 0x4c7 0x4c7 DISALLOWED;
  Prow 0x4c8 0x4c8 PVALID;
  Prow 0x4c9 0x4c9 DISALLOWED;
  Prow 0x4ca 0x4ca PVALID;
  Prow 0x4cb 0x4cb DISALLOWED;
  Prow 0x4cc 0x4cc PVALID;
  Prow 0x4cd 0x4cd DISALLOWED;
  Prow 0x4ce 0x4cf PVALID;
  Prow 0x4d0 0x4d0 DISALLOWED;
  Prow 0x4d1 0x4d1 PVALID;
  Prow 0x4d2 0x4d2 DISALLOWED;
  Prow 0x4d3 0x4d3 PVALID;
  Prow 0x4d4 0x4d4 DISALLOWED;
  Prow 0x4d5 0x4d5 PVALID;
  Prow 0x4d6 0x4d6 DISALLOWED;
  Prow 0x4d7 0x4d7 PVALID;
  Prow 0x4d8 0x4d8 DISALLOWED;
  Prow 0x4d9 0x4d9 PVALID;
  Prow 0x4da 0x4da DISALLOWED;
  Prow 0x4db 0x4db PVALID;
  Prow 0x4dc 0x4dc DISALLOWED;
  Prow 0x4dd 0x4dd PVALID;
  Prow 0x4de 0x4de DISALLOWED;
  Prow 0x4df 0x4df PVALID;
  Prow 0x4e0 0x4e0 DISALLOWED;
  Prow 0x4e1 0x4e1 PVALID;
  Prow 0x4e2 0x4e2 DISALLOWED;
  Prow 0x4e3 0x4e3 PVALID;
  Prow 0x4e4 0x4e4 DISALLOWED;
  Prow 0x4e5 0x4e5 PVALID;
  Prow 0x4e6 0x4e6 DISALLOWED;
  Prow 0x4e7 0x4e7 PVALID;
  Prow 0x4e8 0x4e8 DISALLOWED;
  Prow 0x4e9 0x4e9 PVALID;
  Prow 0x4ea 0x4ea DISALLOWED;
  Prow 0x4eb 0x4eb PVALID;
  Prow 0x4ec 0x4ec DISALLOWED;
  Prow 0x4ed 0x4ed PVALID;
  Prow 0x4ee 0x4ee DISALLOWED;
  Prow 0x4ef 0x4ef PVALID;
  Prow 0x4f0 0x4f0 DISALLOWED;
  Prow 0x4f1 0x4f1 PVALID;
  Prow 0x4f2 0x4f2 DISALLOWED;
  Prow 0x4f3 0x4f3 PVALID;
  Prow 0x4f4 0x4f4 DISALLOWED;
  Prow 0x4f5 0x4f5 PVALID;
  Prow 0x4f6 0x4f6 DISALLOWED].
Definition csv_rows_5 : list prow := [
  Prow 0x4f7 0x4f7 PVALID;
  Prow 0x4f8 0x4f8 DISALLOWED;
  Prow 0x4f9 0x4f9 PVALID;
  Prow 0x4fa 0x4fa DISALLOWED;
  Prow 0x4fb 0x4fb PVALID;
  Prow 0x4fc 0x4fc DISALLOWED;
  Prow 0x4fd 0x4fd PVALID;
  Prow 0x4fe 0x4fe DISALLOWED;
  Prow 0x4ff 0x4ff PVALID;
  Prow 0x500 0x500 DISALLOWED;
  Prow 0x501 0x501 PVALID;
  Prow 0x502 0x502 DISALLOWED;
  Prow 0x503 0x503 PVALID;
  Prow 0x504 0x504 DISALLOWED;
  Prow 0x505 0x505 PVALID;
  Prow 0x506 0x506 DISALLOWED;
  Prow 0x507 0x507 PVALID;
  Prow 0x508 0x508 DISALLOWED;
  Prow 0x509 0x509 PVALID;
  Prow 0x50a 0x50a DISALLOWED;
  Prow 0x50b 0x50b PVALID;
  Prow 0x50c 0x50c DISALLOWED;
  Prow 0x50d 0x50d PVALID;
  Prow 0x50e 0x50e DISALLOWED;
  Prow 0x50f 0x50f PVALID;
  Prow 0x510 0x510 DISALLOWED;
  Prow 0x511 0x511 PVALID;
  Prow 0x512 0x512 DISALLOWED;
  Prow 0x513 0x513 PVALID;
  Prow 0x514 0x514 DISALLOWED;
  Prow 0x515 0x515 PVALID;
  Prow 0x516 0x516 DISALLOWED;
  Prow 0x517 0x517 PVALID;
  Prow 0x518 0x518 DISALLOWED;
  Prow 0x519 0x519 PVALID;
  Prow 0x51a 0x51a DISALLOWED;
  Prow 0x51b 0x51b PVALID;
  Prow 0x51c 0x51c DISALLOWED;
  Prow 0x51d 0x51d PVALID;
  Prow 0x51e 0x51e DISALLOWED;
  Prow 0x51f 0x51f PVALID;
  Prow 0x520 0x520 DISALLOWED;
  Prow 0x521 0x521 PVALID;
  Prow 0x522 0x522 DISALLOWED;
  Prow 0x523 0x523 PVALID;
  Prow 0x524 0x524 DISALLOWED;
  Prow 0x525 0x525 PVALID;
  Prow 0x526 0x526 DISALLOWED;
  Prow 0x527 0x527 PVALID;
  Prow 0x528 0x528 DISALLOWED;
  Prow 0x529 0x529 PVALID;
  Prow 0x52a 0x52a DISALLOWED;
  Prow 0x52b 0x52b PVALID;
  Prow 0x52c 0x52c DISALLOWED;
  Prow 0x52d 0x52d PVALID;
  Prow 0x52e 0x52e DISALLOWED;
  Prow 0x52f 0x52f PVALID;
  Prow 0x530 0x530 UNASSIGNED;
  Prow 0x531 0x556 DISALLOWED;
  Prow 0x557 0x558 UNASSIGNED;
  Prow 0x559 0x559 PVALID;
  Prow 0x55a 0x55f DISALLOWED;
  Prow 0x560 0x586 PVALID;
  Prow 0x587 0x587 DISALLOWED;
  Prow 0x588 0x588 PVALID;
  Prow 0x589 0x58a DISALLOWED;
  Prow 0x58b 0x58c UNASSIGNED;
  Prow 0x58d 0x58f DISALLOWED;
  Prow 0x590 0x590 UNASSIGNED;
  Prow 0x591 0x5bd PVALID;
  Prow 0x5be 0x5be DISALLOWED;
  Prow 0x5bf 0x5bf PVALID;
  Prow 0x5c0 0x5c0 DISALLOWED;
  Prow 0x5c1 0x5c2 PVALID;
  Prow 0x5c3 0x5c3 DISALLOWED;
  Prow 0x5c4 0x5c5 PVALID;
  Prow 0x5c6 0x5c6 DISALLOWED;
  Prow 0x5c7 0x5c7 PVALID;
  Prow 0x5c8 0x5cf UNASSIGNED;
  Prow 0x5d0 0x5ea PVALID;
  Prow 0x5eb 0x5ee UNASSIGNED;
  Prow 0x5ef 0x5f2 PVALID;
  Prow 0x5f3 0x5f4 CONTEXTO;
  Prow 0x5f5 0x5ff UNASSIGNED;
  Prow 0x600 0x60f DISALLOWED;
  Prow 0x610 0x61a PVALID;
  Prow 0x61b 0x61c DISALLOWED;
  Prow 0x61d 0x61d UNASSIGNED;
  Prow 0x61e 0x61f DISALLOWED;
  Prow 0x620 0x63f PVALID;
  Prow 0x640 0x640 DISALLOWED;
  Prow 0x641 0x65f PVALID;
  Prow 0x660 0x669 CONTEXTO;
  Prow 0x66a 0x66d DISALLOWED;
  Prow 0x66e 0x674 PVALID;
  Prow 0x675 0x678 DISALLOWED;
  Prow 0x679 0x6d3 PVALID;
  Prow 0x6d4 0x6d4 DISALLOWED;
  Prow 0x6d5 0x6dc PVALID;
  Prow 0x6dd 0x6de DISALLOWED].
Definition csv_rows_6 : list prow := [
  Prow 0x6df 0x6e8 PVALID;
  Prow 0x6e9 0x6e9 DISALLOWED;
  Prow 0x6ea 0x6ef PVALID;
  Prow 0x6f0 0x6f9 CONTEXTO;
  Prow 0x6fa 0x6ff PVALID;
  Prow 0x700 0x70d DISALLOWED;
  Prow 0x70e 0x70e UNASSIGNED;
  Prow 0x70f 0x70f DISALLOWED;
  Prow 0x710 0x74a PVALID;
  Prow 0x74b 0x74c UNASSIGNED;
  Prow 0x74d 0x7b1 PVALID;
  Prow 0x7b2 0x7bf UNASSIGNED;
  Prow 0x7c0 0x7f5 PVALID;
  Prow 0x7f6 0x7fa DISALLOWED;
  Prow 0x7fb 0x7fc UNASSIGNED;
  Prow 0x7fd 0x7fd PVALID;
  Prow 0x7fe 0x7ff DISALLOWED;
  Prow 0x800 0x82d PVALID;
  Prow 0x82e 0x82f UNASSIGNED;
  Prow 0x830 0x83e DISALLOWED;
  Prow 0x83f 0x83f UNASSIGNED;
  Prow 0x840 0x85b PVALID;
  Prow 0x85c 0x85d UNASSIGNED;
  Prow 0x85e 0x85e DISALLOWED;
  Prow 0x85f 0x85f UNASSIGNED;
  Prow 0x860 0x86a PVALID;
  Prow 0x86b 0x89f UNASSIGNED;
  Prow 0x8a0 0x8b4 PVALID;
  Prow 0x8b5 0x8b5 UNASSIGNED;
  Prow 0x8b6 0x8bd PVALID;
  Prow 0x8be 0x8d2 UNASSIGNED;
  Prow 0x8d3 0x8e1 PVALID;
  Prow 0x8e2 0x8e2 DISALLOWED;
  Prow 0x8e3 0x957 PVALID;
  Prow 0x958 0x95f DISALLOWED;
  Prow 0x960 0x963 PVALID;
  Prow 0x964 0x965 DISALLOWED;
  Prow 0x966 0x96f PVALID;
  Prow 0x970 0x970 DISALLOWED;
  Prow 0x971 0x983 PVALID;
  Prow 0x984 0x984 UNASSIGNED;
  Prow 0x985 0x98c PVALID;
  Prow 0x98d 0x98e UNASSIGNED;
  Prow 0x98f 0x990 PVALID;
  Prow 0x991 0x992 UNASSIGNED;
  Prow 0x993 0x9a8 PVALID;
  Prow 0x9a9 0x9a9 UNASSIGNED;
  Prow 0x9aa 0x9b0 PVALID;
  Prow 0x9b1 0x9b1 UNASSIGNED;
  Prow 0x9b2 0x9b2 PVALID;
  Prow 0x9b3 0x9b5 UNASSIGNED;
  Prow 0x9b6 0x9b9 PVALID;
  Prow 0x9ba 0x9bb UNASSIGNED;
  Prow 0x9bc 0x9c4 PVALID;
  Prow 0x9c5 0x9c6 UNASSIGNED;
  Prow 0x9c7 0x9c8 PVALID;
  Prow 0x9c9 0x9ca UNASSIGNED;
  Prow 0x9cb 0x9ce PVALID;
  Prow 0x9cf 0x9d6 UNASSIGNED;
  Prow 0x9d7 0x9d7 PVALID;
  Prow 0x9d8 0x9db UNASSIGNED;
  Prow 0x9dc 0x9dd DISALLOWED;
  Prow 0x9de 0x9de UNASSIGNED;
  Prow 0x9df 0x9df DISALLOWED;
  Prow 0x9e0 0x9e3 PVALID;
  Prow 0x9e4 0x9e5 UNASSIGNED;
  Prow 0x9e6 0x9f1 PVALID;
  Prow 0x9f2 0x9fb DISALLOWED;
  Prow 0x9fc 0x9fc PVALID;
  Prow 0x9fd 0x9fd DISALLOWED;
  Prow 0x9fe 0x9fe PVALID;
  Prow 0x9ff 0xa00 UNASSIGNED;
  Prow 0xa01 0xa03 PVALID;
  Prow 0xa04 0xa04 UNASSIGNED;
  Prow 0xa05 0xa0a PVALID;
  Prow 0xa0b 0xa0e UNASSIGNED;
  Prow 0xa0f 0xa10 PVALID;
  Prow 0xa11 0xa12 UNASSIGNED;
  Prow 0xa13 0xa28 PVALID;
  Prow 0xa29 0xa29 UNASSIGNED;
  Prow 0xa2a 0xa30 PVALID;
  Prow 0xa31 0xa31 UNASSIGNED;
  Prow 0xa32 0xa32 PVALID;
  Prow 0xa33 0xa33 DISALLOWED;
  Prow 0xa34 0xa34 UNASSIGNED;
  Prow 0xa35 0xa35 PVALID;
  Prow 0xa36 0xa36 DISALLOWED;
  Prow 0xa37 0xa37 UNASSIGNED;
  Prow 0xa38 0xa39 PVALID;
  Prow 0xa3a 0xa3b UNASSIGNED;
  Prow 0xa3c 0xa3c PVALID;
  Prow 0xa3d 0xa3d UNASSIGNED;
  Prow 0xa3e 0xa42 PVALID;
  Prow 0xa43 0xa46 UNASSIGNED;
  Prow 0xa47 0xa48 PVALID;
  Prow 0xa49 0xa4a UNASSIGNED;
  Prow 0xa4b 0xa4d PVALID;
  Prow 0xa4e 0xa50 UNASSIGNED;
  Prow 0xa51 0xa51 PVALID;
  Prow 0xa52 0xa58 UNASSIGNED].
Definition csv_rows_7 : list prow := [
  Prow 0xa59 0xa5b DISALLOWED;
  Prow 0xa5c 0xa5c PVALID;
  Prow 0xa5d 0xa5d UNASSIGNED;
  Prow 0xa5e 0xa5e DISALLOWED;
  Prow 0xa5f 0xa65 UNASSIGNED;
  Prow 0xa66 0xa75 PVALID;
  Prow 0xa76 0xa76 DISALLOWED;
  Prow 0xa77 0xa80 UNASSIGNED;
  Prow 0xa81 0xa83 PVALID;
  Prow 0xa84 0xa84 UNASSIGNED;
  Prow 0xa85 0xa8d PVALID;
  Prow 0xa8e 0xa8e UNASSIGNED;
  Prow 0xa8f 0xa91 PVALID;
  Prow 0xa92 0xa92 UNASSIGNED;
  Prow 0xa93 0xaa8 PVALID;
  Prow 0xaa9 0xaa9 UNASSIGNED;
  Prow 0xaaa 0xab0 PVALID;
  Prow 0xab1 0xab1 UNASSIGNED;
  Prow 0xab2 0xab3 PVALID;
  Prow 0xab4 0xab4 UNASSIGNED;
  Prow 0xab5 0xab9 PVALID;
  Prow 0xaba 0xabb UNASSIGNED;
  Prow 0xabc 0xac5 PVALID;
  Prow 0xac6 0xac6 UNASSIGNED;
  Prow 0xac7 0xac9 PVALID;
  Prow 0xaca 0xaca UNASSIGNED;
  Prow 0xacb 0xacd PVALID;
  Prow 0xace 0xacf UNASSIGNED;
  Prow 0xad0 0xad0 PVALID;
  Prow 0xad1 0xadf UNASSIGNED;
  Prow 0xae0 0xae3 PVALID;
  Prow 0xae4 0xae5 UNASSIGNED;
  Prow 0xae6 0xaef PVALID;
  Prow 0xaf0 0xaf1 DISALLOWED;
  Prow 0xaf2 0xaf8 UNASSIGNED;
  Prow 0xaf9 0xaff PVALID;
  Prow 0xb00 0xb00 UNASSIGNED;
  Prow 0xb01 0xb03 PVALID;
  Prow 0xb04 0xb04 UNASSIGNED;
  Prow 0xb05 0xb0c PVALID;
  Prow 0xb0d 0xb0e UNASSIGNED;
  Prow 0xb0f 0xb10 PVALID;
  Prow 0xb11 0xb12 UNASSIGNED;
  Prow 0xb13 0xb28 PVALID;
  Prow 0xb29 0xb29 UNASSIGNED;
  Prow 0xb2a 0xb30 PVALID;
  Prow 0xb31 0xb31 UNASSIGNED;
  Prow 0xb32 0xb33 PVALID;
  Prow 0xb34 0xb34 UNASSIGNED;
  Prow 0xb35 0xb39 PVALID;
  Prow 0xb3a 0xb3b UNASSIGNED;
  Prow 0xb3c 0xb44 PVALID;
  Prow 0xb45 0xb46 UNASSIGNED;
  Prow 0xb47 0xb48 PVALID;
  Prow 0xb49 0xb4a UNASSIGNED;
  Prow 0xb4b 0xb4d PVALID;
  Prow 0xb4e 0xb55 UNASSIGNED;
  Prow 0xb56 0xb57 PVALID;
  Prow 0xb58 0xb5b UNASSIGNED;
  Prow 0xb5c 0xb5d DISALLOWED;
  Prow 0xb5e 0xb5e UNASSIGNED;
  Prow 0xb5f 0xb63 PVALID;
  Prow 0xb64 0xb65 UNASSIGNED;
  Prow 0xb66 0xb6f PVALID;
  Prow 0xb70 0xb70 DISALLOWED;
  Prow 0xb71 0xb71 PVALID;
  Prow 0xb72 0xb77 DISALLOWED;
  Prow 0xb78 0xb81 UNASSIGNED;
  Prow 0xb82 0xb83 PVALID;
  Prow 0xb84 0xb84 UNASSIGNED;
  Prow 0xb85 0xb8a PVALID;
  Prow 0xb8b 0xb8d UNASSIGNED;
  Prow 0xb8e 0xb90 PVALID;
  Prow 0xb91 0xb91 UNASSIGNED;
  Prow 0xb92 0xb95 PVALID;
  Prow 0xb96 0xb98 UNASSIGNED;
  Prow 0xb99 0xb9a PVALID;
  Prow 0xb9b 0xb9b UNASSIGNED;
  Prow 0xb9c 0xb9c PVALID;
  Prow 0xb9d 0xb9d UNASSIGNED;
  Prow 0xb9e 0xb9f PVALID;
  Prow 0xba0 0xba2 UNASSIGNED;
  Prow 0xba3 0xba4 PVALID;
  Prow 0xba5 0xba7 UNASSIGNED;
  Prow 0xba8 0xbaa PVALID;
  Prow 0xbab 0xbad UNASSIGNED;
  Prow 0xbae 0xbb9 PVALID;
  Prow 0xbba 0xbbd UNASSIGNED;
  Prow 0xbbe 0xbc2 PVALID;
  Prow 0xbc3 0xbc5 UNASSIGNED;
  Prow 0xbc6 0xbc8 PVALID;
  Prow 0xbc9 0xbc9 UNASSIGNED;
  Prow 0xbca 0xbcd PVALID;
  Prow 0xbce 0xbcf UNASSIGNED;
  Prow 0xbd0 0xbd0 PVALID;
  Prow 0xbd1 0xbd6 UNASSIGNED;
  Prow 0xbd7 0xbd7 PVALID;
  Prow 0xbd8 0xbe5 UNASSIGNED;
  Prow 0xbe6 0xbef PVALID;
  Prow 0xbf0 0xbfa DISALLOWED].
Definition csv_rows_8 : list prow := [
  Prow 0xbfb 0xbff UNASSIGNED;
  Prow 0xc00 0xc0c PVALID;
  Prow 0xc0d 0xc0d UNASSIGNED;
  Prow 0xc0e 0xc10 PVALID;
  Prow 0xc11 0xc11 UNASSIGNED;
  Prow 0xc12 0xc28 PVALID;
  Prow 0xc29 0xc29 UNASSIGNED;
  Prow 0xc2a 0xc39 PVALID;
  Prow 0xc3a 0xc3c UNASSIGNED;
  Prow 0xc3d 0xc44 PVALID;
  Prow 0xc45 0xc45 UNASSIGNED;
  Prow 0xc46 0xc48 PVALID;
  Prow 0xc49 0xc49 UNASSIGNED;
  Prow 0xc4a 0xc4d PVALID;
  Prow 0xc4e 0xc54 UNASSIGNED;
  Prow 0xc55 0xc56 PVALID;
  Prow 0xc57 0xc57 UNASSIGNED;
  Prow 0xc58 0xc5a PVALID;
  Prow 0xc5b 0xc5f UNASSIGNED;
  Prow 0xc60 0xc63 PVALID;
  Prow 0xc64 0xc65 UNASSIGNED;
  Prow 0xc66 0xc6f PVALID;
  Prow 0xc70 0xc77 UNASSIGNED;
  Prow 0xc78 0xc7f DISALLOWED;
  Prow 0xc80 0xc83 PVALID;
  Prow 0xc84 0xc84 DISALLOWED;
  Prow 0xc85 0xc8c PVALID;
  Prow 0xc8d 0xc8d UNASSIGNED;
  Prow 0xc8e 0xc90 PVALID;
  Prow 0xc91 0xc91 UNASSIGNED;
  Prow 0xc92 0xca8 PVALID;
  Prow 0xca9 0xca9 UNASSIGNED;
  Prow 0xcaa 0xcb3 PVALID;
  Prow 0xcb4 0xcb4 UNASSIGNED;
  Prow 0xcb5 0xcb9 PVALID;
  Prow 0xcba 0xcbb UNASSIGNED;
  Prow 0xcbc 0xcc4 PVALID;
  Prow 0xcc5 0xcc5 UNASSIGNED;
  Prow 0xcc6 0xcc8 PVALID;
  Prow 0xcc9 0xcc9 UNASSIGNED;
  Prow 0xcca 0xccd PVALID;
  Prow 0xcce 0xcd4 UNASSIGNED;
  Prow 0xcd5 0xcd6 PVALID;
  Prow 0xcd7 0xcdd UNASSIGNED;
  Prow 0xcde 0xcde PVALID;
  Prow 0xcdf 0xcdf UNASSIGNED;
  Prow 0xce0 0xce3 PVALID;
  Prow 0xce4 0xce5 UNASSIGNED;
  Prow 0xce6 0xcef PVALID;
  Prow 0xcf0 0xcf0 UNASSIGNED;
  Prow 0xcf1 0xcf2 PVALID;
  Prow 0xcf3 0xcff UNASSIGNED;
  Prow 0xd00 0xd03 PVALID;
  Prow 0xd04 0xd04 UNASSIGNED;
  Prow 0xd05 0xd0c PVALID;
  Prow 0xd0d 0xd0d UNASSIGNED;
  Prow 0xd0e 0xd10 PVALID;
  Prow 0xd11 0xd11 UNASSIGNED;
  Prow 0xd12 0xd44 PVALID;
  Prow 0xd45 0xd45 UNASSIGNED;
  Prow 0xd46 0xd48 PVALID;
  Prow 0xd49 0xd49 UNASSIGNED;
  Prow 0xd4a 0xd4e PVALID;
  Prow 0xd4f 0xd4f DISALLOWED;
  Prow 0xd50 0xd53 UNASSIGNED;
  Prow 0xd54 0xd57 PVALID;
  Prow 0xd58 0xd5e DISALLOWED;
  Prow 0xd5f 0xd63 PVALID;
  Prow 0xd64 0xd65 UNASSIGNED;
  Prow 0xd66 0xd6f PVALID;
  Prow 0xd70 0xd79 DISALLOWED;
  Prow 0xd7a 0xd7f PVALID;
  Prow 0xd80 0xd81 UNASSIGNED;
  Prow 0xd82 0xd83 PVALID;
  Prow 0xd84 0xd84 UNASSIGNED;
  Prow 0xd85 0xd96 PVALID;
  Prow 0xd97 0xd99 UNASSIGNED;
  Prow 0xd9a 0xdb1 PVALID;
  Prow 0xdb2 0xdb2 UNASSIGNED;
  Prow 0xdb3 0xdbb PVALID;
  Prow 0xdbc 0xdbc UNASSIGNED;
  Prow 0xdbd 0xdbd PVALID;
  Prow 0xdbe 0xdbf UNASSIGNED;
  Prow 0xdc0 0xdc6 PVALID;
  Prow 0xdc7 0xdc9 UNASSIGNED;
  Prow 0xdca 0xdca PVALID;
  Prow 0xdcb 0xdce UNASSIGNED;
  Prow 0xdcf 0xdd4 PVALID;
  Prow 0xdd5 0xdd5 UNASSIGNED;
  Prow 0xdd6 0xdd6 PVALID;
  Prow 0xdd7 0xdd7 UNASSIGNED;
  Prow 0xdd8 0xddf PVALID;
  Prow 0xde0 0xde5 UNASSIGNED;
  Prow 0xde6 0xdef PVALID;
  Prow 0xdf0 0xdf1 UNASSIGNED;
  Prow 0xdf2 0xdf3 PVALID;
  Prow 0xdf4 0xdf4 DISALLOWED;
  Prow 0xdf5 0xe00 UNASSIGNED;
  Prow 0xe01 0xe32 PVALID;
  Prow 0xe33 0xe33 DISALLOWED].
Definition csv_rows_9 : list prow := [
  Prow 0xe34 0xe3a PVALID;
  Prow 0xe3b 0xe3e UNASSIGNED;
  Prow 0xe3f 0xe3f DISALLOWED;
  Prow 0xe40 0xe4e PVALID;
  Prow 0xe4f 0xe4f DISALLOWED;
  Prow 0xe50 0xe59 PVALID;
  Prow 0xe5a 0xe5b DISALLOWED;
  Prow 0xe5c 0xe80 UNASSIGNED;
  Prow 0xe81 0xe82 PVALID;
  Prow 0xe83 0xe83 UNASSIGNED;
  Prow 0xe84 0xe84 PVALID;
  Prow 0xe85 0xe86 UNASSIGNED;
  Prow 0xe87 0xe88 PVALID;
  Prow 0xe89 0xe89 UNASSIGNED;
  Prow 0xe8a 0xe8a PVALID;
  Prow 0xe8b 0xe8c UNASSIGNED;
  Prow 0xe8d 0xe8d PVALID;
  Prow 0xe8e 0xe93 UNASSIGNED;
  Prow 0xe94 0xe97 PVALID;
  Prow 0xe98 0xe98 UNASSIGNED;
  Prow 0xe99 0xe9f PVALID;
  Prow 0xea0 0xea0 UNASSIGNED;
  Prow 0xea1 0xea3 PVALID;
  Prow 0xea4 0xea4 UNASSIGNED;
  Prow 0xea5 0xea5 PVALID;
  Prow 0xea6 0xea6 UNASSIGNED;
  Prow 0xea7 0xea7 PVALID;
  Prow 0xea8 0xea9 UNASSIGNED;
  Prow 0xeaa 0xeab PVALID;
  Prow 0xeac 0xeac UNASSIGNED;
  Prow 0xead 0xeb2 PVALID;
  Prow 0xeb3 0xeb3 DISALLOWED;
  Prow 0xeb4 0xeb9 PVALID;
  Prow 0xeba 0xeba UNASSIGNED;
  Prow 0xebb 0xebd PVALID;
  Prow 0xebe 0xebf UNASSIGNED;
  Prow 0xec0 0xec4 PVALID;
  Prow 0xec5 0xec5 UNASSIGNED;
  Prow 0xec6 0xec6 PVALID;
  Prow 0xec7 0xec7 UNASSIGNED;
  Prow 0xec8 0xecd PVALID;
  Prow 0xece 0xecf UNASSIGNED;
  Prow 0xed0 0xed9 PVALID;
  Prow 0xeda 0xedb UNASSIGNED;
  Prow 0xedc 0xedd DISALLOWED;
  Prow 0xede 0xedf PVALID;
  Prow 0xee0 0xeff UNASSIGNED;
  Prow 0xf00 0xf00 PVALID;
  Prow 0xf01 0xf0a DISALLOWED;
  Prow 0xf0b 0xf0b PVALID;
  Prow 0xf0c 0xf17 DISALLOWED;
  Prow 0xf18 0xf19 PVALID;
  Prow 0xf1a 0xf1f DISALLOWED;
  Prow 0xf20 0xf29 PVALID;
  Prow 0xf2a 0xf34 DISALLOWED;
  Prow 0xf35 0xf35 PVALID;
  Prow 0xf36 0xf36 DISALLOWED;
  Prow 0xf37 0xf37 PVALID;
  Prow 0xf38 0xf38 DISALLOWED;
  Prow 0xf39 0xf39 PVALID;
  Prow 0xf3a 0xf3d DISALLOWED;
  Prow 0xf3e 0xf42 PVALID;
  Prow 0xf43 0xf43 DISALLOWED;
  Prow 0xf44 0xf47 PVALID;
  Prow 0xf48 0xf48 UNASSIGNED;
  Prow 0xf49 0xf4c PVALID;
  Prow 0xf4d 0xf4d DISALLOWED;
  Prow 0xf4e 0xf51 PVALID;
  Prow 0xf52 0xf52 DISALLOWED;
  Prow 0xf53 0xf56 PVALID;
  Prow 0xf57 0xf57 DISALLOWED;
  Prow 0xf58 0xf5b PVALID;
  Prow 0xf5c 0xf5c DISALLOWED;
  Prow 0xf5d 0xf68 PVALID;
  Prow 0xf69 0xf69 DISALLOWED;
  Prow 0xf6a 0xf6c PVALID;
  Prow 0xf6d 0xf70 UNASSIGNED;
  Prow 0xf71 0xf72 PVALID;
  Prow 0xf73 0xf73 DISALLOWED;
  Prow 0xf74 0xf74 PVALID;
  Prow 0xf75 0xf79 DISALLOWED;
  Prow 0xf7a 0xf80 PVALID;
  Prow 0xf81 0xf81 DISALLOWED;
  Prow 0xf82 0xf84 PVALID;
  Prow 0xf85 0xf85 DISALLOWED;
  Prow 0xf86 0xf92 PVALID;
  Prow 0xf93 0xf93 DISALLOWED;
  Prow 0xf94 0xf97 PVALID;
  Prow 0xf98 0xf98 UNASSIGNED;
  Prow 0xf99 0xf9c PVALID;
  Prow 0xf9d 0xf9d DISALLOWED;
  Prow 0xf9e 0xfa1 PVALID;
  Prow 0xfa2 0xfa2 DISALLOWED;
  Prow 0xfa3 0xfa6 PVALID;
  Prow 0xfa7 0xfa7 DISALLOWED;
  Prow 0xfa8 0xfab PVALID;
  Prow 0xfac 0xfac DISALLOWED;
  Prow 0xfad 0xfb8 PVALID;
  Prow 0xfb9 0xfb9 DISALLOWED;
  Prow 0xfba 0xfbc PVALID].
Definition csv_rows_10 : list prow := [
  Prow 0xfbd 0xfbd UNASSIGNED;
  Prow 0xfbe 0xfc5 DISALLOWED;
  Prow 0xfc6 0xfc6 PVALID;
  Prow 0xfc7 0xfcc DISALLOWED;
  Prow 0xfcd 0xfcd UNASSIGNED;
  Prow 0xfce 0xfda DISALLOWED;
  Prow 0xfdb 0xfff UNASSIGNED;
  Prow 0x1000 0x1049 PVALID;
  Prow 0x104a 0x104f DISALLOWED;
  Prow 0x1050 0x109d PVALID;
  Prow 0x109e 0x10c5 DISALLOWED;
  Prow 0x10c6 0x10c6 UNASSIGNED;
  Prow 0x10c7 0x10c7 DISALLOWED;
  Prow 0x10c8 0x10cc UNASSIGNED;
  Prow 0x10cd 0x10cd DISALLOWED;
  Prow 0x10ce 0x10cf UNASSIGNED;
  Prow 0x10d0 0x10fa PVALID;
  Prow 0x10fb 0x10fc DISALLOWED;
  Prow 0x10fd 0x10ff PVALID;
  Prow 0x1100 0x11ff DISALLOWED;
  Prow 0x1200 0x1248 PVALID;
  Prow 0x1249 0x1249 UNASSIGNED;
  Prow 0x124a 0x124d PVALID;
  Prow 0x124e 0x124f UNASSIGNED;
  Prow 0x1250 0x1256 PVALID;
  Prow 0x1257 0x1257 UNASSIGNED;
  Prow 0x1258 0x1258 PVALID;
  Prow 0x1259 0x1259 UNASSIGNED;
  Prow 0x125a 0x125d PVALID;
  Prow 0x125e 0x125f UNASSIGNED;
  Prow 0x1260 0x1288 PVALID;
  Prow 0x1289 0x1289 UNASSIGNED;
  Prow 0x128a 0x128d PVALID;
  Prow 0x128e 0x128f UNASSIGNED;
  Prow 0x1290 0x12b0 PVALID;
  Prow 0x12b1 0x12b1 UNASSIGNED;
  Prow 0x12b2 0x12b5 PVALID;
  Prow 0x12b6 0x12b7 UNASSIGNED;
  Prow 0x12b8 0x12be PVALID;
  Prow 0x12bf 0x12bf UNASSIGNED;
  Prow 0x12c0 0x12c0 PVALID;
  Prow 0x12c1 0x12c1 UNASSIGNED;
  Prow 0x12c2 0x12c5 PVALID;
  Prow 0x12c6 0x12c7 UNASSIGNED;
  Prow 0x12c8 0x12d6 PVALID;
  Prow 0x12d7 0x12d7 UNASSIGNED;
  Prow 0x12d8 0x1310 PVALID;
  Prow 0x1311 0x1311 UNASSIGNED;
  Prow 0x1312 0x1315 PVALID;
  Prow 0x1316 0x1317 UNASSIGNED;
  Prow 0x1318 0x135a PVALID;
  Prow 0x135b 0x135c UNASSIGNED;
  Prow 0x135d 0x135f PVALID;
  Prow 0x1360 0x137c DISALLOWED;
  Prow 0x137d 0x137f UNASSIGNED;
  Prow 0x1380 0x138f PVALID;
  Prow 0x1390 0x1399 DISALLOWED;
  Prow 0x139a 0x139f UNASSIGNED;
  Prow 0x13a0 0x13f5 PVALID;
  Prow 0x13f6 0x13f7 UNASSIGNED;
  Prow 0x13f8 0x13fd DISALLOWED;
  Prow 0x13fe 0x13ff UNASSIGNED;
  Prow 0x1400 0x1400 DISALLOWED;
  Prow 0x1401 0x166c PVALID;
  Prow 0x166d 0x166e DISALLOWED;
  Prow 0x166f 0x167f PVALID;
  Prow 0x1680 0x1680 DISALLOWED;
  Prow 0x1681 0x169a PVALID;
  Prow 0x169b 0x169c DISALLOWED;
  Prow 0x169d 0x169f UNASSIGNED;
  Prow 0x16a0 0x16ea PVALID;
  Prow 0x16eb 0x16f0 DISALLOWED;
  Prow 0x16f1 0x16f8 PVALID;
  Prow 0x16f9 0x16ff UNASSIGNED;
  Prow 0x1700 0x170c PVALID;
  Prow 0x170d 0x170d UNASSIGNED;
  Prow 0x170e 0x1714 PVALID;
  Prow 0x1715 0x171f UNASSIGNED;
  Prow 0x1720 0x1734 PVALID;
  Prow 0x1735 0x1736 DISALLOWED;
  Prow 0x1737 0x173f UNASSIGNED;
  Prow 0x1740 0x1753 PVALID;
  Prow 0x1754 0x175f UNASSIGNED;
  Prow 0x1760 0x176c PVALID;
  Prow 0x176d 0x176d UNASSIGNED;
  Prow 0x176e 0x1770 PVALID;
  Prow 0x1771 0x1771 UNASSIGNED;
  Prow 0x1772 0x1773 PVALID;
  Prow 0x1774 0x177f UNASSIGNED;
  Prow 0x1780 0x17b3 PVALID;
  Prow 0x17b4 0x17b5 DISALLOWED;
  Prow 0x17b6 0x17d3 PVALID;
  Prow 0x17d4 0x17d6 DISALLOWED;
  Prow 0x17d7 0x17d7 PVALID;
  Prow 0x17d8 0x17db DISALLOWED;
  Prow 0x17dc 0x17dd PVALID;
  Prow 0x17de 0x17df UNASSIGNED;
  Prow 0x17e0 0x17e9 PVALID;
  Prow 0x17ea 0x17ef UNASSIGNED;
  Prow 0x17f0 0x17f9 DISALLOWED].
Definition csv_rows_11 : list prow := [
  Prow 0x17fa 0x17ff UNASSIGNED;
  Prow 0x1800 0x180e DISALLOWED;
  Prow 0x180f 0x180f UNASSIGNED;
  Prow 0x1810 0x1819 PVALID;
  Prow 0x181a 0x181f UNASSIGNED;
  Prow 0x1820 0x1878 PVALID;
  Prow 0x1879 0x187f UNASSIGNED;
  Prow 0x1880 0x18aa PVALID;
  Prow 0x18ab 0x18af UNASSIGNED;
  Prow 0x18b0 0x18f5 PVALID;
  Prow 0x18f6 0x18ff UNASSIGNED;
  Prow 0x1900 0x191e PVALID;
  Prow 0x191f 0x191f UNASSIGNED;
  Prow 0x1920 0x192b PVALID;
  Prow 0x192c 0x192f UNASSIGNED;
  Prow 0x1930 0x193b PVALID;
  Prow 0x193c 0x193f UNASSIGNED;
  Prow 0x1940 0x1940 DISALLOWED;
  Prow 0x1941 0x1943 UNASSIGNED;
  Prow 0x1944 0x1945 DISALLOWED;
  Prow 0x1946 0x196d PVALID;
  Prow 0x196e 0x196f UNASSIGNED;
  Prow 0x1970 0x1974 PVALID;
  Prow 0x1975 0x197f UNASSIGNED;
  Prow 0x1980 0x19ab PVALID;
  Prow 0x19ac 0x19af UNASSIGNED;
  Prow 0x19b0 0x19c9 PVALID;
  Prow 0x19ca 0x19cf UNASSIGNED;
  Prow 0x19d0 0x19d9 PVALID;
  Prow 0x19da 0x19da DISALLOWED;
  Prow 0x19db 0x19dd UNASSIGNED;
  Prow 0x19de 0x19ff DISALLOWED;
  Prow 0x1a00 0x1a1b PVALID;
  Prow 0x1a1c 0x1a1d UNASSIGNED;
  Prow 0x1a1e 0x1a1f DISALLOWED;
  Prow 0x1a20 0x1a5e PVALID;
  Prow 0x1a5f 0x1a5f UNASSIGNED;
  Prow 0x1a60 0x1a7c PVALID;
  Prow 0x1a7d 0x1a7e UNASSIGNED;
  Prow 0x1a7f 0x1a89 PVALID;
  Prow 0x1a8a 0x1a8f UNASSIGNED;
  Prow 0x1a90 0x1a99 PVALID;
  Prow 0x1a9a 0x1a9f UNASSIGNED;
  Prow 0x1aa0 0x1aa6 DISALLOWED;
  Prow 0x1aa7 0x1aa7 PVALID;
  Prow 0x1aa8 0x1aad DISALLOWED;
  Prow 0x1aae 0x1aaf UNASSIGNED;
  Prow 0x1ab0 0x1abd PVALID;
  Prow 0x1abe 0x1abe DISALLOWED;
  Prow 0x1abf 0x1aff UNASSIGNED;
  Prow 0x1b00 0x1b4b PVALID;
  Prow 0x1b4c 0x1b4f UNASSIGNED;
  Prow 0x1b50 0x1b59 PVALID;
  Prow 0x1b5a 0x1b6a DISALLOWED;
  Prow 0x1b6b 0x1b73 PVALID;
  Prow 0x1b74 0x1b7c DISALLOWED;
  Prow 0x1b7d 0x1b7f UNASSIGNED;
  Prow 0x1b80 0x1bf3 PVALID;
  Prow 0x1bf4 0x1bfb UNASSIGNED;
  Prow 0x1bfc 0x1bff DISALLOWED;
  Prow 0x1c00 0x1c37 PVALID;
  Prow 0x1c38 0x1c3a UNASSIGNED;
  Prow 0x1c3b 0x1c3f DISALLOWED;
  Prow 0x1c40 0x1c49 PVALID;
  Prow 0x1c4a 0x1c4c UNASSIGNED;
  Prow 0x1c4d 0x1c7d PVALID;
  Prow 0x1c7e 0x1c88 DISALLOWED;
  Prow 0x1c89 0x1c8f UNASSIGNED;
  Prow 0x1c90 0x1cba DISALLOWED;
  Prow 0x1cbb 0x1cbc UNASSIGNED;
  Prow 0x1cbd 0x1cc7 DISALLOWED;
  Prow 0x1cc8 0x1ccf UNASSIGNED;
  Prow 0x1cd0 0x1cd2 PVALID;
  Prow 0x1cd3 0x1cd3 DISALLOWED;
  Prow 0x1cd4 0x1cf9 PVALID;
  Prow 0x1cfa 0x1cff UNASSIGNED;
  Prow 0x1d00 0x1d2b PVALID;
  Prow 0x1d2c 0x1d2e DISALLOWED;
  Prow 0x1d2f 0x1d2f PVALID;
  Prow 0x1d30 0x1d3a DISALLOWED;
  Prow 0x1d3b 0x1d3b PVALID;
  Prow 0x1d3c 0x1d4d DISALLOWED;
  Prow 0x1d4e 0x1d4e PVALID;
  Prow 0x1d4f 0x1d6a DISALLOWED;
  Prow 0x1d6b 0x1d77 PVALID;
  Prow 0x1d78 0x1d78 DISALLOWED;
  Prow 0x1d79 0x1d9a PVALID;
  Prow 0x1d9b 0x1dbf DISALLOWED;
  Prow 0x1dc0 0x1df9 PVALID;
  Prow 0x1dfa 0x1dfa UNASSIGNED;
  Prow 0x1dfb 0x1dff PVALID;
  Prow 0x1e00 0x1e00 DISALLOWED;
  Prow 0x1e01 0x1e01 PVALID;
  Prow 0x1e02 0x1e02 DISALLOWED;
  Prow 0x1e03 0x1e03 PVALID;
  Prow 0x1e04 0x1e04 DISALLOWED;
  Prow 0x1e05 0x1e05 PVALID;
  Prow 0x1e06 0x1e06 DISALLOWED;
  Prow 0x1e07 0x1e07 PVALID;
  Prow 0x1e08 0x1e08 DISALLOWED].
Definition csv_rows_12 : list prow := [
  Prow 0x1e09 0x1e09 PVALID;
  Prow 0x1e0a 0x1e0a DISALLOWED;
  Prow 0x1e0b 0x1e0b PVALID;
  Prow 0x1e0c 0x1e0c DISALLOWED;
  Prow 0x1e0d 0x1e0d PVALID;
  Prow 0x1e0e 0x1e0e DISALLOWED;
  Prow 0x1e0f 0x1e0f PVALID;
  Prow 0x1e10 0x1e10 DISALLOWED;
  Prow 0x1e11 0x1e11 PVALID;
  Prow 0x1e12 0x1e12 DISALLOWED;
  Prow 0x1e13 0x1e13 PVALID;
  Prow 0x1e14 0x1e14 DISALLOWED;
  Prow 0x1e15 0x1e15 PVALID;
  Prow 0x1e16 0x1e16 DISALLOWED;
  Prow 0x1e17 0x1e17 PVALID;
  Prow 0x1e18 0x1e18 DISALLOWED;
  Prow 0x1e19 0x1e19 PVALID;
  Prow 0x1e1a 0x1e1a DISALLOWED;
  Prow 0x1e1b 0x1e1b PVALID;
  Prow 0x1e1c 0x1e1c DISALLOWED;
  Prow 0x1e1d 0x1e1d PVALID;
  Prow 0x1e1e 0x1e1e DISALLOWED;
  Prow 0x1e1f 0x1e1f PVALID;
  Prow 0x1e20 0x1e20 DISALLOWED;
  Prow 0x1e21 0x1e21 PVALID;
  Prow 0x1e22 0x1e22 DISALLOWED;
  Prow 0x1e23 0x1e23 PVALID;
  Prow 0x1e24 0x1e24 DISALLOWED;
  Prow 0x1e25 0x1e25 PVALID;
  Prow 0x1e26 0x1e26 DISALLOWED;
  Prow 0x1e27 0x1e27 PVALID;
  Prow 0x1e28 0x1e28 DISALLOWED;
  Prow 0x1e29 0x1e29 PVALID;
  Prow 0x1e2a 0x1e2a DISALLOWED;
  Prow 0x1e2b 0x1e2b PVALID;
  Prow 0x1e2c 0x1e2c DISALLOWED;
  Prow 0x1e2d 0x1e2d PVALID;
  Prow 0x1e2e 0x1e2e DISALLOWED;
  Prow 0x1e2f 0x1e2f PVALID;
  Prow 0x1e30 0x1e30 DISALLOWED;
  Prow 0x1e31 0x1e31 PVALID;
  Prow 0x1e32 0x1e32 DISALLOWED;
  Prow 0x1e33 0x1e33 PVALID;
  Prow 0x1e34 0x1e34 DISALLOWED;
  Prow 0x1e35 0x1e35 PVALID;
  Prow 0x1e36 0x1e36 DISALLOWED;
  Prow 0x1e37 0x1e37 PVALID;
  Prow 0x1e38 0x1e38 DISALLOWED;
  Prow 0x1e39 0x1e39 PVALID;
  Prow 0x1e3a 0x1e3a DISALLOWED;
  Prow 0x1e3b 0x1e3b PVALID;
  Prow 0x1e3c 0x1e3c DISALLOWED;
  Prow 0x1e3d 0x1e3d PVALID;
  Prow 0x1e3e 0x1e3e DISALLOWED;
  Prow 0x1e3f 0x1e3f PVALID;
  Prow 0x1e40 0x1e40 DISALLOWED;
  Prow 0x1e41 0x1e41 PVALID;
  Prow 0x1e42 0x1e42 DISALLOWED;
  Prow 0x1e43 0x1e43 PVALID;
  Prow 0x1e44 0x1e44 DISALLOWED;
  Prow 0x1e45 0x1e45 PVALID;
  Prow 0x1e46 0x1e46 DISALLOWED;
  Prow 0x1e47 0x1e47 PVALID;
  Prow 0x1e48 0x1e48 DISALLOWED;
  Prow 0x1e49 0x1e49 PVALID;
  Prow 0x1e4a 0x1e4a DISALLOWED;
  Prow 0x1e4b 0x1e4b PVALID;
  Prow 0x1e4c 0x1e4c DISALLOWED;
  Prow 0x1e4d 0x1e4d PVALID;
  Prow 0x1e4e 0x1e4e DISALLOWED;
  Prow 0x1e4f 0x1e4f PVALID;
  Prow 0x1e50 0x1e50 DISALLOWED;
  Prow 0x1e51 0x1e51 PVALID;
  Prow 0x1e52 0x1e52 DISALLOWED;
  Prow 0x1e53 0x1e53 PVALID;
  Prow 0x1e54 0x1e54 DISALLOWED;
  Prow 0x1e55 0x1e55 PVALID;
  Prow 0x1e56 0x1e56 DISALLOWED;
  Prow 0x1e57 0x1e57 PVALID;
  Prow 0x1e58 0x1e58 DISALLOWED;
  Prow 0x1e59 0x1e59 PVALID;
  Prow 0x1e5a 0x1e5a DISALLOWED;
  Prow 0x1e5b 0x1e5b PVALID;
  Prow 0x1e5c 0x1e5c DISALLOWED;
  Prow 0x1e5d 0x1e5d PVALID;
  Prow 0x1e5e 0x1e5e DISALLOWED;
  Prow 0x1e5f 0x1e5f PVALID;
  Prow 0x1e60 0x1e60 DISALLOWED;
  Prow 0x1e61 0x1e61 PVALID;
  Prow 0x1e62 0x1e62 DISALLOWED;
  Prow 0x1e63 0x1e63 PVALID;
  Prow 0x1e64 0x1e64 DISALLOWED;
  Prow 0x1e65 0x1e65 PVALID;
  Prow 0x1e66 0x1e66 DISALLOWED;
  Prow 0x1e67 0x1e67 PVALID;
  Prow 0x1e68 0x1e68 DISALLOWED;
  Prow 0x1e69 0x1e69 PVALID;
  Prow 0x1e6a 0x1e6a DISALLOWED;
  Prow 0x1e6b 0x1e6b PVALID;
  Prow 0x1e6c 0x1e6c DISALLOWED].
Definition csv_rows_13 : list prow := [
  Prow 0x1e6d 0x1e6d PVALID;
  Prow 0x1e6e 0x1e6e DISALLOWED;
  Prow 0x1e6f 0x1e6f PVALID;
  Prow 0x1e70 0x1e70 DISALLOWED;
  Prow 0x1e71 0x1e71 PVALID;
  Prow 0x1e72 0x1e72 DISALLOWED;
  Prow 0x1e73 0x1e73 PVALID;
  Prow 0x1e74 0x1e74 DISALLOWED;
  Prow 0x1e75 0x1e75 PVALID;
  Prow 0x1e76 0x1e76 DISALLOWED;
  Prow 0x1e77 0x1e77 PVALID;
  Prow 0x1e78 0x1e78 DISALLOWED;
  Prow 0x1e79 0x1e79 PVALID;
  Prow 0x1e7a 0x1e7a DISALLOWED;
  Prow 0x1e7b 0x1e7b PVALID;
  Prow 0x1e7c 0x1e7c DISALLOWED;
  Prow 0x1e7d 0x1e7d PVALID;
  Prow 0x1e7e 0x1e7e DISALLOWED;
  Prow 0x1e7f 0x1e7f PVALID;
  Prow 0x1e80 0x1e80 DISALLOWED;
  Prow 0x1e81 0x1e81 PVALID;
  Prow 0x1e82 0x1e82 DISALLOWED;
  Prow 0x1e83 0x1e83 PVALID;
  Prow 0x1e84 0x1e84 DISALLOWED;
  Prow 0x1e85 0x1e85 PVALID;
  Prow 0x1e86 0x1e86 DISALLOWED;
  Prow 0x1e87 0x1e87 PVALID;
  Prow 0x1e88 0x1e88 DISALLOWED;
  Prow 0x1e89 0x1e89 PVALID;
  Prow 0x1e8a 0x1e8a DISALLOWED;
  Prow 0x1e8b 0x1e8b PVALID;
  Prow 0x1e8c 0x1e8c DISALLOWED;
  Prow 0x1e8d 0x1e8d PVALID;
  Prow 0x1e8e 0x1e8e DISALLOWED;
  Prow 0x1e8f 0x1e8f PVALID;
  Prow 0x1e90 0x1e90 DISALLOWED;
  Prow 0x1e91 0x1e91 PVALID;
  Prow 0x1e92 0x1e92 DISALLOWED;
  Prow 0x1e93 0x1e93 PVALID;
  Prow 0x1e94 0x1e94 DISALLOWED;
  Prow 0x1e95 0x1e99 PVALID;
  Prow 0x1e9a 0x1e9b DISALLOWED;
  Prow 0x1e9c 0x1e9d PVALID;
  Prow 0x1e9e 0x1e9e DISALLOWED;
  Prow 0x1e9f 0x1e9f PVALID;
  Prow 0x1ea0 0x1ea0 DISALLOWED;
  Prow 0x1ea1 0x1ea1 PVALID;
  Prow 0x1ea2 0x1ea2 DISALLOWED;
  Prow 0x1ea3 0x1ea3 PVALID;
  Prow 0x1ea4 0x1ea4 DISALLOWED;
  Prow 0x1ea5 0x1ea5 PVALID;
  Prow 0x1ea6 0x1ea6 DISALLOWED;
  Prow 0x1ea7 0x1ea7 PVALID;
  Prow 0x1ea8 0x1ea8 DISALLOWED;
  Prow 0x1ea9 0x1ea9 PVALID;
  Prow 0x1eaa 0x1eaa DISALLOWED;
  Prow 0x1eab 0x1eab PVALID;
  Prow 0x1eac 0x1eac DISALLOWED;
  Prow 0x1ead 0x1ead PVALID;
  Prow 0x1eae 0x1eae DISALLOWED;
  Prow 0x1eaf 0x1eaf PVALID;
  Prow 0x1eb0 0x1eb0 DISALLOWED;
  Prow 0x1eb1 0x1eb1 PVALID;
  Prow 0x1eb2 0x1eb2 DISALLOWED;
  Prow 0x1eb3 0x1eb3 PVALID;
  Prow 0x1eb4 0x1eb4 DISALLOWED;
  Prow 0x1eb5 0x1eb5 PVALID;
  Prow 0x1eb6 0x1eb6 DISALLOWED;
  Prow 0x1eb7 0x1eb7 PVALID;
  Prow 0x1eb8 0x1eb8 DISALLOWED;
  Prow 0x1eb9 0x1eb9 PVALID;
  Prow 0x1eba 0x1eba DISALLOWED;
  Prow 0x1ebb 0x1ebb PVALID;
  Prow 0x1ebc 0x1ebc DISALLOWED;
  Prow 0x1ebd 0x1ebd PVALID;
  Prow 0x1ebe 0x1ebe DISALLOWED;
  Prow 0x1ebf 0x1ebf PVALID;
  Prow 0x1ec0 0x1ec0 DISALLOWED;
  Prow 0x1ec1 0x1ec1 PVALID;
  Prow 0x1ec2 0x1ec2 DISALLOWED;
  Prow 0x1ec3 0x1ec3 PVALID;
  Prow 0x1ec4 0x1ec4 DISALLOWED;
  Prow 0x1ec5 0x1ec5 PVALID;
  Prow 0x1ec6 0x1ec6 DISALLOWED;
  Prow 0x1ec7 0x1ec7 PVALID;
  Prow 0x1ec8 0x1ec8 DISALLOWED;
  Prow 0x1ec9 0x1ec9 PVALID;
  Prow 0x1eca 0x1eca DISALLOWED;
  Prow 0x1ecb 0x1ecb PVALID;
  Prow 0x1ecc 0x1ecc DISALLOWED;
  Prow 0x1ecd 0x1ecd PVALID;
  Prow 0x1ece 0x1ece DISALLOWED;
  Prow 0x1ecf 0x1ecf PVALID;
  Prow 0x1ed0 0x1ed0 DISALLOWED;
  Prow 0x1ed1 0x1ed1 PVALID;
  Prow 0x1ed2 0x1ed2 DISALLOWED;
  Prow 0x1ed3 0x1ed3 PVALID;
  Prow 0x1ed4 0x1ed4 DISALLOWED;
  Prow 0x1ed5 0x1ed5 PVALID;
  Prow 0x1ed6 0x1ed6 DISALLOWED].
Definition csv_rows_14 : list prow := [
  Prow 0x1ed7 0x1ed7 PVALID;
  Prow 0x1ed8 0x1ed8 DISALLOWED;
  Prow 0x1ed9 0x1ed9 PVALID;
  Prow 0x1eda 0x1eda DISALLOWED;
  Prow 0x1edb 0x1edb PVALID;
  Prow 0x1edc 0x1edc DISALLOWED;
  Prow 0x1edd 0x1edd PVALID;
  Prow 0x1ede 0x1ede DISALLOWED;
  Prow 0x1edf 0x1edf PVALID;
  Prow 0x1ee0 0x1ee0 DISALLOWED;
  Prow 0x1ee1 0x1ee1 PVALID;
  Prow 0x1ee2 0x1ee2 DISALLOWED;
  Prow 0x1ee3 0x1ee3 PVALID;
  Prow 0x1ee4 0x1ee4 DISALLOWED;
  Prow 0x1ee5 0x1ee5 PVALID;
  Prow 0x1ee6 0x1ee6 DISALLOWED;
  Prow 0x1ee7 0x1ee7 PVALID;
  Prow 0x1ee8 0x1ee8 DISALLOWED;
  Prow 0x1ee9 0x1ee9 PVALID;
  Prow 0x1eea 0x1eea DISALLOWED;
  Prow 0x1eeb 0x1eeb PVALID;
  Prow 0x1eec 0x1eec DISALLOWED;
  Prow 0x1eed 0x1eed PVALID;
  Prow 0x1eee 0x1eee DISALLOWED;
  Prow 0x1eef 0x1eef PVALID;
  Prow 0x1ef0 0x1ef0 DISALLOWED;
  Prow 0x1ef1 0x1ef1 PVALID;
  Prow 0x1ef2 0x1ef2 DISALLOWED;
  Prow 0x1ef3 0x1ef3 PVALID;
  Prow 0x1ef4 0x1ef4 DISALLOWED;
  Prow 0x1ef5 0x1ef5 PVALID;
  Prow 0x1ef6 0x1ef6 DISALLOWED;
  Prow 0x1ef7 0x1ef7 PVALID;
  Prow 0x1ef8 0x1ef8 DISALLOWED;
  Prow 0x1ef9 0x1ef9 PVALID;
  Prow 0x1efa 0x1efa DISALLOWED;
  Prow 0x1efb 0x1efb PVALID;
  Prow 0x1efc 0x1efc DISALLOWED;
  Prow 0x1efd 0x1efd PVALID;
  Prow 0x1efe 0x1efe DISALLOWED;
  Prow 0x1eff 0x1f07 PVALID;
  Prow 0x1f08 0x1f0f DISALLOWED;
  Prow 0x1f10 0x1f15 PVALID;
  Prow 0x1f16 0x1f17 UNASSIGNED;
  Prow 0x1f18 0x1f1d DISALLOWED;
  Prow 0x1f1e 0x1f1f UNASSIGNED;
  Prow 0x1f20 0x1f27 PVALID;
  Prow 0x1f28 0x1f2f DISALLOWED;
  Prow 0x1f30 0x1f37 PVALID;
  Prow 0x1f38 0x1f3f DISALLOWED;
  Prow 0x1f40 0x1f45 PVALID;
  Prow 0x1f46 0x1f47 UNASSIGNED;
  Prow 0x1f48 0x1f4d DISALLOWED;
  Prow 0x1f4e 0x1f4f UNASSIGNED;
  Prow 0x1f50 0x1f57 PVALID;
  Prow 0x1f58 0x1f58 UNASSIGNED;
  Prow 0x1f59 0x1f59 DISALLOWED;
  Prow 0x1f5a 0x1f5a UNASSIGNED;
  Prow 0x1f5b 0x1f5b DISALLOWED;
  Prow 0x1f5c 0x1f5c UNASSIGNED;
  Prow 0x1f5d 0x1f5d DISALLOWED;
  Prow 0x1f5e 0x1f5e UNASSIGNED;
  Prow 0x1f5f 0x1f5f DISALLOWED;
  Prow 0x1f60 0x1f67 PVALID;
  Prow 0x1f68 0x1f6f DISALLOWED;
  Prow 0x1f70 0x1f70 PVALID;
  Prow 0x1f71 0x1f71 DISALLOWED;
  Prow 0x1f72 0x1f72 PVALID;
  Prow 0x1f73 0x1f73 DISALLOWED;
  Prow 0x1f74 0x1f74 PVALID;
  Prow 0x1f75 0x1f75 DISALLOWED;
  Prow 0x1f76 0x1f76 PVALID;
  Prow 0x1f77 0x1f77 DISALLOWED;
  Prow 0x1f78 0x1f78 PVALID;
  Prow 0x1f79 0x1f79 DISALLOWED;
  Prow 0x1f7a 0x1f7a PVALID;
  Prow 0x1f7b 0x1f7b DISALLOWED;
  Prow 0x1f7c 0x1f7c PVALID;
  Prow 0x1f7d 0x1f7d DISALLOWED;
  Prow 0x1f7e 0x1f7f UNASSIGNED;
  Prow 0x1f80 0x1faf DISALLOWED;
  Prow 0x1fb0 0x1fb1 PVALID;
  Prow 0x1fb2 0x1fb4 DISALLOWED;
  Prow 0x1fb5 0x1fb5 UNASSIGNED;
  Prow 0x1fb6 0x1fb6 PVALID;
  Prow 0x1fb7 0x1fc4 DISALLOWED;
  Prow 0x1fc5 0x1fc5 UNASSIGNED;
  Prow 0x1fc6 0x1fc6 PVALID;
  Prow 0x1fc7 0x1fcf DISALLOWED;
  Prow 0x1fd0 0x1fd2 PVALID;
  Prow 0x1fd3 0x1fd3 DISALLOWED;
  Prow 0x1fd4 0x1fd5 UNASSIGNED;
  Prow 0x1fd6 0x1fd7 PVALID;
  Prow 0x1fd8 0x1fdb DISALLOWED;
  Prow 0x1fdc 0x1fdc UNASSIGNED;
  Prow 0x1fdd 0x1fdf DISALLOWED;
  Prow 0x1fe0 0x1fe2 PVALID;
  Prow 0x1fe3 0x1fe3 DISALLOWED;
  Prow 0x1fe4 0x1fe7 PVALID;
  Prow 0x1fe8 0x1fef DISALLOWED].
Definition csv_rows_15 : list prow := [
  Prow 0x1ff0 0x1ff1 UNASSIGNED;
  Prow 0x1ff2 0x1ff4 DISALLOWED;
  Prow 0x1ff5 0x1ff5 UNASSIGNED;
  Prow 0x1ff6 0x1ff6 PVALID;
  Prow 0x1ff7 0x1ffe DISALLOWED;
  Prow 0x1fff 0x1fff UNASSIGNED;
  Prow 0x2000 0x200b DISALLOWED;
  Prow 0x200c 0x200d CONTEXTJ;
  Prow 0x200e 0x2064 DISALLOWED;
  Prow 0x2065 0x2065 UNASSIGNED;
  Prow 0x2066 0x2071 DISALLOWED;
  Prow 0x2072 0x2073 UNASSIGNED;
  Prow 0x2074 0x208e DISALLOWED;
  Prow 0x208f 0x208f UNASSIGNED;
  Prow 0x2090 0x209c DISALLOWED;
  Prow 0x209d 0x209f UNASSIGNED;
  Prow 0x20a0 0x20bf DISALLOWED;
  Prow 0x20c0 0x20cf UNASSIGNED;
  Prow 0x20d0 0x20f0 DISALLOWED;
  Prow 0x20f1 0x20ff UNASSIGNED;
  Prow 0x2100 0x214d DISALLOWED;
  Prow 0x214e 0x214e PVALID;
  Prow 0x214f 0x2183 DISALLOWED;
  Prow 0x2184 0x2184 PVALID;
  Prow 0x2185 0x218b DISALLOWED;
  Prow 0x218c 0x218f UNASSIGNED;
  Prow 0x2190 0x2426 DISALLOWED;
  Prow 0x2427 0x243f UNASSIGNED;
  Prow 0x2440 0x244a DISALLOWED;
  Prow 0x244b 0x245f UNASSIGNED;
  Prow 0x2460 0x2b73 DISALLOWED;
  Prow 0x2b74 0x2b75 UNASSIGNED;
  Prow 0x2b76 0x2b95 DISALLOWED;
  Prow 0x2b96 0x2b97 UNASSIGNED;
  Prow 0x2b98 0x2bc8 DISALLOWED;
  Prow 0x2bc9 0x2bc9 UNASSIGNED;
  Prow 0x2bca 0x2bfe DISALLOWED;
  Prow 0x2bff 0x2bff UNASSIGNED;
  Prow 0x2c00 0x2c2e DISALLOWED;
  Prow 0x2c2f 0x2c2f UNASSIGNED;
  Prow 0x2c30 0x2c5e PVALID;
  Prow 0x2c5f 0x2c5f UNASSIGNED;
  Prow 0x2c60 0x2c60 DISALLOWED;
  Prow 0x2c61 0x2c61 PVALID;
  Prow 0x2c62 0x2c64 DISALLOWED;
  Prow 0x2c65 0x2c66 PVALID;
  Prow 0x2c67 0x2c67 DISALLOWED;
  Prow 0x2c68 0x2c68 PVALID;
  Prow 0x2c69 0x2c69 DISALLOWED;
  Prow 0x2c6a 0x2c6a PVALID;
  Prow 0x2c6b 0x2c6b DISALLOWED;
  Prow 0x2c6c 0x2c6c PVALID;
  Prow 0x2c6d 0x2c70 DISALLOWED;
  Prow 0x2c71 0x2c71 PVALID;
  Prow 0x2c72 0x2c72 DISALLOWED;
  Prow 0x2c73 0x2c74 PVALID;
  Prow 0x2c75 0x2c75 DISALLOWED;
  Prow 0x2c76 0x2c7b PVALID;
  Prow 0x2c7c 0x2c80 DISALLOWED;
  Prow 0x2c81 0x2c81 PVALID;
  Prow 0x2c82 0x2c82 DISALLOWED;
  Prow 0x2c83 0x2c83 PVALID;
  Prow 0x2c84 0x2c84 DISALLOWED;
  Prow 0x2c85 0x2c85 PVALID;
  Prow 0x2c86 0x2c86 DISALLOWED;
  Prow 0x2c87 0x2c87 PVALID;
  Prow 0x2c88 0x2c88 DISALLOWED;
  Prow 0x2c89 0x2c89 PVALID;
  Prow 0x2c8a 0x2c8a DISALLOWED;
  Prow 0x2c8b 0x2c8b PVALID;
  Prow 0x2c8c 0x2c8c DISALLOWED;
  Prow 0x2c8d 0x2c8d PVALID;
  Prow 0x2c8e 0x2c8e DISALLOWED;
  Prow 0x2c8f 0x2c8f PVALID;
  Prow 0x2c90 0x2c90 DISALLOWED;
  Prow 0x2c91 0x2c91 PVALID;
  Prow 0x2c92 0x2c92 DISALLOWED;
  Prow 0x2c93 0x2c93 PVALID;
  Prow 0x2c94 0x2c94 DISALLOWED;
  Prow 0x2c95 0x2c95 PVALID;
  Prow 0x2c96 0x2c96 DISALLOWED;
  Prow 0x2c97 0x2c97 PVALID;
  Prow 0x2c98 0x2c98 DISALLOWED;
  Prow 0x2c99 0x2c99 PVALID;
  Prow 0x2c9a 0x2c9a DISALLOWED;
  Prow 0x2c9b 0x2c9b PVALID;
  Prow 0x2c9c 0x2c9c DISALLOWED;
  Prow 0x2c9d 0x2c9d PVALID;
  Prow 0x2c9e 0x2c9e DISALLOWED;
  Prow 0x2c9f 0x2c9f PVALID;
  Prow 0x2ca0 0x2ca0 DISALLOWED;
  Prow 0x2ca1 0x2ca1 PVALID;
  Prow 0x2ca2 0x2ca2 DISALLOWED;
  Prow 0x2ca3 0x2ca3 PVALID;
  Prow 0x2ca4 0x2ca4 DISALLOWED;
  Prow 0x2ca5 0x2ca5 PVALID;
  Prow 0x2ca6 0x2ca6 DISALLOWED;
  Prow 0x2ca7 0x2ca7 PVALID;
  Prow 0x2ca8 0x2ca8 DISALLOWED;
  Prow 0x2ca9 0x2ca9 PVALID].
Definition csv_rows_16 : list prow := [
  Prow 0x2caa 0x2caa DISALLOWED;
  Prow 0x2cab 0x2cab PVALID;
  Prow 0x2cac 0x2cac DISALLOWED;
  Prow 0x2cad 0x2cad PVALID;
  Prow 0x2cae 0x2cae DISALLOWED;
  Prow 0x2caf 0x2caf PVALID;
  Prow 0x2cb0 0x2cb0 DISALLOWED;
  Prow 0x2cb1 0x2cb1 PVALID;
  Prow 0x2cb2 0x2cb2 DISALLOWED;
  Prow 0x2cb3 0x2cb3 PVALID;
  Prow 0x2cb4 0x2cb4 DISALLOWED;
  Prow 0x2cb5 0x2cb5 PVALID;
  Prow 0x2cb6 0x2cb6 DISALLOWED;
  Prow 0x2cb7 0x2cb7 PVALID;
  Prow 0x2cb8 0x2cb8 DISALLOWED;
  Prow 0x2cb9 0x2cb9 PVALID;
  Prow 0x2cba 0x2cba DISALLOWED;
  Prow 0x2cbb 0x2cbb PVALID;
  Prow 0x2cbc 0x2cbc DISALLOWED;
  Prow 0x2cbd 0x2cbd PVALID;
  Prow 0x2cbe 0x2cbe DISALLOWED;
  Prow 0x2cbf 0x2cbf PVALID;
  Prow 0x2cc0 0x2cc0 DISALLOWED;
  Prow 0x2cc1 0x2cc1 PVALID;
  Prow 0x2cc2 0x2cc2 DISALLOWED;
  Prow 0x2cc3 0x2cc3 PVALID;
  Prow 0x2cc4 0x2cc4 DISALLOWED;
  Prow 0x2cc5 0x2cc5 PVALID;
  Prow 0x2cc6 0x2cc6 DISALLOWED;
  Prow 0x2cc7 0x2cc7 PVALID;
  Prow 0x2cc8 0x2cc8 DISALLOWED;
  Prow 0x2cc9 0x2cc9 PVALID;
  Prow 0x2cca 0x2cca DISALLOWED;
  Prow 0x2ccb 0x2ccb PVALID;
  Prow 0x2ccc 0x2ccc DISALLOWED;
  Prow 0x2ccd 0x2ccd PVALID;
  Prow 0x2cce 0x2cce DISALLOWED;
  Prow 0x2ccf 0x2ccf PVALID;
  Prow 0x2cd0 0x2cd0 DISALLOWED;
  Prow 0x2cd1 0x2cd1 PVALID;
  Prow 0x2cd2 0x2cd2 DISALLOWED;
  Prow 0x2cd3 0x2cd3 PVALID;
  Prow 0x2cd4 0x2cd4 DISALLOWED;
  Prow 0x2cd5 0x2cd5 PVALID;
  Prow 0x2cd6 0x2cd6 DISALLOWED;
  Prow 0x2cd7 0x2cd7 PVALID;
  Prow 0x2cd8 0x2cd8 DISALLOWED;
  Prow 0x2cd9 0x2cd9 PVALID;
  Prow 0x2cda 0x2cda DISALLOWED;
  Prow 0x2cdb 0x2cdb PVALID;
  Prow 0x2cdc 0x2cdc DISALLOWED;
  Prow 0x2cdd 0x2cdd PVALID;
  Prow 0x2cde 0x2cde DISALLOWED;
  Prow 0x2cdf 0x2cdf PVALID;
  Prow 0x2ce0 0x2ce0 DISALLOWED;
  Prow 0x2ce1 0x2ce1 PVALID;
  Prow 0x2ce2 0x2ce2 DISALLOWED;
  Prow 0x2ce3 0x2ce4 PVALID;
  Prow 0x2ce5 0x2ceb DISALLOWED;
  Prow 0x2cec 0x2cec PVALID;
  Prow 0x2ced 0x2ced DISALLOWED;
  Prow 0x2cee 0x2cf1 PVALID;
  Prow 0x2cf2 0x2cf2 DISALLOWED;
  Prow 0x2cf3 0x2cf3 PVALID;
  Prow 0x2cf4 0x2cf8 UNASSIGNED;
  Prow 0x2cf9 0x2cff DISALLOWED;
  Prow 0x2d00 0x2d25 PVALID;
  Prow 0x2d26 0x2d26 UNASSIGNED;
  Prow 0x2d27 0x2d27 PVALID;
  Prow 0x2d28 0x2d2c UNASSIGNED;
  Prow 0x2d2d 0x2d2d PVALID;
  Prow 0x2d2e 0x2d2f UNASSIGNED;
  Prow 0x2d30 0x2d67 PVALID;
  Prow 0x2d68 0x2d6e UNASSIGNED;
  Prow 0x2d6f 0x2d70 DISALLOWED;
  Prow 0x2d71 0x2d7e UNASSIGNED;
  Prow 0x2d7f 0x2d96 PVALID;
  Prow 0x2d97 0x2d9f UNASSIGNED;
  Prow 0x2da0 0x2da6 PVALID;
  Prow 0x2da7 0x2da7 UNASSIGNED;
  Prow 0x2da8 0x2dae PVALID;
  Prow 0x2daf 0x2daf UNASSIGNED;
  Prow 0x2db0 0x2db6 PVALID;
  Prow 0x2db7 0x2db7 UNASSIGNED;
  Prow 0x2db8 0x2dbe PVALID;
  Prow 0x2dbf 0x2dbf UNASSIGNED;
  Prow 0x2dc0 0x2dc6 PVALID;
  Prow 0x2dc7 0x2dc7 UNASSIGNED;
  Prow 0x2dc8 0x2dce PVALID;
  Prow 0x2dcf 0x2dcf UNASSIGNED;
  Prow 0x2dd0 0x2dd6 PVALID;
  Prow 0x2dd7 0x2dd7 UNASSIGNED;
  Prow 0x2dd8 0x2dde PVALID;
  Prow 0x2ddf 0x2ddf UNASSIGNED;
  Prow 0x2de0 0x2dff PVALID;
  Prow 0x2e00 0x2e2e DISALLOWED;
  Prow 0x2e2f 0x2e2f PVALID;
  Prow 0x2e30 0x2e4e DISALLOWED;
  Prow 0x2e4f 0x2e7f UNASSIGNED;
  Prow 0x2e80 0x2e99 DISALLOWED].
Definition csv_rows_17 : list prow := [
  Prow 0x2e9a 0x2e9a UNASSIGNED;
  Prow 0x2e9b 0x2ef3 DISALLOWED;
  Prow 0x2ef4 0x2eff UNASSIGNED;
  Prow 0x2f00 0x2fd5 DISALLOWED;
  Prow 0x2fd6 0x2fef UNASSIGNED;
  Prow 0x2ff0 0x2ffb DISALLOWED;
  Prow 0x2ffc 0x2fff UNASSIGNED;
  Prow 0x3000 0x3004 DISALLOWED;
  Prow 0x3005 0x3007 PVALID;
  Prow 0x3008 0x3029 DISALLOWED;
  Prow 0x302a 0x302d PVALID;
  Prow 0x302e 0x303b DISALLOWED;
  Prow 0x303c 0x303c PVALID;
  Prow 0x303d 0x303f DISALLOWED;
  Prow 0x3040 0x3040 UNASSIGNED;
  Prow 0x3041 0x3096 PVALID;
  Prow 0x3097 0x3098 UNASSIGNED;
  Prow 0x3099 0x309a PVALID;
  Prow 0x309b 0x309c DISALLOWED;
  Prow 0x309d 0x309e PVALID;
  Prow 0x309f 0x30a0 DISALLOWED;
  Prow 0x30a1 0x30fa PVALID;
  Prow 0x30fb 0x30fb CONTEXTO;
  Prow 0x30fc 0x30fe PVALID;
  Prow 0x30ff 0x30ff DISALLOWED;
  Prow 0x3100 0x3104 UNASSIGNED;
  Prow 0x3105 0x312f PVALID;
  Prow 0x3130 0x3130 UNASSIGNED;
  Prow 0x3131 0x318e DISALLOWED;
  Prow 0x318f 0x318f UNASSIGNED;
  Prow 0x3190 0x319f DISALLOWED;
  Prow 0x31a0 0x31ba PVALID;
  Prow 0x31bb 0x31bf UNASSIGNED;
  Prow 0x31c0 0x31e3 DISALLOWED;
  Prow 0x31e4 0x31ef UNASSIGNED;
  Prow 0x31f0 0x31ff PVALID;
  Prow 0x3200 0x321e DISALLOWED;
  Prow 0x321f 0x321f UNASSIGNED;
  Prow 0x3220 0x32fe DISALLOWED;
  Prow 0x32ff 0x32ff UNASSIGNED;
  Prow 0x3300 0x33ff DISALLOWED;
  Prow 0x3400 0x4db5 PVALID;
  Prow 0x4db6 0x4dbf UNASSIGNED;
  Prow 0x4dc0 0x4dff DISALLOWED;
  Prow 0x4e00 0x9fef PVALID;
  Prow 0x9ff0 0x9fff UNASSIGNED;
  Prow 0xa000 0xa48c PVALID;
  Prow 0xa48d 0xa48f UNASSIGNED;
  Prow 0xa490 0xa4c6 DISALLOWED;
  Prow 0xa4c7 0xa4cf UNASSIGNED;
  Prow 0xa4d0 0xa4fd PVALID;
  Prow 0xa4fe 0xa4ff DISALLOWED;
  Prow 0xa500 0xa60c PVALID;
  Prow 0xa60d 0xa60f DISALLOWED;
  Prow 0xa610 0xa62b PVALID;
  Prow 0xa62c 0xa63f UNASSIGNED;
  Prow 0xa640 0xa640 DISALLOWED;
  Prow 0xa641 0xa641 PVALID;
  Prow 0xa642 0xa642 DISALLOWED;
  Prow 0xa643 0xa643 PVALID;
  Prow 0xa644 0xa644 DISALLOWED;
  Prow 0xa645 0xa645 PVALID;
  Prow 0xa646 0xa646 DISALLOWED;
  Prow 0xa647 0xa647 PVALID;
  Prow 0xa648 0xa648 DISALLOWED;
  Prow 0xa649 0xa649 PVALID;
  Prow 0xa64a 0xa64a DISALLOWED;
  Prow 0xa64b 0xa64b PVALID;
  Prow 0xa64c 0xa64c DISALLOWED;
  Prow 0xa64d 0xa64d PVALID;
  Prow 0xa64e 0xa64e DISALLOWED;
  Prow 0xa64f 0xa64f PVALID;
  Prow 0xa650 0xa650 DISALLOWED;
  Prow 0xa651 0xa651 PVALID;
  Prow 0xa652 0xa652 DISALLOWED;
  Prow 0xa653 0xa653 PVALID;
  Prow 0xa654 0xa654 DISALLOWED;
  Prow 0xa655 0xa655 PVALID;
  Prow 0xa656 0xa656 DISALLOWED;
  Prow 0xa657 0xa657 PVALID;
  Prow 0xa658 0xa658 DISALLOWED;
  Prow 0xa659 0xa659 PVALID;
  Prow 0xa65a 0xa65a DISALLOWED;
  Prow 0xa65b 0xa65b PVALID;
  Prow 0xa65c 0xa65c DISALLOWED;
  Prow 0xa65d 0xa65d PVALID;
  Prow 0xa65e 0xa65e DISALLOWED;
  Prow 0xa65f 0xa65f PVALID;
  Prow 0xa660 0xa660 DISALLOWED;
  Prow 0xa661 0xa661 PVALID;
  Prow 0xa662 0xa662 DISALLOWED;
  Prow 0xa663 0xa663 PVALID;
  Prow 0xa664 0xa664 DISALLOWED;
  Prow 0xa665 0xa665 PVALID;
  Prow 0xa666 0xa666 DISALLOWED;
  Prow 0xa667 0xa667 PVALID;
  Prow 0xa668 0xa668 DISALLOWED;
  Prow 0xa669 0xa669 PVALID;
  Prow 0xa66a 0xa66a DISALLOWED;
  Prow 0xa66b 0xa66b PVALID].
Definition csv_rows_18 : list prow := [
  Prow 0xa66c 0xa66c DISALLOWED;
  Prow 0xa66d 0xa66f PVALID;
  Prow 0xa670 0xa673 DISALLOWED;
  Prow 0xa674 0xa67d PVALID;
  Prow 0xa67e 0xa67e DISALLOWED;
  Prow 0xa67f 0xa67f PVALID;
  Prow 0xa680 0xa680 DISALLOWED;
  Prow 0xa681 0xa681 PVALID;
  Prow 0xa682 0xa682 DISALLOWED;
  Prow 0xa683 0xa683 PVALID;
  Prow 0xa684 0xa684 DISALLOWED;
  Prow 0xa685 0xa685 PVALID;
  Prow 0xa686 0xa686 DISALLOWED;
  Prow 0xa687 0xa687 PVALID;
  Prow 0xa688 0xa688 DISALLOWED;
  Prow 0xa689 0xa689 PVALID;
  Prow 0xa68a 0xa68a DISALLOWED;
  Prow 0xa68b 0xa68b PVALID;
  Prow 0xa68c 0xa68c DISALLOWED;
  Prow 0xa68d 0xa68d PVALID;
  Prow 0xa68e 0xa68e DISALLOWED;
  Prow 0xa68f 0xa68f PVALID;
  Prow 0xa690 0xa690 DISALLOWED;
  Prow 0xa691 0xa691 PVALID;
  Prow 0xa692 0xa692 DISALLOWED;
  Prow 0xa693 0xa693 PVALID;
  Prow 0xa694 0xa694 DISALLOWED;
  Prow 0xa695 0xa695 PVALID;
  Prow 0xa696 0xa696 DISALLOWED;
  Prow 0xa697 0xa697 PVALID;
  Prow 0xa698 0xa698 DISALLOWED;
  Prow 0xa699 0xa699 PVALID;
  Prow 0xa69a 0xa69a DISALLOWED;
  Prow 0xa69b 0xa69b PVALID;
  Prow 0xa69c 0xa69d DISALLOWED;
  Prow 0xa69e 0xa6e5 PVALID;
  Prow 0xa6e6 0xa6ef DISALLOWED;
  Prow 0xa6f0 0xa6f1 PVALID;
  Prow 0xa6f2 0xa6f7 DISALLOWED;
  Prow 0xa6f8 0xa6ff UNASSIGNED;
  Prow 0xa700 0xa716 DISALLOWED;
  Prow 0xa717 0xa71f PVALID;
  Prow 0xa720 0xa722 DISALLOWED;
  Prow 0xa723 0xa723 PVALID;
  Prow 0xa724 0xa724 DISALLOWED;
  Prow 0xa725 0xa725 PVALID;
  Prow 0xa726 0xa726 DISALLOWED;
  Prow 0xa727 0xa727 PVALID;
  Prow 0xa728 0xa728 DISALLOWED;
  Prow 0xa729 0xa729 PVALID;
  Prow 0xa72a 0xa72a DISALLOWED;
  Prow 0xa72b 0xa72b PVALID;
  Prow 0xa72c 0xa72c DISALLOWED;
  Prow 0xa72d 0xa72d PVALID;
  Prow 0xa72e 0xa72e DISALLOWED;
  Prow 0xa72f 0xa731 PVALID;
  Prow 0xa732 0xa732 DISALLOWED;
  Prow 0xa733 0xa733 PVALID;
  Prow 0xa734 0xa734 DISALLOWED;
  Prow 0xa735 0xa735 PVALID;
  Prow 0xa736 0xa736 DISALLOWED;
  Prow 0xa737 0xa737 PVALID;
  Prow 0xa738 0xa738 DISALLOWED;
  Prow 0xa739 0xa739 PVALID;
  Prow 0xa73a 0xa73a DISALLOWED;
  Prow 0xa73b 0xa73b PVALID;
  Prow 0xa73c 0xa73c DISALLOWED;
  Prow 0xa73d 0xa73d PVALID;
  Prow 0xa73e 0xa73e DISALLOWED;
  Prow 0xa73f 0xa73f PVALID;
  Prow 0xa740 0xa740 DISALLOWED;
  Prow 0xa741 0xa741 PVALID;
  Prow 0xa742 0xa742 DISALLOWED;
  Prow 0xa743 0xa743 PVALID;
  Prow 0xa744 0xa744 DISALLOWED;
  Prow 0xa745 0xa745 PVALID;
  Prow 0xa746 0xa746 DISALLOWED;
  Prow 0xa747 0xa747 PVALID;
  Prow 0xa748 0xa748 DISALLOWED;
  Prow 0xa749 0xa749 PVALID;
  Prow 0xa74a 0xa74a DISALLOWED;
  Prow 0xa74b 0xa74b PVALID;
  Prow 0xa74c 0xa74c DISALLOWED;
  Prow 0xa74d 0xa74d PVALID;
  Prow 0xa74e 0xa74e DISALLOWED;
  Prow 0xa74f 0xa74f PVALID;
  Prow 0xa750 0xa750 DISALLOWED;
  Prow 0xa751 0xa751 PVALID;
  Prow 0xa752 0xa752 DISALLOWED;
  Prow 0xa753 0xa753 PVALID;
  Prow 0xa754 0xa754 DISALLOWED;
  Prow 0xa755 0xa755 PVALID;
  Prow 0xa756 0xa756 DISALLOWED;
  Prow 0xa757 0xa757 PVALID;
  Prow 0xa758 0xa758 DISALLOWED;
  Prow 0xa759 0xa759 PVALID;
  Prow 0xa75a 0xa75a DISALLOWED;
  Prow 0xa75b 0xa75b PVALID;
  Prow 0xa75c 0xa75c DISALLOWED;
  Prow 0xa75d 0xa75d PVALID].
Definition csv_rows_19 : list prow := [
  Prow 0xa75e 0xa75e DISALLOWED;
  Prow 0xa75f 0xa75f PVALID;
  Prow 0xa760 0xa760 DISALLOWED;
  Prow 0xa761 0xa761 PVALID;
  Prow 0xa762 0xa762 DISALLOWED;
  Prow 0xa763 0xa763 PVALID;
  Prow 0xa764 0xa764 DISALLOWED;
  Prow 0xa765 0xa765 PVALID;
  Prow 0xa766 0xa766 DISALLOWED;
  Prow 0xa767 0xa767 PVALID;
  Prow 0xa768 0xa768 DISALLOWED;
  Prow 0xa769 0xa769 PVALID;
  Prow 0xa76a 0xa76a DISALLOWED;
  Prow 0xa76b 0xa76b PVALID;
  Prow 0xa76c 0xa76c DISALLOWED;
  Prow 0xa76d 0xa76d PVALID;
  Prow 0xa76e 0xa76e DISALLOWED;
  Prow 0xa76f 0xa76f PVALID;
  Prow 0xa770 0xa770 DISALLOWED;
  Prow 0xa771 0xa778 PVALID;
  Prow 0xa779 0xa779 DISALLOWED;
  Prow 0xa77a 0xa77a PVALID;
  Prow 0xa77b 0xa77b DISALLOWED;
  Prow 0xa77c 0xa77c PVALID;
  Prow 0xa77d 0xa77e DISALLOWED;
  Prow 0xa77f 0xa77f PVALID;
  Prow 0xa780 0xa780 DISALLOWED;
  Prow 0xa781 0xa781 PVALID;
  Prow 0xa782 0xa782 DISALLOWED;
  Prow 0xa783 0xa783 PVALID;
  Prow 0xa784 0xa784 DISALLOWED;
  Prow 0xa785 0xa785 PVALID;
  Prow 0xa786 0xa786 DISALLOWED;
  Prow 0xa787 0xa788 PVALID;
  Prow 0xa789 0xa78b DISALLOWED;
  Prow 0xa78c 0xa78c PVALID;
  Prow 0xa78d 0xa78d DISALLOWED;
  Prow 0xa78e 0xa78f PVALID;
  Prow 0xa790 0xa790 DISALLOWED;
  Prow 0xa791 0xa791 PVALID;
  Prow 0xa792 0xa792 DISALLOWED;
  Prow 0xa793 0xa795 PVALID;
  Prow 0xa796 0xa796 DISALLOWED;
  Prow 0xa797 0xa797 PVALID;
  Prow 0xa798 0xa798 DISALLOWED;
  Prow 0xa799 0xa799 PVALID;
  Prow 0xa79a 0xa79a DISALLOWED;
  Prow 0xa79b 0xa79b PVALID;
  Prow 0xa79c 0xa79c DISALLOWED;
  Prow 0xa79d 0xa79d PVALID;
  Prow 0xa79e 0xa79e DISALLOWED;
  Prow 0xa79f 0xa79f PVALID;
  Prow 0xa7a0 0xa7a0 DISALLOWED;
  Prow 0xa7a1 0xa7a1 PVALID;
  Prow 0xa7a2 0xa7a2 DISALLOWED;
  Prow 0xa7a3 0xa7a3 PVALID;
  Prow 0xa7a4 0xa7a4 DISALLOWED;
  Prow 0xa7a5 0xa7a5 PVALID;
  Prow 0xa7a6 0xa7a6 DISALLOWED;
  Prow 0xa7a7 0xa7a7 PVALID;
  Prow 0xa7a8 0xa7a8 DISALLOWED;
  Prow 0xa7a9 0xa7a9 PVALID;
  Prow 0xa7aa 0xa7ae DISALLOWED;
  Prow 0xa7af 0xa7af PVALID;
  Prow 0xa7b0 0xa7b4 DISALLOWED;
  Prow 0xa7b5 0xa7b5 PVALID;
  Prow 0xa7b6 0xa7b6 DISALLOWED;
  Prow 0xa7b7 0xa7b7 PVALID;
  Prow 0xa7b8 0xa7b8 DISALLOWED;
  Prow 0xa7b9 0xa7b9 PVALID;
  Prow 0xa7ba 0xa7f6 UNASSIGNED;
  Prow 0xa7f7 0xa7f7 PVALID;
  Prow 0xa7f8 0xa7f9 DISALLOWED;
  Prow 0xa7fa 0xa827 PVALID;
  Prow 0xa828 0xa82b DISALLOWED;
  Prow 0xa82c 0xa82f UNASSIGNED;
  Prow 0xa830 0xa839 DISALLOWED;
  Prow 0xa83a 0xa83f UNASSIGNED;
  Prow 0xa840 0xa873 PVALID;
  Prow 0xa874 0xa877 DISALLOWED;
  Prow 0xa878 0xa87f UNASSIGNED;
  Prow 0xa880 0xa8c5 PVALID;
  Prow 0xa8c6 0xa8cd UNASSIGNED;
  Prow 0xa8ce 0xa8cf DISALLOWED;
  Prow 0xa8d0 0xa8d9 PVALID;
  Prow 0xa8da 0xa8df UNASSIGNED;
  Prow 0xa8e0 0xa8f7 PVALID;
  Prow 0xa8f8 0xa8fa DISALLOWED;
  Prow 0xa8fb 0xa8fb PVALID;
  Prow 0xa8fc 0xa8fc DISALLOWED;
  Prow 0xa8fd 0xa92d PVALID;
  Prow 0xa92e 0xa92f DISALLOWED;
  Prow 0xa930 0xa953 PVALID;
  Prow 0xa954 0xa95e UNASSIGNED;
  Prow 0xa95f 0xa97c DISALLOWED;
  Prow 0xa97d 0xa97f UNASSIGNED;
  Prow 0xa980 0xa9c0 PVALID;
  Prow 0xa9c1 0xa9cd DISALLOWED;
  Prow 0xa9ce 0xa9ce UNASSIGNED;
  Prow 0xa9cf 0xa9d9 PVALID].
Definition csv_rows_20 : list prow := [
  Prow 0xa9da 0xa9dd UNASSIGNED;
  Prow 0xa9de 0xa9df DISALLOWED;
  Prow 0xa9e0 0xa9fe PVALID;
  Prow 0xa9ff 0xa9ff UNASSIGNED;
  Prow 0xaa00 0xaa36 PVALID;
  Prow 0xaa37 0xaa3f UNASSIGNED;
  Prow 0xaa40 0xaa4d PVALID;
  Prow 0xaa4e 0xaa4f UNASSIGNED;
  Prow 0xaa50 0xaa59 PVALID;
  Prow 0xaa5a 0xaa5b UNASSIGNED;
  Prow 0xaa5c 0xaa5f DISALLOWED;
  Prow 0xaa60 0xaa76 PVALID;
  Prow 0xaa77 0xaa79 DISALLOWED;
  Prow 0xaa7a 0xaac2 PVALID;
  Prow 0xaac3 0xaada UNASSIGNED;
  Prow 0xaadb 0xaadd PVALID;
  Prow 0xaade 0xaadf DISALLOWED;
  Prow 0xaae0 0xaaef PVALID;
  Prow 0xaaf0 0xaaf1 DISALLOWED;
  Prow 0xaaf2 0xaaf6 PVALID;
  Prow 0xaaf7 0xab00 UNASSIGNED;
  Prow 0xab01 0xab06 PVALID;
  Prow 0xab07 0xab08 UNASSIGNED;
  Prow 0xab09 0xab0e PVALID;
  Prow 0xab0f 0xab10 UNASSIGNED;
  Prow 0xab11 0xab16 PVALID;
  Prow 0xab17 0xab1f UNASSIGNED;
  Prow 0xab20 0xab26 PVALID;
  Prow 0xab27 0xab27 UNASSIGNED;
  Prow 0xab28 0xab2e PVALID;
  Prow 0xab2f 0xab2f UNASSIGNED;
  Prow 0xab30 0xab5a PVALID;
  Prow 0xab5b 0xab5f DISALLOWED;
  Prow 0xab60 0xab65 PVALID;
  Prow 0xab66 0xab6f UNASSIGNED;
  Prow 0xab70 0xabbf DISALLOWED;
  Prow 0xabc0 0xabea PVALID;
  Prow 0xabeb 0xabeb DISALLOWED;
  Prow 0xabec 0xabed PVALID;
  Prow 0xabee 0xabef UNASSIGNED;
  Prow 0xabf0 0xabf9 PVALID;
  Prow 0xabfa 0xabff UNASSIGNED;
  Prow 0xac00 0xd7a3 PVALID;
  Prow 0xd7a4 0xd7af UNASSIGNED;
  Prow 0xd7b0 0xd7c6 DISALLOWED;
  Prow 0xd7c7 0xd7ca UNASSIGNED;
  Prow 0xd7cb 0xd7fb DISALLOWED;
  Prow 0xd7fc 0xd7ff UNASSIGNED;
  Prow 0xd800 0xfa0d DISALLOWED;
  Prow 0xfa0e 0xfa0f PVALID;
  Prow 0xfa10 0xfa10 DISALLOWED;
  Prow 0xfa11 0xfa11 PVALID;
  Prow 0xfa12 0xfa12 DISALLOWED;
  Prow 0xfa13 0xfa14 PVALID;
  Prow 0xfa15 0xfa1e DISALLOWED;
  Prow 0xfa1f 0xfa1f PVALID;
  Prow 0xfa20 0xfa20 DISALLOWED;
  Prow 0xfa21 0xfa21 PVALID;
  Prow 0xfa22 0xfa22 DISALLOWED;
  Prow 0xfa23 0xfa24 PVALID;
  Prow 0xfa25 0xfa26 DISALLOWED;
  Prow 0xfa27 0xfa29 PVALID;
  Prow 0xfa2a 0xfa6d DISALLOWED;
  Prow 0xfa6e 0xfa6f UNASSIGNED;
  Prow 0xfa70 0xfad9 DISALLOWED;
  Prow 0xfada 0xfaff UNASSIGNED;
  Prow 0xfb00 0xfb06 DISALLOWED;
  Prow 0xfb07 0xfb12 UNASSIGNED;
  Prow 0xfb13 0xfb17 DISALLOWED;
  Prow 0xfb18 0xfb1c UNASSIGNED;
  Prow 0xfb1d 0xfb1d DISALLOWED;
  Prow 0xfb1e 0xfb1e PVALID;
  Prow 0xfb1f 0xfb36 DISALLOWED;
  Prow 0xfb37 0xfb37 UNASSIGNED;
  Prow 0xfb38 0xfb3c DISALLOWED;
  Prow 0xfb3d 0xfb3d UNASSIGNED;
  Prow 0xfb3e 0xfb3e DISALLOWED;
  Prow 0xfb3f 0xfb3f UNASSIGNED;
  Prow 0xfb40 0xfb41 DISALLOWED;
  Prow 0xfb42 0xfb42 UNASSIGNED;
  Prow 0xfb43 0xfb44 DISALLOWED;
  Prow 0xfb45 0xfb45 UNASSIGNED;
  Prow 0xfb46 0xfbc1 DISALLOWED;
  Prow 0xfbc2 0xfbd2 UNASSIGNED;
  Prow 0xfbd3 0xfd3f DISALLOWED;
  Prow 0xfd40 0xfd4f UNASSIGNED;
  Prow 0xfd50 0xfd8f DISALLOWED;
  Prow 0xfd90 0xfd91 UNASSIGNED;
  Prow 0xfd92 0xfdc7 DISALLOWED;
  Prow 0xfdc8 0xfdcf UNASSIGNED;
  Prow 0xfdd0 0xfdfd DISALLOWED;
  Prow 0xfdfe 0xfdff UNASSIGNED;
  Prow 0xfe00 0xfe19 DISALLOWED;
  Prow 0xfe1a 0xfe1f UNASSIGNED;
  Prow 0xfe20 0xfe2f PVALID;
  Prow 0xfe30 0xfe52 DISALLOWED;
  Prow 0xfe53 0xfe53 UNASSIGNED;
  Prow 0xfe54 0xfe66 DISALLOWED;
  Prow 0xfe67 0xfe67 UNASSIGNED;
  Prow 0xfe68 0xfe6b DISALLOWED].
Definition csv_rows_21 : list prow := [
  Prow 0xfe6c 0xfe6f UNASSIGNED;
  Prow 0xfe70 0xfe72 DISALLOWED;
  Prow 0xfe73 0xfe73 PVALID;
  Prow 0xfe74 0xfe74 DISALLOWED;
  Prow 0xfe75 0xfe75 UNASSIGNED;
  Prow 0xfe76 0xfefc DISALLOWED;
  Prow 0xfefd 0xfefe UNASSIGNED;
  Prow 0xfeff 0xfeff DISALLOWED;
  Prow 0xff00 0xff00 UNASSIGNED;
  Prow 0xff01 0xffbe DISALLOWED;
  Prow 0xffbf 0xffc1 UNASSIGNED;
  Prow 0xffc2 0xffc7 DISALLOWED;
  Prow 0xffc8 0xffc9 UNASSIGNED;
  Prow 0xffca 0xffcf DISALLOWED;
  Prow 0xffd0 0xffd1 UNASSIGNED;
  Prow 0xffd2 0xffd7 DISALLOWED;
  Prow 0xffd8 0xffd9 UNASSIGNED;
  Prow 0xffda 0xffdc DISALLOWED;
  Prow 0xffdd 0xffdf UNASSIGNED;
  Prow 0xffe0 0xffe6 DISALLOWED;
  Prow 0xffe7 0xffe7 UNASSIGNED;
  Prow 0xffe8 0xffee DISALLOWED;
  Prow 0xffef 0xfff8 UNASSIGNED;
  Prow 0xfff9 0xffff DISALLOWED;
  Prow 0x10000 0x1000b PVALID;
  Prow 0x1000c 0x1000c UNASSIGNED;
  Prow 0x1000d 0x10026 PVALID;
  Prow 0x10027 0x10027 UNASSIGNED;
  Prow 0x10028 0x1003a PVALID;
  Prow 0x1003b 0x1003b UNASSIGNED;
  Prow 0x1003c 0x1003d PVALID;
  Prow 0x1003e 0x1003e UNASSIGNED;
  Prow 0x1003f 0x1004d PVALID;
  Prow 0x1004e 0x1004f UNASSIGNED;
  Prow 0x10050 0x1005d PVALID;
  Prow 0x1005e 0x1007f UNASSIGNED;
  Prow 0x10080 0x100fa PVALID;
  Prow 0x100fb 0x100ff UNASSIGNED;
  Prow 0x10100 0x10102 DISALLOWED;
  Prow 0x10103 0x10106 UNASSIGNED;
  Prow 0x10107 0x10133 DISALLOWED;
  Prow 0x10134 0x10136 UNASSIGNED;
  Prow 0x10137 0x1018e DISALLOWED;
  Prow 0x1018f 0x1018f UNASSIGNED;
  Prow 0x10190 0x1019b DISALLOWED;
  Prow 0x1019c 0x1019f UNASSIGNED;
  Prow 0x101a0 0x101a0 DISALLOWED;
  Prow 0x101a1 0x101cf UNASSIGNED;
  Prow 0x101d0 0x101fc DISALLOWED;
  Prow 0x101fd 0x101fd PVALID;
  Prow 0x101fe 0x1027f UNASSIGNED;
  Prow 0x10280 0x1029c PVALID;
  Prow 0x1029d 0x1029f UNASSIGNED;
  Prow 0x102a0 0x102d0 PVALID;
  Prow 0x102d1 0x102df UNASSIGNED;
  Prow 0x102e0 0x102e0 PVALID;
  Prow 0x102e1 0x102fb DISALLOWED;
  Prow 0x102fc 0x102ff UNASSIGNED;
  Prow 0x10300 0x1031f PVALID;
  Prow 0x10320 0x10323 DISALLOWED;
  Prow 0x10324 0x1032c UNASSIGNED;
  Prow 0x1032d 0x10340 PVALID;
  Prow 0x10341 0x10341 DISALLOWED;
  Prow 0x10342 0x10349 PVALID;
  Prow 0x1034a 0x1034a DISALLOWED;
  Prow 0x1034b 0x1034f UNASSIGNED;
  Prow 0x10350 0x1037a PVALID;
  Prow 0x1037b 0x1037f UNASSIGNED;
  Prow 0x10380 0x1039d PVALID;
  Prow 0x1039e 0x1039e UNASSIGNED;
  Prow 0x1039f 0x1039f DISALLOWED;
  Prow 0x103a0 0x103c3 PVALID;
  Prow 0x103c4 0x103c7 UNASSIGNED;
  Prow 0x103c8 0x103cf PVALID;
  Prow 0x103d0 0x103d5 DISALLOWED;
  Prow 0x103d6 0x103ff UNASSIGNED;
  Prow 0x10400 0x10427 DISALLOWED;
  Prow 0x10428 0x1049d PVALID;
  Prow 0x1049e 0x1049f UNASSIGNED;
  Prow 0x104a0 0x104a9 PVALID;
  Prow 0x104aa 0x104af UNASSIGNED;
  Prow 0x104b0 0x104d3 DISALLOWED;
  Prow 0x104d4 0x104d7 UNASSIGNED;
  Prow 0x104d8 0x104fb PVALID;
  Prow 0x104fc 0x104ff UNASSIGNED;
  Prow 0x10500 0x10527 PVALID;
  Prow 0x10528 0x1052f UNASSIGNED;
  Prow 0x10530 0x10563 PVALID;
  Prow 0x10564 0x1056e UNASSIGNED;
  Prow 0x1056f 0x1056f DISALLOWED;
  Prow 0x10570 0x105ff UNASSIGNED;
  Prow 0x10600 0x10736 PVALID;
  Prow 0x10737 0x1073f UNASSIGNED;
  Prow 0x10740 0x10755 PVALID;
  Prow 0x10756 0x1075f UNASSIGNED;
  Prow 0x10760 0x10767 PVALID;
  Prow 0x10768 0x107ff UNASSIGNED;
  Prow 0x10800 0x10805 PVALID;
  Prow 0x10806 0x10807 UNASSIGNED;
  Prow 0x10808 0x10808 PVALID].
Definition csv_rows_22 : list prow := [
  Prow 0x10809 0x10809 UNASSIGNED;
  Prow 0x1080a 0x10835 PVALID;
  Prow 0x10836 0x10836 UNASSIGNED;
  Prow 0x10837 0x10838 PVALID;
  Prow 0x10839 0x1083b UNASSIGNED;
  Prow 0x1083c 0x1083c PVALID;
  Prow 0x1083d 0x1083e UNASSIGNED;
  Prow 0x1083f 0x10855 PVALID;
  Prow 0x10856 0x10856 UNASSIGNED;
  Prow 0x10857 0x1085f DISALLOWED;
  Prow 0x10860 0x10876 PVALID;
  Prow 0x10877 0x1087f DISALLOWED;
  Prow 0x10880 0x1089e PVALID;
  Prow 0x1089f 0x108a6 UNASSIGNED;
  Prow 0x108a7 0x108af DISALLOWED;
  Prow 0x108b0 0x108df UNASSIGNED;
  Prow 0x108e0 0x108f2 PVALID;
  Prow 0x108f3 0x108f3 UNASSIGNED;
  Prow 0x108f4 0x108f5 PVALID;
  Prow 0x108f6 0x108fa UNASSIGNED;
  Prow 0x108fb 0x108ff DISALLOWED;
  Prow 0x10900 0x10915 PVALID;
  Prow 0x10916 0x1091b DISALLOWED;
  Prow 0x1091c 0x1091e UNASSIGNED;
  Prow 0x1091f 0x1091f DISALLOWED;
  Prow 0x10920 0x10939 PVALID;
  Prow 0x1093a 0x1093e UNASSIGNED;
  Prow 0x1093f 0x1093f DISALLOWED;
  Prow 0x10940 0x1097f UNASSIGNED;
  Prow 0x10980 0x109b7 PVALID;
  Prow 0x109b8 0x109bb UNASSIGNED;
  Prow 0x109bc 0x109bd DISALLOWED;
  Prow 0x109be 0x109bf PVALID;
  Prow 0x109c0 0x109cf DISALLOWED;
  Prow 0x109d0 0x109d1 UNASSIGNED;
  Prow 0x109d2 0x109ff DISALLOWED;
  Prow 0x10a00 0x10a03 PVALID;
  Prow 0x10a04 0x10a04 UNASSIGNED;
  Prow 0x10a05 0x10a06 PVALID;
  Prow 0x10a07 0x10a0b UNASSIGNED;
  Prow 0x10a0c 0x10a13 PVALID;
  Prow 0x10a14 0x10a14 UNASSIGNED;
  Prow 0x10a15 0x10a17 PVALID;
  Prow 0x10a18 0x10a18 UNASSIGNED;
  Prow 0x10a19 0x10a35 PVALID;
  Prow 0x10a36 0x10a37 UNASSIGNED;
  Prow 0x10a38 0x10a3a PVALID;
  Prow 0x10a3b 0x10a3e UNASSIGNED;
  Prow 0x10a3f 0x10a3f PVALID;
  Prow 0x10a40 0x10a48 DISALLOWED;
  Prow 0x10a49 0x10a4f UNASSIGNED;
  Prow 0x10a50 0x10a58 DISALLOWED;
  Prow 0x10a59 0x10a5f UNASSIGNED;
  Prow 0x10a60 0x10a7c PVALID;
  Prow 0x10a7d 0x10a7f DISALLOWED;
  Prow 0x10a80 0x10a9c PVALID;
  Prow 0x10a9d 0x10a9f DISALLOWED;
  Prow 0x10aa0 0x10abf UNASSIGNED;
  Prow 0x10ac0 0x10ac7 PVALID;
  Prow 0x10ac8 0x10ac8 DISALLOWED;
  Prow 0x10ac9 0x10ae6 PVALID;
  Prow 0x10ae7 0x10aea UNASSIGNED;
  Prow 0x10aeb 0x10af6 DISALLOWED;
  Prow 0x10af7 0x10aff UNASSIGNED;
  Prow 0x10b00 0x10b35 PVALID;
  Prow 0x10b36 0x10b38 UNASSIGNED;
  Prow 0x10b39 0x10b3f DISALLOWED;
  Prow 0x10b40 0x10b55 PVALID;
  Prow 0x10b56 0x10b57 UNASSIGNED;
  Prow 0x10b58 0x10b5f DISALLOWED;
  Prow 0x10b60 0x10b72 PVALID;
  Prow 0x10b73 0x10b77 UNASSIGNED;
  Prow 0x10b78 0x10b7f DISALLOWED;
  Prow 0x10b80 0x10b91 PVALID;
  Prow 0x10b92 0x10b98 UNASSIGNED;
  Prow 0x10b99 0x10b9c DISALLOWED;
  Prow 0x10b9d 0x10ba8 UNASSIGNED;
  Prow 0x10ba9 0x10baf DISALLOWED;
  Prow 0x10bb0 0x10bff UNASSIGNED;
  Prow 0x10c00 0x10c48 PVALID;
  Prow 0x10c49 0x10c7f UNASSIGNED;
  Prow 0x10c80 0x10cb2 DISALLOWED;
  Prow 0x10cb3 0x10cbf UNASSIGNED;
  Prow 0x10cc0 0x10cf2 PVALID;
  Prow 0x10cf3 0x10cf9 UNASSIGNED;
  Prow 0x10cfa 0x10cff DISALLOWED;
  Prow 0x10d00 0x10d27 PVALID;
  Prow 0x10d28 0x10d2f UNASSIGNED;
  Prow 0x10d30 0x10d39 PVALID;
  Prow 0x10d3a 0x10e5f UNASSIGNED;
  Prow 0x10e60 0x10e7e DISALLOWED;
  Prow 0x10e7f 0x10eff UNASSIGNED;
  Prow 0x10f00 0x10f1c PVALID;
  Prow 0x10f1d 0x10f26 DISALLOWED;
  Prow 0x10f27 0x10f27 PVALID;
  Prow 0x10f28 0x10f2f UNASSIGNED;
  Prow 0x10f30 0x10f50 PVALID;
  Prow 0x10f51 0x10f59 DISALLOWED;
  Prow 0x10f5a 0x10fff UNASSIGNED;
  Prow 0x11000 0x11046 PVALID].
Definition csv_rows_23 : list prow := [
  Prow 0x11047 0x1104d DISALLOWED;
  Prow 0x1104e 0x11051 UNASSIGNED;
  Prow 0x11052 0x11065 DISALLOWED;
  Prow 0x11066 0x1106f PVALID;
  Prow 0x11070 0x1107e UNASSIGNED;
  Prow 0x1107f 0x110ba PVALID;
  Prow 0x110bb 0x110c1 DISALLOWED;
  Prow 0x110c2 0x110cc UNASSIGNED;
  Prow 0x110cd 0x110cd DISALLOWED;
  Prow 0x110ce 0x110cf UNASSIGNED;
  Prow 0x110d0 0x110e8 PVALID;
  Prow 0x110e9 0x110ef UNASSIGNED;
  Prow 0x110f0 0x110f9 PVALID;
  Prow 0x110fa 0x110ff UNASSIGNED;
  Prow 0x11100 0x11134 PVALID;
  Prow 0x11135 0x11135 UNASSIGNED;
  Prow 0x11136 0x1113f PVALID;
  Prow 0x11140 0x11143 DISALLOWED;
  Prow 0x11144 0x11146 PVALID;
  Prow 0x11147 0x1114f UNASSIGNED;
  Prow 0x11150 0x11173 PVALID;
  Prow 0x11174 0x11175 DISALLOWED;
  Prow 0x11176 0x11176 PVALID;
  Prow 0x11177 0x1117f UNASSIGNED;
  Prow 0x11180 0x111c4 PVALID;
  Prow 0x111c5 0x111c8 DISALLOWED;
  Prow 0x111c9 0x111cc PVALID;
  Prow 0x111cd 0x111cd DISALLOWED;
  Prow 0x111ce 0x111cf UNASSIGNED;
  Prow 0x111d0 0x111da PVALID;
  Prow 0x111db 0x111db DISALLOWED;
  Prow 0x111dc 0x111dc PVALID;
  Prow 0x111dd 0x111df DISALLOWED;
  Prow 0x111e0 0x111e0 UNASSIGNED;
  Prow 0x111e1 0x111f4 DISALLOWED;
  Prow 0x111f5 0x111ff UNASSIGNED;
  Prow 0x11200 0x11211 PVALID;
  Prow 0x11212 0x11212 UNASSIGNED;
  Prow 0x11213 0x11237 PVALID;
  Prow 0x11238 0x1123d DISALLOWED;
  Prow 0x1123e 0x1123e PVALID;
  Prow 0x1123f 0x1127f UNASSIGNED;
  Prow 0x11280 0x11286 PVALID;
  Prow 0x11287 0x11287 UNASSIGNED;
  Prow 0x11288 0x11288 PVALID;
  Prow 0x11289 0x11289 UNASSIGNED;
  Prow 0x1128a 0x1128d PVALID;
  Prow 0x1128e 0x1128e UNASSIGNED;
  Prow 0x1128f 0x1129d PVALID;
  Prow 0x1129e 0x1129e UNASSIGNED;
  Prow 0x1129f 0x112a8 PVALID;
  Prow 0x112a9 0x112a9 DISALLOWED;
  Prow 0x112aa 0x112af UNASSIGNED;
  Prow 0x112b0 0x112ea PVALID;
  Prow 0x112eb 0x112ef UNASSIGNED;
  Prow 0x112f0 0x112f9 PVALID;
  Prow 0x112fa 0x112ff UNASSIGNED;
  Prow 0x11300 0x11303 PVALID;
  Prow 0x11304 0x11304 UNASSIGNED;
  Prow 0x11305 0x1130c PVALID;
  Prow 0x1130d 0x1130e UNASSIGNED;
  Prow 0x1130f 0x11310 PVALID;
  Prow 0x11311 0x11312 UNASSIGNED;
  Prow 0x11313 0x11328 PVALID;
  Prow 0x11329 0x11329 UNASSIGNED;
  Prow 0x1132a 0x11330 PVALID;
  Prow 0x11331 0x11331 UNASSIGNED;
  Prow 0x11332 0x11333 PVALID;
  Prow 0x11334 0x11334 UNASSIGNED;
  Prow 0x11335 0x11339 PVALID;
  Prow 0x1133a 0x1133a UNASSIGNED;
  Prow 0x1133b 0x11344 PVALID;
  Prow 0x11345 0x11346 UNASSIGNED;
  Prow 0x11347 0x11348 PVALID;
  Prow 0x11349 0x1134a UNASSIGNED;
  Prow 0x1134b 0x1134d PVALID;
  Prow 0x1134e 0x1134f UNASSIGNED;
  Prow 0x11350 0x11350 PVALID;
  Prow 0x11351 0x11356 UNASSIGNED;
  Prow 0x11357 0x11357 PVALID;
  Prow 0x11358 0x1135c UNASSIGNED;
  Prow 0x1135d 0x11363 PVALID;
  Prow 0x11364 0x11365 UNASSIGNED;
  Prow 0x11366 0x1136c PVALID;
  Prow 0x1136d 0x1136f UNASSIGNED;
  Prow 0x11370 0x11374 PVALID;
  Prow 0x11375 0x113ff UNASSIGNED;
  Prow 0x11400 0x1144a PVALID;
  Prow 0x1144b 0x1144f DISALLOWED;
  Prow 0x11450 0x11459 PVALID;
  Prow 0x1145a 0x1145a UNASSIGNED;
  Prow 0x1145b 0x1145b DISALLOWED;
  Prow 0x1145c 0x1145c UNASSIGNED;
  Prow 0x1145d 0x1145d DISALLOWED;
  Prow 0x1145e 0x1145e PVALID;
  Prow 0x1145f 0x1147f UNASSIGNED;
  Prow 0x11480 0x114c5 PVALID;
  Prow 0x114c6 0x114c6 DISALLOWED;
  Prow 0x114c7 0x114c7 PVALID;
  Prow 0x114c8 0x114cf UNASSIGNED].
Definition csv_rows_24 : list prow := [
  Prow 0x114d0 0x114d9 PVALID;
  Prow 0x114da 0x1157f UNASSIGNED;
  Prow 0x11580 0x115b5 PVALID;
  Prow 0x115b6 0x115b7 UNASSIGNED;
  Prow 0x115b8 0x115c0 PVALID;
  Prow 0x115c1 0x115d7 DISALLOWED;
  Prow 0x115d8 0x115dd PVALID;
  Prow 0x115de 0x115ff UNASSIGNED;
  Prow 0x11600 0x11640 PVALID;
  Prow 0x11641 0x11643 DISALLOWED;
  Prow 0x11644 0x11644 PVALID;
  Prow 0x11645 0x1164f UNASSIGNED;
  Prow 0x11650 0x11659 PVALID;
  Prow 0x1165a 0x1165f UNASSIGNED;
  Prow 0x11660 0x1166c DISALLOWED;
  Prow 0x1166d 0x1167f UNASSIGNED;
  Prow 0x11680 0x116b7 PVALID;
  Prow 0x116b8 0x116bf UNASSIGNED;
  Prow 0x116c0 0x116c9 PVALID;
  Prow 0x116ca 0x116ff UNASSIGNED;
  Prow 0x11700 0x1171a PVALID;
  Prow 0x1171b 0x1171c UNASSIGNED;
  Prow 0x1171d 0x1172b PVALID;
  Prow 0x1172c 0x1172f UNASSIGNED;
  Prow 0x11730 0x11739 PVALID;
  Prow 0x1173a 0x1173f DISALLOWED;
  Prow 0x11740 0x117ff UNASSIGNED;
  Prow 0x11800 0x1183a PVALID;
  Prow 0x1183b 0x1183b DISALLOWED;
  Prow 0x1183c 0x1189f UNASSIGNED;
  Prow 0x118a0 0x118bf DISALLOWED;
  Prow 0x118c0 0x118e9 PVALID;
  Prow 0x118ea 0x118f2 DISALLOWED;
  Prow 0x118f3 0x118fe UNASSIGNED;
  Prow 0x118ff 0x118ff PVALID;
  Prow 0x11900 0x119ff UNASSIGNED;
  Prow 0x11a00 0x11a3e PVALID;
  Prow 0x11a3f 0x11a46 DISALLOWED;
  Prow 0x11a47 0x11a47 PVALID;
  Prow 0x11a48 0x11a4f UNASSIGNED;
  Prow 0x11a50 0x11a83 PVALID;
  Prow 0x11a84 0x11a85 UNASSIGNED;
  Prow 0x11a86 0x11a99 PVALID;
  Prow 0x11a9a 0x11a9c DISALLOWED;
  Prow 0x11a9d 0x11a9d PVALID;
  Prow 0x11a9e 0x11aa2 DISALLOWED;
  Prow 0x11aa3 0x11abf UNASSIGNED;
  Prow 0x11ac0 0x11af8 PVALID;
  Prow 0x11af9 0x11bff UNASSIGNED;
  Prow 0x11c00 0x11c08 PVALID;
  Prow 0x11c09 0x11c09 UNASSIGNED;
  Prow 0x11c0a 0x11c36 PVALID;
  Prow 0x11c37 0x11c37 UNASSIGNED;
  Prow 0x11c38 0x11c40 PVALID;
  Prow 0x11c41 0x11c45 DISALLOWED;
  Prow 0x11c46 0x11c4f UNASSIGNED;
  Prow 0x11c50 0x11c59 PVALID;
  Prow 0x11c5a 0x11c6c DISALLOWED;
  Prow 0x11c6d 0x11c6f UNASSIGNED;
  Prow 0x11c70 0x11c71 DISALLOWED;
  Prow 0x11c72 0x11c8f PVALID;
  Prow 0x11c90 0x11c91 UNASSIGNED;
  Prow 0x11c92 0x11ca7 PVALID;
  Prow 0x11ca8 0x11ca8 UNASSIGNED;
  Prow 0x11ca9 0x11cb6 PVALID;
  Prow 0x11cb7 0x11cff UNASSIGNED;
  Prow 0x11d00 0x11d06 PVALID;
  Prow 0x11d07 0x11d07 UNASSIGNED;
  Prow 0x11d08 0x11d09 PVALID;
  Prow 0x11d0a 0x11d0a UNASSIGNED;
  Prow 0x11d0b 0x11d36 PVALID;
  Prow 0x11d37 0x11d39 UNASSIGNED;
  Prow 0x11d3a 0x11d3a PVALID;
  Prow 0x11d3b 0x11d3b UNASSIGNED;
  Prow 0x11d3c 0x11d3d PVALID;
  Prow 0x11d3e 0x11d3e UNASSIGNED;
  Prow 0x11d3f 0x11d47 PVALID;
  Prow 0x11d48 0x11d4f UNASSIGNED;
  Prow 0x11d50 0x11d59 PVALID;
  Prow 0x11d5a 0x11d5f UNASSIGNED;
  Prow 0x11d60 0x11d65 PVALID;
  Prow 0x11d66 0x11d66 UNASSIGNED;
  Prow 0x11d67 0x11d68 PVALID;
  Prow 0x11d69 0x11d69 UNASSIGNED;
  Prow 0x11d6a 0x11d8e PVALID;
  Prow 0x11d8f 0x11d8f UNASSIGNED;
  Prow 0x11d90 0x11d91 PVALID;
  Prow 0x11d92 0x11d92 UNASSIGNED;
  Prow 0x11d93 0x11d98 PVALID;
  Prow 0x11d99 0x11d9f UNASSIGNED;
  Prow 0x11da0 0x11da9 PVALID;
  Prow 0x11daa 0x11edf UNASSIGNED;
  Prow 0x11ee0 0x11ef6 PVALID;
  Prow 0x11ef7 0x11ef8 DISALLOWED;
  Prow 0x11ef9 0x11fff UNASSIGNED;
  Prow 0x12000 0x12399 PVALID;
  Prow 0x1239a 0x123ff UNASSIGNED;
  Prow 0x12400 0x1246e DISALLOWED;
  Prow 0x1246f 0x1246f UNASSIGNED;
  Prow 0x12470 0x12474 DISALLOWED].
Definition csv_rows_25 : list prow := [
  Prow 0x12475 0x1247f UNASSIGNED;
  Prow 0x12480 0x12543 PVALID;
  Prow 0x12544 0x12fff UNASSIGNED;
  Prow 0x13000 0x1342e PVALID;
  Prow 0x1342f 0x143ff UNASSIGNED;
  Prow 0x14400 0x14646 PVALID;
  Prow 0x14647 0x167ff UNASSIGNED;
  Prow 0x16800 0x16a38 PVALID;
  Prow 0x16a39 0x16a3f UNASSIGNED;
  Prow 0x16a40 0x16a5e PVALID;
  Prow 0x16a5f 0x16a5f UNASSIGNED;
  Prow 0x16a60 0x16a69 PVALID;
  Prow 0x16a6a 0x16a6d UNASSIGNED;
  Prow 0x16a6e 0x16a6f DISALLOWED;
  Prow 0x16a70 0x16acf UNASSIGNED;
  Prow 0x16ad0 0x16aed PVALID;
  Prow 0x16aee 0x16aef UNASSIGNED;
  Prow 0x16af0 0x16af4 PVALID;
  Prow 0x16af5 0x16af5 DISALLOWED;
  Prow 0x16af6 0x16aff UNASSIGNED;
  Prow 0x16b00 0x16b36 PVALID;
  Prow 0x16b37 0x16b3f DISALLOWED;
  Prow 0x16b40 0x16b43 PVALID;
  Prow 0x16b44 0x16b45 DISALLOWED;
  Prow 0x16b46 0x16b4f UNASSIGNED;
  Prow 0x16b50 0x16b59 PVALID;
  Prow 0x16b5a 0x16b5a UNASSIGNED;
  Prow 0x16b5b 0x16b61 DISALLOWED;
  Prow 0x16b62 0x16b62 UNASSIGNED;
  Prow 0x16b63 0x16b77 PVALID;
  Prow 0x16b78 0x16b7c UNASSIGNED;
  Prow 0x16b7d 0x16b8f PVALID;
  Prow 0x16b90 0x16e3f UNASSIGNED;
  Prow 0x16e40 0x16e5f DISALLOWED;
  Prow 0x16e60 0x16e7f PVALID;
  Prow 0x16e80 0x16e9a DISALLOWED;
  Prow 0x16e9b 0x16eff UNASSIGNED;
  Prow 0x16f00 0x16f44 PVALID;
  Prow 0x16f45 0x16f4f UNASSIGNED;
  Prow 0x16f50 0x16f7e PVALID;
  Prow 0x16f7f 0x16f8e UNASSIGNED;
  Prow 0x16f8f 0x16f9f PVALID;
  Prow 0x16fa0 0x16fdf UNASSIGNED;
  Prow 0x16fe0 0x16fe1 PVALID;
  Prow 0x16fe2 0x16fff UNASSIGNED;
  Prow 0x17000 0x187f1 PVALID;
  Prow 0x187f2 0x187ff UNASSIGNED;
  Prow 0x18800 0x18af2 PVALID;
  Prow 0x18af3 0x1afff UNASSIGNED;
  Prow 0x1b000 0x1b11e PVALID;
  Prow 0x1b11f 0x1b16f UNASSIGNED;
  Prow 0x1b170 0x1b2fb PVALID;
  Prow 0x1b2fc 0x1bbff UNASSIGNED;
  Prow 0x1bc00 0x1bc6a PVALID;
  Prow 0x1bc6b 0x1bc6f UNASSIGNED;
  Prow 0x1bc70 0x1bc7c PVALID;
  Prow 0x1bc7d 0x1bc7f UNASSIGNED;
  Prow 0x1bc80 0x1bc88 PVALID;
  Prow 0x1bc89 0x1bc8f UNASSIGNED;
  Prow 0x1bc90 0x1bc99 PVALID;
  Prow 0x1bc9a 0x1bc9b UNASSIGNED;
  Prow 0x1bc9c 0x1bc9c DISALLOWED;
  Prow 0x1bc9d 0x1bc9e PVALID;
  Prow 0x1bc9f 0x1bca3 DISALLOWED;
  Prow 0x1bca4 0x1cfff UNASSIGNED;
  Prow 0x1d000 0x1d0f5 DISALLOWED;
  Prow 0x1d0f6 0x1d0ff UNASSIGNED;
  Prow 0x1d100 0x1d126 DISALLOWED;
  Prow 0x1d127 0x1d128 UNASSIGNED;
  Prow 0x1d129 0x1d1e8 DISALLOWED;
  Prow 0x1d1e9 0x1d1ff UNASSIGNED;
  Prow 0x1d200 0x1d245 DISALLOWED;
  Prow 0x1d246 0x1d2df UNASSIGNED;
  Prow 0x1d2e0 0x1d2f3 DISALLOWED;
  Prow 0x1d2f4 0x1d2ff UNASSIGNED;
  Prow 0x1d300 0x1d356 DISALLOWED;
  Prow 0x1d357 0x1d35f UNASSIGNED;
  Prow 0x1d360 0x1d378 DISALLOWED;
  Prow 0x1d379 0x1d3ff UNASSIGNED;
  Prow 0x1d400 0x1d454 DISALLOWED;
  Prow 0x1d455 0x1d455 UNASSIGNED;
  Prow 0x1d456 0x1d49c DISALLOWED;
  Prow 0x1d49d 0x1d49d UNASSIGNED;
  Prow 0x1d49e 0x1d49f DISALLOWED;
  Prow 0x1d4a0 0x1d4a1 UNASSIGNED;
  Prow 0x1d4a2 0x1d4a2 DISALLOWED;
  Prow 0x1d4a3 0x1d4a4 UNASSIGNED;
  Prow 0x1d4a5 0x1d4a6 DISALLOWED;
  Prow 0x1d4a7 0x1d4a8 UNASSIGNED;
  Prow 0x1d4a9 0x1d4ac DISALLOWED;
  Prow 0x1d4ad 0x1d4ad UNASSIGNED;
  Prow 0x1d4ae 0x1d4b9 DISALLOWED;
  Prow 0x1d4ba 0x1d4ba UNASSIGNED;
  Prow 0x1d4bb 0x1d4bb DISALLOWED;
  Prow 0x1d4bc 0x1d4bc UNASSIGNED;
  Prow 0x1d4bd 0x1d4c3 DISALLOWED;
  Prow 0x1d4c4 0x1d4c4 UNASSIGNED;
  Prow 0x1d4c5 0x1d505 DISALLOWED;
  Prow 0x1d506 0x1d506 UNASSIGNED;
  Prow 0x1d507 0x1d50a DISALLOWED].
Definition csv_rows_26 : list prow := [
  Prow 0x1d50b 0x1d50c UNASSIGNED;
  Prow 0x1d50d 0x1d514 DISALLOWED;
  Prow 0x1d515 0x1d515 UNASSIGNED;
  Prow 0x1d516 0x1d51c DISALLOWED;
  Prow 0x1d51d 0x1d51d UNASSIGNED;
  Prow 0x1d51e 0x1d539 DISALLOWED;
  Prow 0x1d53a 0x1d53a UNASSIGNED;
  Prow 0x1d53b 0x1d53e DISALLOWED;
  Prow 0x1d53f 0x1d53f UNASSIGNED;
  Prow 0x1d540 0x1d544 DISALLOWED;
  Prow 0x1d545 0x1d545 UNASSIGNED;
  Prow 0x1d546 0x1d546 DISALLOWED;
  Prow 0x1d547 0x1d549 UNASSIGNED;
  Prow 0x1d54a 0x1d550 DISALLOWED;
  Prow 0x1d551 0x1d551 UNASSIGNED;
  Prow 0x1d552 0x1d6a5 DISALLOWED;
  Prow 0x1d6a6 0x1d6a7 UNASSIGNED;
  Prow 0x1d6a8 0x1d7cb DISALLOWED;
  Prow 0x1d7cc 0x1d7cd UNASSIGNED;
  Prow 0x1d7ce 0x1d9ff DISALLOWED;
  Prow 0x1da00 0x1da36 PVALID;
  Prow 0x1da37 0x1da3a DISALLOWED;
  Prow 0x1da3b 0x1da6c PVALID;
  Prow 0x1da6d 0x1da74 DISALLOWED;
  Prow 0x1da75 0x1da75 PVALID;
  Prow 0x1da76 0x1da83 DISALLOWED;
  Prow 0x1da84 0x1da84 PVALID;
  Prow 0x1da85 0x1da8b DISALLOWED;
  Prow 0x1da8c 0x1da9a UNASSIGNED;
  Prow 0x1da9b 0x1da9f PVALID;
  Prow 0x1daa0 0x1daa0 UNASSIGNED;
  Prow 0x1daa1 0x1daaf PVALID;
  Prow 0x1dab0 0x1dfff UNASSIGNED;
  Prow 0x1e000 0x1e006 PVALID;
  Prow 0x1e007 0x1e007 UNASSIGNED;
  Prow 0x1e008 0x1e018 PVALID;
  Prow 0x1e019 0x1e01a UNASSIGNED;
  Prow 0x1e01b 0x1e021 PVALID;
  Prow 0x1e022 0x1e022 UNASSIGNED;
  Prow 0x1e023 0x1e024 PVALID;
  Prow 0x1e025 0x1e025 UNASSIGNED;
  Prow 0x1e026 0x1e02a PVALID;
  Prow 0x1e02b 0x1e7ff UNASSIGNED;
  Prow 0x1e800 0x1e8c4 PVALID;
  Prow 0x1e8c5 0x1e8c6 UNASSIGNED;
  Prow 0x1e8c7 0x1e8cf DISALLOWED;
  Prow 0x1e8d0 0x1e8d6 PVALID;
  Prow 0x1e8d7 0x1e8ff UNASSIGNED;
  Prow 0x1e900 0x1e921 DISALLOWED;
  Prow 0x1e922 0x1e94a PVALID;
  Prow 0x1e94b 0x1e94f UNASSIGNED;
  Prow 0x1e950 0x1e959 PVALID;
  Prow 0x1e95a 0x1e95d UNASSIGNED;
  Prow 0x1e95e 0x1e95f DISALLOWED;
  Prow 0x1e960 0x1ec70 UNASSIGNED;
  Prow 0x1ec71 0x1ecb4 DISALLOWED;
  Prow 0x1ecb5 0x1edff UNASSIGNED;
  Prow 0x1ee00 0x1ee03 DISALLOWED;
  Prow 0x1ee04 0x1ee04 UNASSIGNED;
  Prow 0x1ee05 0x1ee1f DISALLOWED;
  Prow 0x1ee20 0x1ee20 UNASSIGNED;
  Prow 0x1ee21 0x1ee22 DISALLOWED;
  Prow 0x1ee23 0x1ee23 UNASSIGNED;
  Prow 0x1ee24 0x1ee24 DISALLOWED;
  Prow 0x1ee25 0x1ee26 UNASSIGNED;
  Prow 0x1ee27 0x1ee27 DISALLOWED;
  Prow 0x1ee28 0x1ee28 UNASSIGNED;
  Prow 0x1ee29 0x1ee32 DISALLOWED;
  Prow 0x1ee33 0x1ee33 UNASSIGNED;
  Prow 0x1ee34 0x1ee37 DISALLOWED;
  Prow 0x1ee38 0x1ee38 UNASSIGNED;
  Prow 0x1ee39 0x1ee39 DISALLOWED;
  Prow 0x1ee3a 0x1ee3a UNASSIGNED;
  Prow 0x1ee3b 0x1ee3b DISALLOWED;
  Prow 0x1ee3c 0x1ee41 UNASSIGNED;
  Prow 0x1ee42 0x1ee42 DISALLOWED;
  Prow 0x1ee43 0x1ee46 UNASSIGNED;
  Prow 0x1ee47 0x1ee47 DISALLOWED;
  Prow 0x1ee48 0x1ee48 UNASSIGNED;
  Prow 0x1ee49 0x1ee49 DISALLOWED;
  Prow 0x1ee4a 0x1ee4a UNASSIGNED;
  Prow 0x1ee4b 0x1ee4b DISALLOWED;
  Prow 0x1ee4c 0x1ee4c UNASSIGNED;
  Prow 0x1ee4d 0x1ee4f DISALLOWED;
  Prow 0x1ee50 0x1ee50 UNASSIGNED;
  Prow 0x1ee51 0x1ee52 DISALLOWED;
  Prow 0x1ee53 0x1ee53 UNASSIGNED;
  Prow 0x1ee54 0x1ee54 DISALLOWED;
  Prow 0x1ee55 0x1ee56 UNASSIGNED;
  Prow 0x1ee57 0x1ee57 DISALLOWED;
  Prow 0x1ee58 0x1ee58 UNASSIGNED;
  Prow 0x1ee59 0x1ee59 DISALLOWED;
  Prow 0x1ee5a 0x1ee5a UNASSIGNED;
  Prow 0x1ee5b 0x1ee5b DISALLOWED;
  Prow 0x1ee5c 0x1ee5c UNASSIGNED;
  Prow 0x1ee5d 0x1ee5d DISALLOWED;
  Prow 0x1ee5e 0x1ee5e UNASSIGNED;
  Prow 0x1ee5f 0x1ee5f DISALLOWED;
  Prow 0x1ee60 0x1ee60 UNASSIGNED;
  Prow 0x1ee61 0x1ee62 DISALLOWED].
Definition csv_rows_27 : list prow := [
  Prow 0x1ee63 0x1ee63 UNASSIGNED;
  Prow 0x1ee64 0x1ee64 DISALLOWED;
  Prow 0x1ee65 0x1ee66 UNASSIGNED;
  Prow 0x1ee67 0x1ee6a DISALLOWED;
  Prow 0x1ee6b 0x1ee6b UNASSIGNED;
  Prow 0x1ee6c 0x1ee72 DISALLOWED;
  Prow 0x1ee73 0x1ee73 UNASSIGNED;
  Prow 0x1ee74 0x1ee77 DISALLOWED;
  Prow 0x1ee78 0x1ee78 UNASSIGNED;
  Prow 0x1ee79 0x1ee7c DISALLOWED;
  Prow 0x1ee7d 0x1ee7d UNASSIGNED;
  Prow 0x1ee7e 0x1ee7e DISALLOWED;
  Prow 0x1ee7f 0x1ee7f UNASSIGNED;
  Prow 0x1ee80 0x1ee89 DISALLOWED;
  Prow 0x1ee8a 0x1ee8a UNASSIGNED;
  Prow 0x1ee8b 0x1ee9b DISALLOWED;
  Prow 0x1ee9c 0x1eea0 UNASSIGNED;
  Prow 0x1eea1 0x1eea3 DISALLOWED;
  Prow 0x1eea4 0x1eea4 UNASSIGNED;
  Prow 0x1eea5 0x1eea9 DISALLOWED;
  Prow 0x1eeaa 0x1eeaa UNASSIGNED;
  Prow 0x1eeab 0x1eebb DISALLOWED;
  Prow 0x1eebc 0x1eeef UNASSIGNED;
  Prow 0x1eef0 0x1eef1 DISALLOWED;
  Prow 0x1eef2 0x1efff UNASSIGNED;
  Prow 0x1f000 0x1f02b DISALLOWED;
  Prow 0x1f02c 0x1f02f UNASSIGNED;
  Prow 0x1f030 0x1f093 DISALLOWED;
  Prow 0x1f094 0x1f09f UNASSIGNED;
  Prow 0x1f0a0 0x1f0ae DISALLOWED;
  Prow 0x1f0af 0x1f0b0 UNASSIGNED;
  Prow 0x1f0b1 0x1f0bf DISALLOWED;
  Prow 0x1f0c0 0x1f0c0 UNASSIGNED;
  Prow 0x1f0c1 0x1f0cf DISALLOWED;
  Prow 0x1f0d0 0x1f0d0 UNASSIGNED;
  Prow 0x1f0d1 0x1f0f5 DISALLOWED;
  Prow 0x1f0f6 0x1f0ff UNASSIGNED;
  Prow 0x1f100 0x1f10c DISALLOWED;
  Prow 0x1f10d 0x1f10f UNASSIGNED;
  Prow 0x1f110 0x1f16b DISALLOWED;
  Prow 0x1f16c 0x1f16f UNASSIGNED;
  Prow 0x1f170 0x1f1ac DISALLOWED;
  Prow 0x1f1ad 0x1f1e5 UNASSIGNED;
  Prow 0x1f1e6 0x1f202 DISALLOWED;
  Prow 0x1f203 0x1f20f UNASSIGNED;
  Prow 0x1f210 0x1f23b DISALLOWED;
  Prow 0x1f23c 0x1f23f UNASSIGNED;
  Prow 0x1f240 0x1f248 DISALLOWED;
  Prow 0x1f249 0x1f24f UNASSIGNED;
  Prow 0x1f250 0x1f251 DISALLOWED;
  Prow 0x1f252 0x1f25f UNASSIGNED;
  Prow 0x1f260 0x1f265 DISALLOWED;
  Prow 0x1f266 0x1f2ff UNASSIGNED;
  Prow 0x1f300 0x1f6d4 DISALLOWED;
  Prow 0x1f6d5 0x1f6df UNASSIGNED;
  Prow 0x1f6e0 0x1f6ec DISALLOWED;
  Prow 0x1f6ed 0x1f6ef UNASSIGNED;
  Prow 0x1f6f0 0x1f6f9 DISALLOWED;
  Prow 0x1f6fa 0x1f6ff UNASSIGNED;
  Prow 0x1f700 0x1f773 DISALLOWED;
  Prow 0x1f774 0x1f77f UNASSIGNED;
  Prow 0x1f780 0x1f7d8 DISALLOWED;
  Prow 0x1f7d9 0x1f7ff UNASSIGNED;
  Prow 0x1f800 0x1f80b DISALLOWED;
  Prow 0x1f80c 0x1f80f UNASSIGNED;
  Prow 0x1f810 0x1f847 DISALLOWED;
  Prow 0x1f848 0x1f84f UNASSIGNED;
  Prow 0x1f850 0x1f859 DISALLOWED;
  Prow 0x1f85a 0x1f85f UNASSIGNED;
  Prow 0x1f860 0x1f887 DISALLOWED;
  Prow 0x1f888 0x1f88f UNASSIGNED;
  Prow 0x1f890 0x1f8ad DISALLOWED;
  Prow 0x1f8ae 0x1f8ff UNASSIGNED;
  Prow 0x1f900 0x1f90b DISALLOWED;
  Prow 0x1f90c 0x1f90f UNASSIGNED;
  Prow 0x1f910 0x1f93e DISALLOWED;
  Prow 0x1f93f 0x1f93f UNASSIGNED;
  Prow 0x1f940 0x1f970 DISALLOWED;
  Prow 0x1f971 0x1f972 UNASSIGNED;
  Prow 0x1f973 0x1f976 DISALLOWED;
  Prow 0x1f977 0x1f979 UNASSIGNED;
  Prow 0x1f97a 0x1f97a DISALLOWED;
  Prow 0x1f97b 0x1f97b UNASSIGNED;
  Prow 0x1f97c 0x1f9a2 DISALLOWED;
  Prow 0x1f9a3 0x1f9af UNASSIGNED;
  Prow 0x1f9b0 0x1f9b9 DISALLOWED;
  Prow 0x1f9ba 0x1f9bf UNASSIGNED;
  Prow 0x1f9c0 0x1f9c2 DISALLOWED;
  Prow 0x1f9c3 0x1f9cf UNASSIGNED;
  Prow 0x1f9d0 0x1f9ff DISALLOWED;
  Prow 0x1fa00 0x1fa5f UNASSIGNED;
  Prow 0x1fa60 0x1fa6d DISALLOWED;
  Prow 0x1fa6e 0x1fffd UNASSIGNED;
  Prow 0x1fffe 0x1ffff DISALLOWED;
  Prow 0x20000 0x2a6d6 PVALID;
  Prow 0x2a6d7 0x2a6ff UNASSIGNED;
  Prow 0x2a700 0x2b734 PVALID;
  Prow 0x2b735 0x2b73f UNASSIGNED;
  Prow 0x2b740 0x2b81d PVALID;
  Prow 0x2b81e 0x2b81f UNASSIGNED].
Definition csv_rows_28 : list prow := [
  Prow 0x2b820 0x2cea1 PVALID;
  Prow 0x2cea2 0x2ceaf UNASSIGNED;
  Prow 0x2ceb0 0x2ebe0 PVALID;
  Prow 0x2ebe1 0x2f7ff UNASSIGNED;
  Prow 0x2f800 0x2fa1d DISALLOWED;
  Prow 0x2fa1e 0x2fffd UNASSIGNED;
  Prow 0x2fffe 0x2ffff DISALLOWED;
  Prow 0x30000 0x3fffd UNASSIGNED;
  Prow 0x3fffe 0x3ffff DISALLOWED;
  Prow 0x40000 0x4fffd UNASSIGNED;
  Prow 0x4fffe 0x4ffff DISALLOWED;
  Prow 0x50000 0x5fffd UNASSIGNED;
  Prow 0x5fffe 0x5ffff DISALLOWED;
  Prow 0x60000 0x6fffd UNASSIGNED;
  Prow 0x6fffe 0x6ffff DISALLOWED;
  Prow 0x70000 0x7fffd UNASSIGNED;
  Prow 0x7fffe 0x7ffff DISALLOWED;
  Prow 0x80000 0x8fffd UNASSIGNED;
  Prow 0x8fffe 0x8ffff DISALLOWED;
  Prow 0x90000 0x9fffd UNASSIGNED;
  Prow 0x9fffe 0x9ffff DISALLOWED;
  Prow 0xa0000 0xafffd UNASSIGNED;
  Prow 0xafffe 0xaffff DISALLOWED;
  Prow 0xb0000 0xbfffd UNASSIGNED;
  Prow 0xbfffe 0xbffff DISALLOWED;
  Prow 0xc0000 0xcfffd UNASSIGNED;
  Prow 0xcfffe 0xcffff DISALLOWED;
  Prow 0xd0000 0xdfffd UNASSIGNED;
  Prow 0xdfffe 0xdffff DISALLOWED;
  Prow 0xe0000 0xe0000 UNASSIGNED;
  Prow 0xe0001 0xe0001 DISALLOWED;
  Prow 0xe0002 0xe001f UNASSIGNED;
  Prow 0xe0020 0xe007f DISALLOWED;
  Prow 0xe0080 0xe00ff UNASSIGNED;
  Prow 0xe0100 0xe01ef DISALLOWED;
  Prow 0xe01f0 0xefffd UNASSIGNED;
  Prow 0xefffe 0x10ffff DISALLOWED].
Definition csv_rows : list prow :=
  concat [csv_rows_0; csv_rows_1; csv_rows_2; csv_rows_3; csv_rows_4; csv_rows_5; csv_rows_6; csv_rows_7; csv_rows_8; csv_rows_9; csv_rows_10; csv_rows_11; csv_rows_12; csv_rows_13; csv_rows_14; csv_rows_15; csv_rows_16; csv_rows_17; csv_rows_18; csv_rows_19; csv_rows_20; csv_rows_21; csv_rows_22; csv_rows_23; csv_rows_24; csv_rows_25; csv_rows_26; csv_rows_27; csv_rows_28].
