(** Reference data of the Unicode Character Database, version 14.0.0. Not taken from /repo: printed by a
    program from the [unicodedata] module and the [str] methods of another implementation (CPython 3.11):
    [unicodedata.category], [mirrored] and [numeric], [str.islower], [isupper] and [isidentifier].
    [isidentifier] also allows a leading low line, which is taken out of [ref_xid_start]. *)
From Coq Require Import ZArith List Bool.
From Verif Require Import Unicode.
Import ListNotations.
Open Scope Z_scope.

Definition in_ranges (l : list (Z * Z)) (u : Z) : bool := existsb (fun p => (fst p <=? u) && (u <=? snd p)) l.

(** First and last code point and general category; the others are unassigned. *)
Definition ref_categories : list (Z * Z * Z) :=
  [(0x0, 0x1f, gc_cc); (0x20, 0x20, gc_zs); (0x21, 0x23, gc_po); (0x24, 0x24, gc_sc); (0x25, 0x27, gc_po);
   (0x28, 0x28, gc_ps); (0x29, 0x29, gc_pe); (0x2a, 0x2a, gc_po); (0x2b, 0x2b, gc_sm); (0x2c, 0x2c, gc_po);
   (0x2d, 0x2d, gc_pd); (0x2e, 0x2f, gc_po); (0x30, 0x39, gc_nd); (0x3a, 0x3b, gc_po); (0x3c, 0x3e, gc_sm);
   (0x3f, 0x40, gc_po); (0x41, 0x5a, gc_lu); (0x5b, 0x5b, gc_ps); (0x5c, 0x5c, gc_po); (0x5d, 0x5d, gc_pe);
   (0x5e, 0x5e, gc_sk); (0x5f, 0x5f, gc_pc); (0x60, 0x60, gc_sk); (0x61, 0x7a, gc_ll); (0x7b, 0x7b, gc_ps);
   (0x7c, 0x7c, gc_sm); (0x7d, 0x7d, gc_pe); (0x7e, 0x7e, gc_sm); (0x7f, 0x9f, gc_cc); (0xa0, 0xa0, gc_zs);
   (0xa1, 0xa1, gc_po); (0xa2, 0xa5, gc_sc); (0xa6, 0xa6, gc_so); (0xa7, 0xa7, gc_po); (0xa8, 0xa8, gc_sk);
   (0xa9, 0xa9, gc_so); (0xaa, 0xaa, gc_lo); (0xab, 0xab, gc_pi); (0xac, 0xac, gc_sm); (0xad, 0xad, gc_cf);
   (0xae, 0xae, gc_so); (0xaf, 0xaf, gc_sk); (0xb0, 0xb0, gc_so); (0xb1, 0xb1, gc_sm); (0xb2, 0xb3, gc_no);
   (0xb4, 0xb4, gc_sk); (0xb5, 0xb5, gc_ll); (0xb6, 0xb7, gc_po); (0xb8, 0xb8, gc_sk); (0xb9, 0xb9, gc_no);
   (0xba, 0xba, gc_lo); (0xbb, 0xbb, gc_pf); (0xbc, 0xbe, gc_no); (0xbf, 0xbf, gc_po); (0xc0, 0xd6, gc_lu);
   (0xd7, 0xd7, gc_sm); (0xd8, 0xde, gc_lu); (0xdf, 0xf6, gc_ll); (0xf7, 0xf7, gc_sm); (0xf8, 0xff, gc_ll);
   (0x100, 0x100, gc_lu); (0x101, 0x101, gc_ll); (0x102, 0x102, gc_lu); (0x103, 0x103, gc_ll); (0x104, 0x104, gc_lu);
   (0x105, 0x105, gc_ll); (0x106, 0x106, gc_lu); (0x107, 0x107, gc_ll); (0x108, 0x108, gc_lu); (0x109, 0x109, gc_ll);
   (0x10a, 0x10a, gc_lu); (0x10b, 0x10b, gc_ll); (0x10c, 0x10c, gc_lu); (0x10d, 0x10d, gc_ll); (0x10e, 0x10e, gc_lu);
   (0x10f, 0x10f, gc_ll); (0x110, 0x110, gc_lu); (0x111, 0x111, gc_ll); (0x112, 0x112, gc_lu); (0x113, 0x113, gc_ll);
   (0x114, 0x114, gc_lu); (0x115, 0x115, gc_ll); (0x116, 0x116, gc_lu); (0x117, 0x117, gc_ll); (0x118, 0x118, gc_lu);
   (0x119, 0x119, gc_ll); (0x11a, 0x11a, gc_lu); (0x11b, 0x11b, gc_ll); (0x11c, 0x11c, gc_lu); (0x11d, 0x11d, gc_ll);
   (0x11e, 0x11e, gc_lu); (0x11f, 0x11f, gc_ll); (0x120, 0x120, gc_lu); (0x121, 0x121, gc_ll); (0x122, 0x122, gc_lu);
   (0x123, 0x123, gc_ll); (0x124, 0x124, gc_lu); (0x125, 0x125, gc_ll); (0x126, 0x126, gc_lu); (0x127, 0x127, gc_ll);
   (0x128, 0x128, gc_lu); (0x129, 0x129, gc_ll); (0x12a, 0x12a, gc_lu); (0x12b, 0x12b, gc_ll); (0x12c, 0x12c, gc_lu);
   (0x12d, 0x12d, gc_ll); (0x12e, 0x12e, gc_lu); (0x12f, 0x12f, gc_ll); (0x130, 0x130, gc_lu); (0x131, 0x131, gc_ll);
   (0x132, 0x132, gc_lu); (0x133, 0x133, gc_ll); (0x134, 0x134, gc_lu); (0x135, 0x135, gc_ll); (0x136, 0x136, gc_lu);
   (0x137, 0x138, gc_ll); (0x139, 0x139, gc_lu); (0x13a, 0x13a, gc_ll); (0x13b, 0x13b, gc_lu); (0x13c, 0x13c, gc_ll);
   (0x13d, 0x13d, gc_lu); (0x13e, 0x13e, gc_ll); (0x13f, 0x13f, gc_lu); (0x140, 0x140, gc_ll); (0x141, 0x141, gc_lu);
   (0x142, 0x142, gc_ll); (0x143, 0x143, gc_lu); (0x144, 0x144, gc_ll); (0x145, 0x145, gc_lu); (0x146, 0x146, gc_ll);
   (0x147, 0x147, gc_lu); (0x148, 0x149, gc_ll); (0x14a, 0x14a, gc_lu); (0x14b, 0x14b, gc_ll); (0x14c, 0x14c, gc_lu);
   (0x14d, 0x14d, gc_ll); (0x14e, 0x14e, gc_lu); (0x14f, 0x14f, gc_ll); (0x150, 0x150, gc_lu); (0x151, 0x151, gc_ll);
   (0x152, 0x152, gc_lu); (0x153, 0x153, gc_ll); (0x154, 0x154, gc_lu); (0x155, 0x155, gc_ll); (0x156, 0x156, gc_lu);
   (0x157, 0x157, gc_ll); (0x158, 0x158, gc_lu); (0x159, 0x159, gc_ll); (0x15a, 0x15a, gc_lu); (0x15b, 0x15b, gc_ll);
   (0x15c, 0x15c, gc_lu); (0x15d, 0x15d, gc_ll); (0x15e, 0x15e, gc_lu); (0x15f, 0x15f, gc_ll); (0x160, 0x160, gc_lu);
   (0x161, 0x161, gc_ll); (0x162, 0x162, gc_lu); (0x163, 0x163, gc_ll); (0x164, 0x164, gc_lu); (0x165, 0x165, gc_ll);
   (0x166, 0x166, gc_lu); (0x167, 0x167, gc_ll); (0x168, 0x168, gc_lu); (0x169, 0x169, gc_ll); (0x16a, 0x16a, gc_lu);
   (0x16b, 0x16b, gc_ll); (0x16c, 0x16c, gc_lu); (0x16d, 0x16d, gc_ll); (0x16e, 0x16e, gc_lu); (0x16f, 0x16f, gc_ll);
   (0x170, 0x170, gc_lu); (0x171, 0x171, gc_ll); (0x172, 0x172, gc_lu); (0x173, 0x173, gc_ll); (0x174, 0x174, gc_lu);
   (0x175, 0x175, gc_ll); (0x176, 0x176, gc_lu); (0x177, 0x177, gc_ll); (0x178, 0x179, gc_lu); (0x17a, 0x17a, gc_ll);
   (0x17b, 0x17b, gc_lu); (0x17c, 0x17c, gc_ll); (0x17d, 0x17d, gc_lu); (0x17e, 0x180, gc_ll); (0x181, 0x182, gc_lu);
   (0x183, 0x183, gc_ll); (0x184, 0x184, gc_lu); (0x185, 0x185, gc_ll); (0x186, 0x187, gc_lu); (0x188, 0x188, gc_ll);
   (0x189, 0x18b, gc_lu); (0x18c, 0x18d, gc_ll); (0x18e, 0x191, gc_lu); (0x192, 0x192, gc_ll); (0x193, 0x194, gc_lu);
   (0x195, 0x195, gc_ll); (0x196, 0x198, gc_lu); (0x199, 0x19b, gc_ll); (0x19c, 0x19d, gc_lu); (0x19e, 0x19e, gc_ll);
   (0x19f, 0x1a0, gc_lu); (0x1a1, 0x1a1, gc_ll); (0x1a2, 0x1a2, gc_lu); (0x1a3, 0x1a3, gc_ll); (0x1a4, 0x1a4, gc_lu);
   (0x1a5, 0x1a5, gc_ll); (0x1a6, 0x1a7, gc_lu); (0x1a8, 0x1a8, gc_ll); (0x1a9, 0x1a9, gc_lu); (0x1aa, 0x1ab, gc_ll);
   (0x1ac, 0x1ac, gc_lu); (0x1ad, 0x1ad, gc_ll); (0x1ae, 0x1af, gc_lu); (0x1b0, 0x1b0, gc_ll); (0x1b1, 0x1b3, gc_lu);
   (0x1b4, 0x1b4, gc_ll); (0x1b5, 0x1b5, gc_lu); (0x1b6, 0x1b6, gc_ll); (0x1b7, 0x1b8, gc_lu); (0x1b9, 0x1ba, gc_ll);
   (0x1bb, 0x1bb, gc_lo); (0x1bc, 0x1bc, gc_lu); (0x1bd, 0x1bf, gc_ll); (0x1c0, 0x1c3, gc_lo); (0x1c4, 0x1c4, gc_lu);
   (0x1c5, 0x1c5, gc_lt); (0x1c6, 0x1c6, gc_ll); (0x1c7, 0x1c7, gc_lu); (0x1c8, 0x1c8, gc_lt); (0x1c9, 0x1c9, gc_ll);
   (0x1ca, 0x1ca, gc_lu); (0x1cb, 0x1cb, gc_lt); (0x1cc, 0x1cc, gc_ll); (0x1cd, 0x1cd, gc_lu); (0x1ce, 0x1ce, gc_ll);
   (0x1cf, 0x1cf, gc_lu); (0x1d0, 0x1d0, gc_ll); (0x1d1, 0x1d1, gc_lu); (0x1d2, 0x1d2, gc_ll); (0x1d3, 0x1d3, gc_lu);
   (0x1d4, 0x1d4, gc_ll); (0x1d5, 0x1d5, gc_lu); (0x1d6, 0x1d6, gc_ll); (0x1d7, 0x1d7, gc_lu); (0x1d8, 0x1d8, gc_ll);
   (0x1d9, 0x1d9, gc_lu); (0x1da, 0x1da, gc_ll); (0x1db, 0x1db, gc_lu); (0x1dc, 0x1dd, gc_ll); (0x1de, 0x1de, gc_lu);
   (0x1df, 0x1df, gc_ll); (0x1e0, 0x1e0, gc_lu); (0x1e1, 0x1e1, gc_ll); (0x1e2, 0x1e2, gc_lu); (0x1e3, 0x1e3, gc_ll);
   (0x1e4, 0x1e4, gc_lu); (0x1e5, 0x1e5, gc_ll); (0x1e6, 0x1e6, gc_lu); (0x1e7, 0x1e7, gc_ll); (0x1e8, 0x1e8, gc_lu);
   (0x1e9, 0x1e9, gc_ll); (0x1ea, 0x1ea, gc_lu); (0x1eb, 0x1eb, gc_ll); (0x1ec, 0x1ec, gc_lu); (0x1ed, 0x1ed, gc_ll);
   (0x1ee, 0x1ee, gc_lu); (0x1ef, 0x1f0, gc_ll); (0x1f1, 0x1f1, gc_lu); (0x1f2, 0x1f2, gc_lt); (0x1f3, 0x1f3, gc_ll);
   (0x1f4, 0x1f4, gc_lu); (0x1f5, 0x1f5, gc_ll); (0x1f6, 0x1f8, gc_lu); (0x1f9, 0x1f9, gc_ll); (0x1fa, 0x1fa, gc_lu);
   (0x1fb, 0x1fb, gc_ll); (0x1fc, 0x1fc, gc_lu); (0x1fd, 0x1fd, gc_ll); (0x1fe, 0x1fe, gc_lu); (0x1ff, 0x1ff, gc_ll);
   (0x200, 0x200, gc_lu); (0x201, 0x201, gc_ll); (0x202, 0x202, gc_lu); (0x203, 0x203, gc_ll); (0x204, 0x204, gc_lu);
   (0x205, 0x205, gc_ll); (0x206, 0x206, gc_lu); (0x207, 0x207, gc_ll); (0x208, 0x208, gc_lu); (0x209, 0x209, gc_ll);
   (0x20a, 0x20a, gc_lu); (0x20b, 0x20b, gc_ll); (0x20c, 0x20c, gc_lu); (0x20d, 0x20d, gc_ll); (0x20e, 0x20e, gc_lu);
   (0x20f, 0x20f, gc_ll); (0x210, 0x210, gc_lu); (0x211, 0x211, gc_ll); (0x212, 0x212, gc_lu); (0x213, 0x213, gc_ll);
   (0x214, 0x214, gc_lu); (0x215, 0x215, gc_ll); (0x216, 0x216, gc_lu); (0x217, 0x217, gc_ll); (0x218, 0x218, gc_lu);
   (0x219, 0x219, gc_ll); (0x21a, 0x21a, gc_lu); (0x21b, 0x21b, gc_ll); (0x21c, 0x21c, gc_lu); (0x21d, 0x21d, gc_ll);
   (0x21e, 0x21e, gc_lu); (0x21f, 0x21f, gc_ll); (0x220, 0x220, gc_lu); (0x221, 0x221, gc_ll); (0x222, 0x222, gc_lu);
   (0x223, 0x223, gc_ll); (0x224, 0x224, gc_lu); (0x225, 0x225, gc_ll); (0x226, 0x226, gc_lu); (0x227, 0x227, gc_ll);
   (0x228, 0x228, gc_lu); (0x229, 0x229, gc_ll); (0x22a, 0x22a, gc_lu); (0x22b, 0x22b, gc_ll); (0x22c, 0x22c, gc_lu);
   (0x22d, 0x22d, gc_ll); (0x22e, 0x22e, gc_lu); (0x22f, 0x22f, gc_ll); (0x230, 0x230, gc_lu); (0x231, 0x231, gc_ll);
   (0x232, 0x232, gc_lu); (0x233, 0x239, gc_ll); (0x23a, 0x23b, gc_lu); (0x23c, 0x23c, gc_ll); (0x23d, 0x23e, gc_lu);
   (0x23f, 0x240, gc_ll); (0x241, 0x241, gc_lu); (0x242, 0x242, gc_ll); (0x243, 0x246, gc_lu); (0x247, 0x247, gc_ll);
   (0x248, 0x248, gc_lu); (0x249, 0x249, gc_ll); (0x24a, 0x24a, gc_lu); (0x24b, 0x24b, gc_ll); (0x24c, 0x24c, gc_lu);
   (0x24d, 0x24d, gc_ll); (0x24e, 0x24e, gc_lu); (0x24f, 0x293, gc_ll); (0x294, 0x294, gc_lo); (0x295, 0x2af, gc_ll);
   (0x2b0, 0x2c1, gc_lm); (0x2c2, 0x2c5, gc_sk); (0x2c6, 0x2d1, gc_lm); (0x2d2, 0x2df, gc_sk); (0x2e0, 0x2e4, gc_lm);
   (0x2e5, 0x2eb, gc_sk); (0x2ec, 0x2ec, gc_lm); (0x2ed, 0x2ed, gc_sk); (0x2ee, 0x2ee, gc_lm); (0x2ef, 0x2ff, gc_sk);
   (0x300, 0x36f, gc_mn); (0x370, 0x370, gc_lu); (0x371, 0x371, gc_ll); (0x372, 0x372, gc_lu); (0x373, 0x373, gc_ll);
   (0x374, 0x374, gc_lm); (0x375, 0x375, gc_sk); (0x376, 0x376, gc_lu); (0x377, 0x377, gc_ll); (0x37a, 0x37a, gc_lm);
   (0x37b, 0x37d, gc_ll); (0x37e, 0x37e, gc_po); (0x37f, 0x37f, gc_lu); (0x384, 0x385, gc_sk); (0x386, 0x386, gc_lu);
   (0x387, 0x387, gc_po); (0x388, 0x38a, gc_lu); (0x38c, 0x38c, gc_lu); (0x38e, 0x38f, gc_lu); (0x390, 0x390, gc_ll);
   (0x391, 0x3a1, gc_lu); (0x3a3, 0x3ab, gc_lu); (0x3ac, 0x3ce, gc_ll); (0x3cf, 0x3cf, gc_lu); (0x3d0, 0x3d1, gc_ll);
   (0x3d2, 0x3d4, gc_lu); (0x3d5, 0x3d7, gc_ll); (0x3d8, 0x3d8, gc_lu); (0x3d9, 0x3d9, gc_ll); (0x3da, 0x3da, gc_lu);
   (0x3db, 0x3db, gc_ll); (0x3dc, 0x3dc, gc_lu); (0x3dd, 0x3dd, gc_ll); (0x3de, 0x3de, gc_lu); (0x3df, 0x3df, gc_ll);
   (0x3e0, 0x3e0, gc_lu); (0x3e1, 0x3e1, gc_ll); (0x3e2, 0x3e2, gc_lu); (0x3e3, 0x3e3, gc_ll); (0x3e4, 0x3e4, gc_lu);
   (0x3e5, 0x3e5, gc_ll); (0x3e6, 0x3e6, gc_lu); (0x3e7, 0x3e7, gc_ll); (0x3e8, 0x3e8, gc_lu); (0x3e9, 0x3e9, gc_ll);
   (0x3ea, 0x3ea, gc_lu); (0x3eb, 0x3eb, gc_ll); (0x3ec, 0x3ec, gc_lu); (0x3ed, 0x3ed, gc_ll); (0x3ee, 0x3ee, gc_lu);
   (0x3ef, 0x3f3, gc_ll); (0x3f4, 0x3f4, gc_lu); (0x3f5, 0x3f5, gc_ll); (0x3f6, 0x3f6, gc_sm); (0x3f7, 0x3f7, gc_lu);
   (0x3f8, 0x3f8, gc_ll); (0x3f9, 0x3fa, gc_lu); (0x3fb, 0x3fc, gc_ll); (0x3fd, 0x42f, gc_lu); (0x430, 0x45f, gc_ll);
   (0x460, 0x460, gc_lu); (0x461, 0x461, gc_ll); (0x462, 0x462, gc_lu); (0x463, 0x463, gc_ll); (0x464, 0x464, gc_lu);
   (0x465, 0x465, gc_ll); (0x466, 0x466, gc_lu); (0x467, 0x467, gc_ll); (0x468, 0x468, gc_lu); (0x469, 0x469, gc_ll);
   (0x46a, 0x46a, gc_lu); (0x46b, 0x46b, gc_ll); (0x46c, 0x46c, gc_lu); (0x46d, 0x46d, gc_ll); (0x46e, 0x46e, gc_lu);
   (0x46f, 0x46f, gc_ll); (0x470, 0x470, gc_lu); (0x471, 0x471, gc_ll); (0x472, 0x472, gc_lu); (0x473, 0x473, gc_ll);
   (0x474, 0x474, gc_lu); (0x475, 0x475, gc_ll); (0x476, 0x476, gc_lu); (0x477, 0x477, gc_ll); (0x478, 0x478, gc_lu);
   (0x479, 0x479, gc_ll); (0x47a, 0x47a, gc_lu); (0x47b, 0x47b, gc_ll); (0x47c, 0x47c, gc_lu); (0x47d, 0x47d, gc_ll);
   (0x47e, 0x47e, gc_lu); (0x47f, 0x47f, gc_ll); (0x480, 0x480, gc_lu); (0x481, 0x481, gc_ll); (0x482, 0x482, gc_so);
   (0x483, 0x487, gc_mn); (0x488, 0x489, gc_me); (0x48a, 0x48a, gc_lu); (0x48b, 0x48b, gc_ll); (0x48c, 0x48c, gc_lu);
   (0x48d, 0x48d, gc_ll); (0x48e, 0x48e, gc_lu); (0x48f, 0x48f, gc_ll); (0x490, 0x490, gc_lu); (0x491, 0x491, gc_ll);
   (0x492, 0x492, gc_lu); (0x493, 0x493, gc_ll); (0x494, 0x494, gc_lu); (0x495, 0x495, gc_ll); (0x496, 0x496, gc_lu);
   (0x497, 0x497, gc_ll); (0x498, 0x498, gc_lu); (0x499, 0x499, gc_ll); (0x49a, 0x49a, gc_lu); (0x49b, 0x49b, gc_ll);
   (0x49c, 0x49c, gc_lu); (0x49d, 0x49d, gc_ll); (0x49e, 0x49e, gc_lu); (0x49f, 0x49f, gc_ll); (0x4a0, 0x4a0, gc_lu);
   (0x4a1, 0x4a1, gc_ll); (0x4a2, 0x4a2, gc_lu); (0x4a3, 0x4a3, gc_ll); (0x4a4, 0x4a4, gc_lu); (0x4a5, 0x4a5, gc_ll);
   (0x4a6, 0x4a6, gc_lu); (0x4a7, 0x4a7, gc_ll); (0x4a8, 0x4a8, gc_lu); (0x4a9, 0x4a9, gc_ll); (0x4aa, 0x4aa, gc_lu);
   (0x4ab, 0x4ab, gc_ll); (0x4ac, 0x4ac, gc_lu); (0x4ad, 0x4ad, gc_ll); (0x4ae, 0x4ae, gc_lu); (0x4af, 0x4af, gc_ll);
   (0x4b0, 0x4b0, gc_lu); (0x4b1, 0x4b1, gc_ll); (0x4b2, 0x4b2, gc_lu); (0x4b3, 0x4b3, gc_ll); (0x4b4, 0x4b4, gc_lu);
   (0x4b5, 0x4b5, gc_ll); (0x4b6, 0x4b6, gc_lu); (0x4b7, 0x4b7, gc_ll); (0x4b8, 0x4b8, gc_lu); (0x4b9, 0x4b9, gc_ll);
   (0x4ba, 0x4ba, gc_lu); (0x4bb, 0x4bb, gc_ll); (0x4bc, 0x4bc, gc_lu); (0x4bd, 0x4bd, gc_ll); (0x4be, 0x4be, gc_lu);
   (0x4bf, 0x4bf, gc_ll); (0x4c0, 0x4c1, gc_lu); (0x4c2, 0x4c2, gc_ll); (0x4c3, 0x4c3, gc_lu); (0x4c4, 0x4c4, gc_ll);
   (0x4c5, 0x4c5, gc_lu); (0x4c6, 0x4c6, gc_ll); (0x4c7, 0x4c7, gc_lu); (0x4c8, 0x4c8, gc_ll); (0x4c9, 0x4c9, gc_lu);
   (0x4ca, 0x4ca, gc_ll); (0x4cb, 0x4cb, gc_lu); (0x4cc, 0x4cc, gc_ll); (0x4cd, 0x4cd, gc_lu); (0x4ce, 0x4cf, gc_ll);
   (0x4d0, 0x4d0, gc_lu); (0x4d1, 0x4d1, gc_ll); (0x4d2, 0x4d2, gc_lu); (0x4d3, 0x4d3, gc_ll); (0x4d4, 0x4d4, gc_lu);
   (0x4d5, 0x4d5, gc_ll); (0x4d6, 0x4d6, gc_lu); (0x4d7, 0x4d7, gc_ll); (0x4d8, 0x4d8, gc_lu); (0x4d9, 0x4d9, gc_ll);
   (0x4da, 0x4da, gc_lu); (0x4db, 0x4db, gc_ll); (0x4dc, 0x4dc, gc_lu); (0x4dd, 0x4dd, gc_ll); (0x4de, 0x4de, gc_lu);
   (0x4df, 0x4df, gc_ll); (0x4e0, 0x4e0, gc_lu); (0x4e1, 0x4e1, gc_ll); (0x4e2, 0x4e2, gc_lu); (0x4e3, 0x4e3, gc_ll);
   (0x4e4, 0x4e4, gc_lu); (0x4e5, 0x4e5, gc_ll); (0x4e6, 0x4e6, gc_lu); (0x4e7, 0x4e7, gc_ll); (0x4e8, 0x4e8, gc_lu);
   (0x4e9, 0x4e9, gc_ll); (0x4ea, 0x4ea, gc_lu); (0x4eb, 0x4eb, gc_ll); (0x4ec, 0x4ec, gc_lu); (0x4ed, 0x4ed, gc_ll);
   (0x4ee, 0x4ee, gc_lu); (0x4ef, 0x4ef, gc_ll); (0x4f0, 0x4f0, gc_lu); (0x4f1, 0x4f1, gc_ll); (0x4f2, 0x4f2, gc_lu);
   (0x4f3, 0x4f3, gc_ll); (0x4f4, 0x4f4, gc_lu); (0x4f5, 0x4f5, gc_ll); (0x4f6, 0x4f6, gc_lu); (0x4f7, 0x4f7, gc_ll);
   (0x4f8, 0x4f8, gc_lu); (0x4f9, 0x4f9, gc_ll); (0x4fa, 0x4fa, gc_lu); (0x4fb, 0x4fb, gc_ll); (0x4fc, 0x4fc, gc_lu);
   (0x4fd, 0x4fd, gc_ll); (0x4fe, 0x4fe, gc_lu); (0x4ff, 0x4ff, gc_ll); (0x500, 0x500, gc_lu); (0x501, 0x501, gc_ll);
   (0x502, 0x502, gc_lu); (0x503, 0x503, gc_ll); (0x504, 0x504, gc_lu); (0x505, 0x505, gc_ll); (0x506, 0x506, gc_lu);
   (0x507, 0x507, gc_ll); (0x508, 0x508, gc_lu); (0x509, 0x509, gc_ll); (0x50a, 0x50a, gc_lu); (0x50b, 0x50b, gc_ll);
   (0x50c, 0x50c, gc_lu); (0x50d, 0x50d, gc_ll); (0x50e, 0x50e, gc_lu); (0x50f, 0x50f, gc_ll); (0x510, 0x510, gc_lu);
   (0x511, 0x511, gc_ll); (0x512, 0x512, gc_lu); (0x513, 0x513, gc_ll); (0x514, 0x514, gc_lu); (0x515, 0x515, gc_ll);
   (0x516, 0x516, gc_lu); (0x517, 0x517, gc_ll); (0x518, 0x518, gc_lu); (0x519, 0x519, gc_ll); (0x51a, 0x51a, gc_lu);
   (0x51b, 0x51b, gc_ll); (0x51c, 0x51c, gc_lu); (0x51d, 0x51d, gc_ll); (0x51e, 0x51e, gc_lu); (0x51f, 0x51f, gc_ll);
   (0x520, 0x520, gc_lu); (0x521, 0x521, gc_ll); (0x522, 0x522, gc_lu); (0x523, 0x523, gc_ll); (0x524, 0x524, gc_lu);
   (0x525, 0x525, gc_ll); (0x526, 0x526, gc_lu); (0x527, 0x527, gc_ll); (0x528, 0x528, gc_lu); (0x529, 0x529, gc_ll);
   (0x52a, 0x52a, gc_lu); (0x52b, 0x52b, gc_ll); (0x52c, 0x52c, gc_lu); (0x52d, 0x52d, gc_ll); (0x52e, 0x52e, gc_lu);
   (0x52f, 0x52f, gc_ll); (0x531, 0x556, gc_lu); (0x559, 0x559, gc_lm); (0x55a, 0x55f, gc_po); (0x560, 0x588, gc_ll);
   (0x589, 0x589, gc_po); (0x58a, 0x58a, gc_pd); (0x58d, 0x58e, gc_so); (0x58f, 0x58f, gc_sc); (0x591, 0x5bd, gc_mn);
   (0x5be, 0x5be, gc_pd); (0x5bf, 0x5bf, gc_mn); (0x5c0, 0x5c0, gc_po); (0x5c1, 0x5c2, gc_mn); (0x5c3, 0x5c3, gc_po);
   (0x5c4, 0x5c5, gc_mn); (0x5c6, 0x5c6, gc_po); (0x5c7, 0x5c7, gc_mn); (0x5d0, 0x5ea, gc_lo); (0x5ef, 0x5f2, gc_lo);
   (0x5f3, 0x5f4, gc_po); (0x600, 0x605, gc_cf); (0x606, 0x608, gc_sm); (0x609, 0x60a, gc_po); (0x60b, 0x60b, gc_sc);
   (0x60c, 0x60d, gc_po); (0x60e, 0x60f, gc_so); (0x610, 0x61a, gc_mn); (0x61b, 0x61b, gc_po); (0x61c, 0x61c, gc_cf);
   (0x61d, 0x61f, gc_po); (0x620, 0x63f, gc_lo); (0x640, 0x640, gc_lm); (0x641, 0x64a, gc_lo); (0x64b, 0x65f, gc_mn);
   (0x660, 0x669, gc_nd); (0x66a, 0x66d, gc_po); (0x66e, 0x66f, gc_lo); (0x670, 0x670, gc_mn); (0x671, 0x6d3, gc_lo);
   (0x6d4, 0x6d4, gc_po); (0x6d5, 0x6d5, gc_lo); (0x6d6, 0x6dc, gc_mn); (0x6dd, 0x6dd, gc_cf); (0x6de, 0x6de, gc_so);
   (0x6df, 0x6e4, gc_mn); (0x6e5, 0x6e6, gc_lm); (0x6e7, 0x6e8, gc_mn); (0x6e9, 0x6e9, gc_so); (0x6ea, 0x6ed, gc_mn);
   (0x6ee, 0x6ef, gc_lo); (0x6f0, 0x6f9, gc_nd); (0x6fa, 0x6fc, gc_lo); (0x6fd, 0x6fe, gc_so); (0x6ff, 0x6ff, gc_lo);
   (0x700, 0x70d, gc_po); (0x70f, 0x70f, gc_cf); (0x710, 0x710, gc_lo); (0x711, 0x711, gc_mn); (0x712, 0x72f, gc_lo);
   (0x730, 0x74a, gc_mn); (0x74d, 0x7a5, gc_lo); (0x7a6, 0x7b0, gc_mn); (0x7b1, 0x7b1, gc_lo); (0x7c0, 0x7c9, gc_nd);
   (0x7ca, 0x7ea, gc_lo); (0x7eb, 0x7f3, gc_mn); (0x7f4, 0x7f5, gc_lm); (0x7f6, 0x7f6, gc_so); (0x7f7, 0x7f9, gc_po);
   (0x7fa, 0x7fa, gc_lm); (0x7fd, 0x7fd, gc_mn); (0x7fe, 0x7ff, gc_sc); (0x800, 0x815, gc_lo); (0x816, 0x819, gc_mn);
   (0x81a, 0x81a, gc_lm); (0x81b, 0x823, gc_mn); (0x824, 0x824, gc_lm); (0x825, 0x827, gc_mn); (0x828, 0x828, gc_lm);
   (0x829, 0x82d, gc_mn); (0x830, 0x83e, gc_po); (0x840, 0x858, gc_lo); (0x859, 0x85b, gc_mn); (0x85e, 0x85e, gc_po);
   (0x860, 0x86a, gc_lo); (0x870, 0x887, gc_lo); (0x888, 0x888, gc_sk); (0x889, 0x88e, gc_lo); (0x890, 0x891, gc_cf);
   (0x898, 0x89f, gc_mn); (0x8a0, 0x8c8, gc_lo); (0x8c9, 0x8c9, gc_lm); (0x8ca, 0x8e1, gc_mn); (0x8e2, 0x8e2, gc_cf);
   (0x8e3, 0x902, gc_mn); (0x903, 0x903, gc_mc); (0x904, 0x939, gc_lo); (0x93a, 0x93a, gc_mn); (0x93b, 0x93b, gc_mc);
   (0x93c, 0x93c, gc_mn); (0x93d, 0x93d, gc_lo); (0x93e, 0x940, gc_mc); (0x941, 0x948, gc_mn); (0x949, 0x94c, gc_mc);
   (0x94d, 0x94d, gc_mn); (0x94e, 0x94f, gc_mc); (0x950, 0x950, gc_lo); (0x951, 0x957, gc_mn); (0x958, 0x961, gc_lo);
   (0x962, 0x963, gc_mn); (0x964, 0x965, gc_po); (0x966, 0x96f, gc_nd); (0x970, 0x970, gc_po); (0x971, 0x971, gc_lm);
   (0x972, 0x980, gc_lo); (0x981, 0x981, gc_mn); (0x982, 0x983, gc_mc); (0x985, 0x98c, gc_lo); (0x98f, 0x990, gc_lo);
   (0x993, 0x9a8, gc_lo); (0x9aa, 0x9b0, gc_lo); (0x9b2, 0x9b2, gc_lo); (0x9b6, 0x9b9, gc_lo); (0x9bc, 0x9bc, gc_mn);
   (0x9bd, 0x9bd, gc_lo); (0x9be, 0x9c0, gc_mc); (0x9c1, 0x9c4, gc_mn); (0x9c7, 0x9c8, gc_mc); (0x9cb, 0x9cc, gc_mc);
   (0x9cd, 0x9cd, gc_mn); (0x9ce, 0x9ce, gc_lo); (0x9d7, 0x9d7, gc_mc); (0x9dc, 0x9dd, gc_lo); (0x9df, 0x9e1, gc_lo);
   (0x9e2, 0x9e3, gc_mn); (0x9e6, 0x9ef, gc_nd); (0x9f0, 0x9f1, gc_lo); (0x9f2, 0x9f3, gc_sc); (0x9f4, 0x9f9, gc_no);
   (0x9fa, 0x9fa, gc_so); (0x9fb, 0x9fb, gc_sc); (0x9fc, 0x9fc, gc_lo); (0x9fd, 0x9fd, gc_po); (0x9fe, 0x9fe, gc_mn);
   (0xa01, 0xa02, gc_mn); (0xa03, 0xa03, gc_mc); (0xa05, 0xa0a, gc_lo); (0xa0f, 0xa10, gc_lo); (0xa13, 0xa28, gc_lo);
   (0xa2a, 0xa30, gc_lo); (0xa32, 0xa33, gc_lo); (0xa35, 0xa36, gc_lo); (0xa38, 0xa39, gc_lo); (0xa3c, 0xa3c, gc_mn);
   (0xa3e, 0xa40, gc_mc); (0xa41, 0xa42, gc_mn); (0xa47, 0xa48, gc_mn); (0xa4b, 0xa4d, gc_mn); (0xa51, 0xa51, gc_mn);
   (0xa59, 0xa5c, gc_lo); (0xa5e, 0xa5e, gc_lo); (0xa66, 0xa6f, gc_nd); (0xa70, 0xa71, gc_mn); (0xa72, 0xa74, gc_lo);
   (0xa75, 0xa75, gc_mn); (0xa76, 0xa76, gc_po); (0xa81, 0xa82, gc_mn); (0xa83, 0xa83, gc_mc); (0xa85, 0xa8d, gc_lo);
   (0xa8f, 0xa91, gc_lo); (0xa93, 0xaa8, gc_lo); (0xaaa, 0xab0, gc_lo); (0xab2, 0xab3, gc_lo); (0xab5, 0xab9, gc_lo);
   (0xabc, 0xabc, gc_mn); (0xabd, 0xabd, gc_lo); (0xabe, 0xac0, gc_mc); (0xac1, 0xac5, gc_mn); (0xac7, 0xac8, gc_mn);
   (0xac9, 0xac9, gc_mc); (0xacb, 0xacc, gc_mc); (0xacd, 0xacd, gc_mn); (0xad0, 0xad0, gc_lo); (0xae0, 0xae1, gc_lo);
   (0xae2, 0xae3, gc_mn); (0xae6, 0xaef, gc_nd); (0xaf0, 0xaf0, gc_po); (0xaf1, 0xaf1, gc_sc); (0xaf9, 0xaf9, gc_lo);
   (0xafa, 0xaff, gc_mn); (0xb01, 0xb01, gc_mn); (0xb02, 0xb03, gc_mc); (0xb05, 0xb0c, gc_lo); (0xb0f, 0xb10, gc_lo);
   (0xb13, 0xb28, gc_lo); (0xb2a, 0xb30, gc_lo); (0xb32, 0xb33, gc_lo); (0xb35, 0xb39, gc_lo); (0xb3c, 0xb3c, gc_mn);
   (0xb3d, 0xb3d, gc_lo); (0xb3e, 0xb3e, gc_mc); (0xb3f, 0xb3f, gc_mn); (0xb40, 0xb40, gc_mc); (0xb41, 0xb44, gc_mn);
   (0xb47, 0xb48, gc_mc); (0xb4b, 0xb4c, gc_mc); (0xb4d, 0xb4d, gc_mn); (0xb55, 0xb56, gc_mn); (0xb57, 0xb57, gc_mc);
   (0xb5c, 0xb5d, gc_lo); (0xb5f, 0xb61, gc_lo); (0xb62, 0xb63, gc_mn); (0xb66, 0xb6f, gc_nd); (0xb70, 0xb70, gc_so);
   (0xb71, 0xb71, gc_lo); (0xb72, 0xb77, gc_no); (0xb82, 0xb82, gc_mn); (0xb83, 0xb83, gc_lo); (0xb85, 0xb8a, gc_lo);
   (0xb8e, 0xb90, gc_lo); (0xb92, 0xb95, gc_lo); (0xb99, 0xb9a, gc_lo); (0xb9c, 0xb9c, gc_lo); (0xb9e, 0xb9f, gc_lo);
   (0xba3, 0xba4, gc_lo); (0xba8, 0xbaa, gc_lo); (0xbae, 0xbb9, gc_lo); (0xbbe, 0xbbf, gc_mc); (0xbc0, 0xbc0, gc_mn);
   (0xbc1, 0xbc2, gc_mc); (0xbc6, 0xbc8, gc_mc); (0xbca, 0xbcc, gc_mc); (0xbcd, 0xbcd, gc_mn); (0xbd0, 0xbd0, gc_lo);
   (0xbd7, 0xbd7, gc_mc); (0xbe6, 0xbef, gc_nd); (0xbf0, 0xbf2, gc_no); (0xbf3, 0xbf8, gc_so); (0xbf9, 0xbf9, gc_sc);
   (0xbfa, 0xbfa, gc_so); (0xc00, 0xc00, gc_mn); (0xc01, 0xc03, gc_mc); (0xc04, 0xc04, gc_mn); (0xc05, 0xc0c, gc_lo);
   (0xc0e, 0xc10, gc_lo); (0xc12, 0xc28, gc_lo); (0xc2a, 0xc39, gc_lo); (0xc3c, 0xc3c, gc_mn); (0xc3d, 0xc3d, gc_lo);
   (0xc3e, 0xc40, gc_mn); (0xc41, 0xc44, gc_mc); (0xc46, 0xc48, gc_mn); (0xc4a, 0xc4d, gc_mn); (0xc55, 0xc56, gc_mn);
   (0xc58, 0xc5a, gc_lo); (0xc5d, 0xc5d, gc_lo); (0xc60, 0xc61, gc_lo); (0xc62, 0xc63, gc_mn); (0xc66, 0xc6f, gc_nd);
   (0xc77, 0xc77, gc_po); (0xc78, 0xc7e, gc_no); (0xc7f, 0xc7f, gc_so); (0xc80, 0xc80, gc_lo); (0xc81, 0xc81, gc_mn);
   (0xc82, 0xc83, gc_mc); (0xc84, 0xc84, gc_po); (0xc85, 0xc8c, gc_lo); (0xc8e, 0xc90, gc_lo); (0xc92, 0xca8, gc_lo);
   (0xcaa, 0xcb3, gc_lo); (0xcb5, 0xcb9, gc_lo); (0xcbc, 0xcbc, gc_mn); (0xcbd, 0xcbd, gc_lo); (0xcbe, 0xcbe, gc_mc);
   (0xcbf, 0xcbf, gc_mn); (0xcc0, 0xcc4, gc_mc); (0xcc6, 0xcc6, gc_mn); (0xcc7, 0xcc8, gc_mc); (0xcca, 0xccb, gc_mc);
   (0xccc, 0xccd, gc_mn); (0xcd5, 0xcd6, gc_mc); (0xcdd, 0xcde, gc_lo); (0xce0, 0xce1, gc_lo); (0xce2, 0xce3, gc_mn);
   (0xce6, 0xcef, gc_nd); (0xcf1, 0xcf2, gc_lo); (0xd00, 0xd01, gc_mn); (0xd02, 0xd03, gc_mc); (0xd04, 0xd0c, gc_lo);
   (0xd0e, 0xd10, gc_lo); (0xd12, 0xd3a, gc_lo); (0xd3b, 0xd3c, gc_mn); (0xd3d, 0xd3d, gc_lo); (0xd3e, 0xd40, gc_mc);
   (0xd41, 0xd44, gc_mn); (0xd46, 0xd48, gc_mc); (0xd4a, 0xd4c, gc_mc); (0xd4d, 0xd4d, gc_mn); (0xd4e, 0xd4e, gc_lo);
   (0xd4f, 0xd4f, gc_so); (0xd54, 0xd56, gc_lo); (0xd57, 0xd57, gc_mc); (0xd58, 0xd5e, gc_no); (0xd5f, 0xd61, gc_lo);
   (0xd62, 0xd63, gc_mn); (0xd66, 0xd6f, gc_nd); (0xd70, 0xd78, gc_no); (0xd79, 0xd79, gc_so); (0xd7a, 0xd7f, gc_lo);
   (0xd81, 0xd81, gc_mn); (0xd82, 0xd83, gc_mc); (0xd85, 0xd96, gc_lo); (0xd9a, 0xdb1, gc_lo); (0xdb3, 0xdbb, gc_lo);
   (0xdbd, 0xdbd, gc_lo); (0xdc0, 0xdc6, gc_lo); (0xdca, 0xdca, gc_mn); (0xdcf, 0xdd1, gc_mc); (0xdd2, 0xdd4, gc_mn);
   (0xdd6, 0xdd6, gc_mn); (0xdd8, 0xddf, gc_mc); (0xde6, 0xdef, gc_nd); (0xdf2, 0xdf3, gc_mc); (0xdf4, 0xdf4, gc_po);
   (0xe01, 0xe30, gc_lo); (0xe31, 0xe31, gc_mn); (0xe32, 0xe33, gc_lo); (0xe34, 0xe3a, gc_mn); (0xe3f, 0xe3f, gc_sc);
   (0xe40, 0xe45, gc_lo); (0xe46, 0xe46, gc_lm); (0xe47, 0xe4e, gc_mn); (0xe4f, 0xe4f, gc_po); (0xe50, 0xe59, gc_nd);
   (0xe5a, 0xe5b, gc_po); (0xe81, 0xe82, gc_lo); (0xe84, 0xe84, gc_lo); (0xe86, 0xe8a, gc_lo); (0xe8c, 0xea3, gc_lo);
   (0xea5, 0xea5, gc_lo); (0xea7, 0xeb0, gc_lo); (0xeb1, 0xeb1, gc_mn); (0xeb2, 0xeb3, gc_lo); (0xeb4, 0xebc, gc_mn);
   (0xebd, 0xebd, gc_lo); (0xec0, 0xec4, gc_lo); (0xec6, 0xec6, gc_lm); (0xec8, 0xecd, gc_mn); (0xed0, 0xed9, gc_nd);
   (0xedc, 0xedf, gc_lo); (0xf00, 0xf00, gc_lo); (0xf01, 0xf03, gc_so); (0xf04, 0xf12, gc_po); (0xf13, 0xf13, gc_so);
   (0xf14, 0xf14, gc_po); (0xf15, 0xf17, gc_so); (0xf18, 0xf19, gc_mn); (0xf1a, 0xf1f, gc_so); (0xf20, 0xf29, gc_nd);
   (0xf2a, 0xf33, gc_no); (0xf34, 0xf34, gc_so); (0xf35, 0xf35, gc_mn); (0xf36, 0xf36, gc_so); (0xf37, 0xf37, gc_mn);
   (0xf38, 0xf38, gc_so); (0xf39, 0xf39, gc_mn); (0xf3a, 0xf3a, gc_ps); (0xf3b, 0xf3b, gc_pe); (0xf3c, 0xf3c, gc_ps);
   (0xf3d, 0xf3d, gc_pe); (0xf3e, 0xf3f, gc_mc); (0xf40, 0xf47, gc_lo); (0xf49, 0xf6c, gc_lo); (0xf71, 0xf7e, gc_mn);
   (0xf7f, 0xf7f, gc_mc); (0xf80, 0xf84, gc_mn); (0xf85, 0xf85, gc_po); (0xf86, 0xf87, gc_mn); (0xf88, 0xf8c, gc_lo);
   (0xf8d, 0xf97, gc_mn); (0xf99, 0xfbc, gc_mn); (0xfbe, 0xfc5, gc_so); (0xfc6, 0xfc6, gc_mn); (0xfc7, 0xfcc, gc_so);
   (0xfce, 0xfcf, gc_so); (0xfd0, 0xfd4, gc_po); (0xfd5, 0xfd8, gc_so); (0xfd9, 0xfda, gc_po); (0x1000, 0x102a, gc_lo);
   (0x102b, 0x102c, gc_mc); (0x102d, 0x1030, gc_mn); (0x1031, 0x1031, gc_mc); (0x1032, 0x1037, gc_mn);
   (0x1038, 0x1038, gc_mc); (0x1039, 0x103a, gc_mn); (0x103b, 0x103c, gc_mc); (0x103d, 0x103e, gc_mn);
   (0x103f, 0x103f, gc_lo); (0x1040, 0x1049, gc_nd); (0x104a, 0x104f, gc_po); (0x1050, 0x1055, gc_lo);
   (0x1056, 0x1057, gc_mc); (0x1058, 0x1059, gc_mn); (0x105a, 0x105d, gc_lo); (0x105e, 0x1060, gc_mn);
   (0x1061, 0x1061, gc_lo); (0x1062, 0x1064, gc_mc); (0x1065, 0x1066, gc_lo); (0x1067, 0x106d, gc_mc);
   (0x106e, 0x1070, gc_lo); (0x1071, 0x1074, gc_mn); (0x1075, 0x1081, gc_lo); (0x1082, 0x1082, gc_mn);
   (0x1083, 0x1084, gc_mc); (0x1085, 0x1086, gc_mn); (0x1087, 0x108c, gc_mc); (0x108d, 0x108d, gc_mn);
   (0x108e, 0x108e, gc_lo); (0x108f, 0x108f, gc_mc); (0x1090, 0x1099, gc_nd); (0x109a, 0x109c, gc_mc);
   (0x109d, 0x109d, gc_mn); (0x109e, 0x109f, gc_so); (0x10a0, 0x10c5, gc_lu); (0x10c7, 0x10c7, gc_lu);
   (0x10cd, 0x10cd, gc_lu); (0x10d0, 0x10fa, gc_ll); (0x10fb, 0x10fb, gc_po); (0x10fc, 0x10fc, gc_lm);
   (0x10fd, 0x10ff, gc_ll); (0x1100, 0x1248, gc_lo); (0x124a, 0x124d, gc_lo); (0x1250, 0x1256, gc_lo);
   (0x1258, 0x1258, gc_lo); (0x125a, 0x125d, gc_lo); (0x1260, 0x1288, gc_lo); (0x128a, 0x128d, gc_lo);
   (0x1290, 0x12b0, gc_lo); (0x12b2, 0x12b5, gc_lo); (0x12b8, 0x12be, gc_lo); (0x12c0, 0x12c0, gc_lo);
   (0x12c2, 0x12c5, gc_lo); (0x12c8, 0x12d6, gc_lo); (0x12d8, 0x1310, gc_lo); (0x1312, 0x1315, gc_lo);
   (0x1318, 0x135a, gc_lo); (0x135d, 0x135f, gc_mn); (0x1360, 0x1368, gc_po); (0x1369, 0x137c, gc_no);
   (0x1380, 0x138f, gc_lo); (0x1390, 0x1399, gc_so); (0x13a0, 0x13f5, gc_lu); (0x13f8, 0x13fd, gc_ll);
   (0x1400, 0x1400, gc_pd); (0x1401, 0x166c, gc_lo); (0x166d, 0x166d, gc_so); (0x166e, 0x166e, gc_po);
   (0x166f, 0x167f, gc_lo); (0x1680, 0x1680, gc_zs); (0x1681, 0x169a, gc_lo); (0x169b, 0x169b, gc_ps);
   (0x169c, 0x169c, gc_pe); (0x16a0, 0x16ea, gc_lo); (0x16eb, 0x16ed, gc_po); (0x16ee, 0x16f0, gc_nl);
   (0x16f1, 0x16f8, gc_lo); (0x1700, 0x1711, gc_lo); (0x1712, 0x1714, gc_mn); (0x1715, 0x1715, gc_mc);
   (0x171f, 0x1731, gc_lo); (0x1732, 0x1733, gc_mn); (0x1734, 0x1734, gc_mc); (0x1735, 0x1736, gc_po);
   (0x1740, 0x1751, gc_lo); (0x1752, 0x1753, gc_mn); (0x1760, 0x176c, gc_lo); (0x176e, 0x1770, gc_lo);
   (0x1772, 0x1773, gc_mn); (0x1780, 0x17b3, gc_lo); (0x17b4, 0x17b5, gc_mn); (0x17b6, 0x17b6, gc_mc);
   (0x17b7, 0x17bd, gc_mn); (0x17be, 0x17c5, gc_mc); (0x17c6, 0x17c6, gc_mn); (0x17c7, 0x17c8, gc_mc);
   (0x17c9, 0x17d3, gc_mn); (0x17d4, 0x17d6, gc_po); (0x17d7, 0x17d7, gc_lm); (0x17d8, 0x17da, gc_po);
   (0x17db, 0x17db, gc_sc); (0x17dc, 0x17dc, gc_lo); (0x17dd, 0x17dd, gc_mn); (0x17e0, 0x17e9, gc_nd);
   (0x17f0, 0x17f9, gc_no); (0x1800, 0x1805, gc_po); (0x1806, 0x1806, gc_pd); (0x1807, 0x180a, gc_po);
   (0x180b, 0x180d, gc_mn); (0x180e, 0x180e, gc_cf); (0x180f, 0x180f, gc_mn); (0x1810, 0x1819, gc_nd);
   (0x1820, 0x1842, gc_lo); (0x1843, 0x1843, gc_lm); (0x1844, 0x1878, gc_lo); (0x1880, 0x1884, gc_lo);
   (0x1885, 0x1886, gc_mn); (0x1887, 0x18a8, gc_lo); (0x18a9, 0x18a9, gc_mn); (0x18aa, 0x18aa, gc_lo);
   (0x18b0, 0x18f5, gc_lo); (0x1900, 0x191e, gc_lo); (0x1920, 0x1922, gc_mn); (0x1923, 0x1926, gc_mc);
   (0x1927, 0x1928, gc_mn); (0x1929, 0x192b, gc_mc); (0x1930, 0x1931, gc_mc); (0x1932, 0x1932, gc_mn);
   (0x1933, 0x1938, gc_mc); (0x1939, 0x193b, gc_mn); (0x1940, 0x1940, gc_so); (0x1944, 0x1945, gc_po);
   (0x1946, 0x194f, gc_nd); (0x1950, 0x196d, gc_lo); (0x1970, 0x1974, gc_lo); (0x1980, 0x19ab, gc_lo);
   (0x19b0, 0x19c9, gc_lo); (0x19d0, 0x19d9, gc_nd); (0x19da, 0x19da, gc_no); (0x19de, 0x19ff, gc_so);
   (0x1a00, 0x1a16, gc_lo); (0x1a17, 0x1a18, gc_mn); (0x1a19, 0x1a1a, gc_mc); (0x1a1b, 0x1a1b, gc_mn);
   (0x1a1e, 0x1a1f, gc_po); (0x1a20, 0x1a54, gc_lo); (0x1a55, 0x1a55, gc_mc); (0x1a56, 0x1a56, gc_mn);
   (0x1a57, 0x1a57, gc_mc); (0x1a58, 0x1a5e, gc_mn); (0x1a60, 0x1a60, gc_mn); (0x1a61, 0x1a61, gc_mc);
   (0x1a62, 0x1a62, gc_mn); (0x1a63, 0x1a64, gc_mc); (0x1a65, 0x1a6c, gc_mn); (0x1a6d, 0x1a72, gc_mc);
   (0x1a73, 0x1a7c, gc_mn); (0x1a7f, 0x1a7f, gc_mn); (0x1a80, 0x1a89, gc_nd); (0x1a90, 0x1a99, gc_nd);
   (0x1aa0, 0x1aa6, gc_po); (0x1aa7, 0x1aa7, gc_lm); (0x1aa8, 0x1aad, gc_po); (0x1ab0, 0x1abd, gc_mn);
   (0x1abe, 0x1abe, gc_me); (0x1abf, 0x1ace, gc_mn); (0x1b00, 0x1b03, gc_mn); (0x1b04, 0x1b04, gc_mc);
   (0x1b05, 0x1b33, gc_lo); (0x1b34, 0x1b34, gc_mn); (0x1b35, 0x1b35, gc_mc); (0x1b36, 0x1b3a, gc_mn);
   (0x1b3b, 0x1b3b, gc_mc); (0x1b3c, 0x1b3c, gc_mn); (0x1b3d, 0x1b41, gc_mc); (0x1b42, 0x1b42, gc_mn);
   (0x1b43, 0x1b44, gc_mc); (0x1b45, 0x1b4c, gc_lo); (0x1b50, 0x1b59, gc_nd); (0x1b5a, 0x1b60, gc_po);
   (0x1b61, 0x1b6a, gc_so); (0x1b6b, 0x1b73, gc_mn); (0x1b74, 0x1b7c, gc_so); (0x1b7d, 0x1b7e, gc_po);
   (0x1b80, 0x1b81, gc_mn); (0x1b82, 0x1b82, gc_mc); (0x1b83, 0x1ba0, gc_lo); (0x1ba1, 0x1ba1, gc_mc);
   (0x1ba2, 0x1ba5, gc_mn); (0x1ba6, 0x1ba7, gc_mc); (0x1ba8, 0x1ba9, gc_mn); (0x1baa, 0x1baa, gc_mc);
   (0x1bab, 0x1bad, gc_mn); (0x1bae, 0x1baf, gc_lo); (0x1bb0, 0x1bb9, gc_nd); (0x1bba, 0x1be5, gc_lo);
   (0x1be6, 0x1be6, gc_mn); (0x1be7, 0x1be7, gc_mc); (0x1be8, 0x1be9, gc_mn); (0x1bea, 0x1bec, gc_mc);
   (0x1bed, 0x1bed, gc_mn); (0x1bee, 0x1bee, gc_mc); (0x1bef, 0x1bf1, gc_mn); (0x1bf2, 0x1bf3, gc_mc);
   (0x1bfc, 0x1bff, gc_po); (0x1c00, 0x1c23, gc_lo); (0x1c24, 0x1c2b, gc_mc); (0x1c2c, 0x1c33, gc_mn);
   (0x1c34, 0x1c35, gc_mc); (0x1c36, 0x1c37, gc_mn); (0x1c3b, 0x1c3f, gc_po); (0x1c40, 0x1c49, gc_nd);
   (0x1c4d, 0x1c4f, gc_lo); (0x1c50, 0x1c59, gc_nd); (0x1c5a, 0x1c77, gc_lo); (0x1c78, 0x1c7d, gc_lm);
   (0x1c7e, 0x1c7f, gc_po); (0x1c80, 0x1c88, gc_ll); (0x1c90, 0x1cba, gc_lu); (0x1cbd, 0x1cbf, gc_lu);
   (0x1cc0, 0x1cc7, gc_po); (0x1cd0, 0x1cd2, gc_mn); (0x1cd3, 0x1cd3, gc_po); (0x1cd4, 0x1ce0, gc_mn);
   (0x1ce1, 0x1ce1, gc_mc); (0x1ce2, 0x1ce8, gc_mn); (0x1ce9, 0x1cec, gc_lo); (0x1ced, 0x1ced, gc_mn);
   (0x1cee, 0x1cf3, gc_lo); (0x1cf4, 0x1cf4, gc_mn); (0x1cf5, 0x1cf6, gc_lo); (0x1cf7, 0x1cf7, gc_mc);
   (0x1cf8, 0x1cf9, gc_mn); (0x1cfa, 0x1cfa, gc_lo); (0x1d00, 0x1d2b, gc_ll); (0x1d2c, 0x1d6a, gc_lm);
   (0x1d6b, 0x1d77, gc_ll); (0x1d78, 0x1d78, gc_lm); (0x1d79, 0x1d9a, gc_ll); (0x1d9b, 0x1dbf, gc_lm);
   (0x1dc0, 0x1dff, gc_mn); (0x1e00, 0x1e00, gc_lu); (0x1e01, 0x1e01, gc_ll); (0x1e02, 0x1e02, gc_lu);
   (0x1e03, 0x1e03, gc_ll); (0x1e04, 0x1e04, gc_lu); (0x1e05, 0x1e05, gc_ll); (0x1e06, 0x1e06, gc_lu);
   (0x1e07, 0x1e07, gc_ll); (0x1e08, 0x1e08, gc_lu); (0x1e09, 0x1e09, gc_ll); (0x1e0a, 0x1e0a, gc_lu);
   (0x1e0b, 0x1e0b, gc_ll); (0x1e0c, 0x1e0c, gc_lu); (0x1e0d, 0x1e0d, gc_ll); (0x1e0e, 0x1e0e, gc_lu);
   (0x1e0f, 0x1e0f, gc_ll); (0x1e10, 0x1e10, gc_lu); (0x1e11, 0x1e11, gc_ll); (0x1e12, 0x1e12, gc_lu);
   (0x1e13, 0x1e13, gc_ll); (0x1e14, 0x1e14, gc_lu); (0x1e15, 0x1e15, gc_ll); (0x1e16, 0x1e16, gc_lu);
   (0x1e17, 0x1e17, gc_ll); (0x1e18, 0x1e18, gc_lu); (0x1e19, 0x1e19, gc_ll); (0x1e1a, 0x1e1a, gc_lu);
   (0x1e1b, 0x1e1b, gc_ll); (0x1e1c, 0x1e1c, gc_lu); (0x1e1d, 0x1e1d, gc_ll); (0x1e1e, 0x1e1e, gc_lu);
   (0x1e1f, 0x1e1f, gc_ll); (0x1e20, 0x1e20, gc_lu); (0x1e21, 0x1e21, gc_ll); (0x1e22, 0x1e22, gc_lu);
   (0x1e23, 0x1e23, gc_ll); (0x1e24, 0x1e24, gc_lu); (0x1e25, 0x1e25, gc_ll); (0x1e26, 0x1e26, gc_lu);
   (0x1e27, 0x1e27, gc_ll); (0x1e28, 0x1e28, gc_lu); (0x1e29, 0x1e29, gc_ll); (0x1e2a, 0x1e2a, gc_lu);
   (0x1e2b, 0x1e2b, gc_ll); (0x1e2c, 0x1e2c, gc_lu); (0x1e2d, 0x1e2d, gc_ll); (0x1e2e, 0x1e2e, gc_lu);
   (0x1e2f, 0x1e2f, gc_ll); (0x1e30, 0x1e30, gc_lu); (0x1e31, 0x1e31, gc_ll); (0x1e32, 0x1e32, gc_lu);
   (0x1e33, 0x1e33, gc_ll); (0x1e34, 0x1e34, gc_lu); (0x1e35, 0x1e35, gc_ll); (0x1e36, 0x1e36, gc_lu);
   (0x1e37, 0x1e37, gc_ll); (0x1e38, 0x1e38, gc_lu); (0x1e39, 0x1e39, gc_ll); (0x1e3a, 0x1e3a, gc_lu);
   (0x1e3b, 0x1e3b, gc_ll); (0x1e3c, 0x1e3c, gc_lu); (0x1e3d, 0x1e3d, gc_ll); (0x1e3e, 0x1e3e, gc_lu);
   (0x1e3f, 0x1e3f, gc_ll); (0x1e40, 0x1e40, gc_lu); (0x1e41, 0x1e41, gc_ll); (0x1e42, 0x1e42, gc_lu);
   (0x1e43, 0x1e43, gc_ll); (0x1e44, 0x1e44, gc_lu); (0x1e45, 0x1e45, gc_ll); (0x1e46, 0x1e46, gc_lu);
   (0x1e47, 0x1e47, gc_ll); (0x1e48, 0x1e48, gc_lu); (0x1e49, 0x1e49, gc_ll); (0x1e4a, 0x1e4a, gc_lu);
   (0x1e4b, 0x1e4b, gc_ll); (0x1e4c, 0x1e4c, gc_lu); (0x1e4d, 0x1e4d, gc_ll); (0x1e4e, 0x1e4e, gc_lu);
   (0x1e4f, 0x1e4f, gc_ll); (0x1e50, 0x1e50, gc_lu); (0x1e51, 0x1e51, gc_ll); (0x1e52, 0x1e52, gc_lu);
   (0x1e53, 0x1e53, gc_ll); (0x1e54, 0x1e54, gc_lu); (0x1e55, 0x1e55, gc_ll); (0x1e56, 0x1e56, gc_lu);
   (0x1e57, 0x1e57, gc_ll); (0x1e58, 0x1e58, gc_lu); (0x1e59, 0x1e59, gc_ll); (0x1e5a, 0x1e5a, gc_lu);
   (0x1e5b, 0x1e5b, gc_ll); (0x1e5c, 0x1e5c, gc_lu); (0x1e5d, 0x1e5d, gc_ll); (0x1e5e, 0x1e5e, gc_lu);
   (0x1e5f, 0x1e5f, gc_ll); (0x1e60, 0x1e60, gc_lu); (0x1e61, 0x1e61, gc_ll); (0x1e62, 0x1e62, gc_lu);
   (0x1e63, 0x1e63, gc_ll); (0x1e64, 0x1e64, gc_lu); (0x1e65, 0x1e65, gc_ll); (0x1e66, 0x1e66, gc_lu);
   (0x1e67, 0x1e67, gc_ll); (0x1e68, 0x1e68, gc_lu); (0x1e69, 0x1e69, gc_ll); (0x1e6a, 0x1e6a, gc_lu);
   (0x1e6b, 0x1e6b, gc_ll); (0x1e6c, 0x1e6c, gc_lu); (0x1e6d, 0x1e6d, gc_ll); (0x1e6e, 0x1e6e, gc_lu);
   (0x1e6f, 0x1e6f, gc_ll); (0x1e70, 0x1e70, gc_lu); (0x1e71, 0x1e71, gc_ll); (0x1e72, 0x1e72, gc_lu);
   (0x1e73, 0x1e73, gc_ll); (0x1e74, 0x1e74, gc_lu); (0x1e75, 0x1e75, gc_ll); (0x1e76, 0x1e76, gc_lu);
   (0x1e77, 0x1e77, gc_ll); (0x1e78, 0x1e78, gc_lu); (0x1e79, 0x1e79, gc_ll); (0x1e7a, 0x1e7a, gc_lu);
   (0x1e7b, 0x1e7b, gc_ll); (0x1e7c, 0x1e7c, gc_lu); (0x1e7d, 0x1e7d, gc_ll); (0x1e7e, 0x1e7e, gc_lu);
   (0x1e7f, 0x1e7f, gc_ll); (0x1e80, 0x1e80, gc_lu); (0x1e81, 0x1e81, gc_ll); (0x1e82, 0x1e82, gc_lu);
   (0x1e83, 0x1e83, gc_ll); (0x1e84, 0x1e84, gc_lu); (0x1e85, 0x1e85, gc_ll); (0x1e86, 0x1e86, gc_lu);
   (0x1e87, 0x1e87, gc_ll); (0x1e88, 0x1e88, gc_lu); (0x1e89, 0x1e89, gc_ll); (0x1e8a, 0x1e8a, gc_lu);
   (0x1e8b, 0x1e8b, gc_ll); (0x1e8c, 0x1e8c, gc_lu); (0x1e8d, 0x1e8d, gc_ll); (0x1e8e, 0x1e8e, gc_lu);
   (0x1e8f, 0x1e8f, gc_ll); (0x1e90, 0x1e90, gc_lu); (0x1e91, 0x1e91, gc_ll); (0x1e92, 0x1e92, gc_lu);
   (0x1e93, 0x1e93, gc_ll); (0x1e94, 0x1e94, gc_lu); (0x1e95, 0x1e9d, gc_ll); (0x1e9e, 0x1e9e, gc_lu);
   (0x1e9f, 0x1e9f, gc_ll); (0x1ea0, 0x1ea0, gc_lu); (0x1ea1, 0x1ea1, gc_ll); (0x1ea2, 0x1ea2, gc_lu);
   (0x1ea3, 0x1ea3, gc_ll); (0x1ea4, 0x1ea4, gc_lu); (0x1ea5, 0x1ea5, gc_ll); (0x1ea6, 0x1ea6, gc_lu);
   (0x1ea7, 0x1ea7, gc_ll); (0x1ea8, 0x1ea8, gc_lu); (0x1ea9, 0x1ea9, gc_ll); (0x1eaa, 0x1eaa, gc_lu);
   (0x1eab, 0x1eab, gc_ll); (0x1eac, 0x1eac, gc_lu); (0x1ead, 0x1ead, gc_ll); (0x1eae, 0x1eae, gc_lu);
   (0x1eaf, 0x1eaf, gc_ll); (0x1eb0, 0x1eb0, gc_lu); (0x1eb1, 0x1eb1, gc_ll); (0x1eb2, 0x1eb2, gc_lu);
   (0x1eb3, 0x1eb3, gc_ll); (0x1eb4, 0x1eb4, gc_lu); (0x1eb5, 0x1eb5, gc_ll); (0x1eb6, 0x1eb6, gc_lu);
   (0x1eb7, 0x1eb7, gc_ll); (0x1eb8, 0x1eb8, gc_lu); (0x1eb9, 0x1eb9, gc_ll); (0x1eba, 0x1eba, gc_lu);
   (0x1ebb, 0x1ebb, gc_ll); (0x1ebc, 0x1ebc, gc_lu); (0x1ebd, 0x1ebd, gc_ll); (0x1ebe, 0x1ebe, gc_lu);
   (0x1ebf, 0x1ebf, gc_ll); (0x1ec0, 0x1ec0, gc_lu); (0x1ec1, 0x1ec1, gc_ll); (0x1ec2, 0x1ec2, gc_lu);
   (0x1ec3, 0x1ec3, gc_ll); (0x1ec4, 0x1ec4, gc_lu); (0x1ec5, 0x1ec5, gc_ll); (0x1ec6, 0x1ec6, gc_lu);
   (0x1ec7, 0x1ec7, gc_ll); (0x1ec8, 0x1ec8, gc_lu); (0x1ec9, 0x1ec9, gc_ll); (0x1eca, 0x1eca, gc_lu);
   (0x1ecb, 0x1ecb, gc_ll); (0x1ecc, 0x1ecc, gc_lu); (0x1ecd, 0x1ecd, gc_ll); (0x1ece, 0x1ece, gc_lu);
   (0x1ecf, 0x1ecf, gc_ll); (0x1ed0, 0x1ed0, gc_lu); (0x1ed1, 0x1ed1, gc_ll); (0x1ed2, 0x1ed2, gc_lu);
   (0x1ed3, 0x1ed3, gc_ll); (0x1ed4, 0x1ed4, gc_lu); (0x1ed5, 0x1ed5, gc_ll); (0x1ed6, 0x1ed6, gc_lu);
   (0x1ed7, 0x1ed7, gc_ll); (0x1ed8, 0x1ed8, gc_lu); (0x1ed9, 0x1ed9, gc_ll); (0x1eda, 0x1eda, gc_lu);
   (0x1edb, 0x1edb, gc_ll); (0x1edc, 0x1edc, gc_lu); (0x1edd, 0x1edd, gc_ll); (0x1ede, 0x1ede, gc_lu);
   (0x1edf, 0x1edf, gc_ll); (0x1ee0, 0x1ee0, gc_lu); (0x1ee1, 0x1ee1, gc_ll); (0x1ee2, 0x1ee2, gc_lu);
   (0x1ee3, 0x1ee3, gc_ll); (0x1ee4, 0x1ee4, gc_lu); (0x1ee5, 0x1ee5, gc_ll); (0x1ee6, 0x1ee6, gc_lu);
   (0x1ee7, 0x1ee7, gc_ll); (0x1ee8, 0x1ee8, gc_lu); (0x1ee9, 0x1ee9, gc_ll); (0x1eea, 0x1eea, gc_lu);
   (0x1eeb, 0x1eeb, gc_ll); (0x1eec, 0x1eec, gc_lu); (0x1eed, 0x1eed, gc_ll); (0x1eee, 0x1eee, gc_lu);
   (0x1eef, 0x1eef, gc_ll); (0x1ef0, 0x1ef0, gc_lu); (0x1ef1, 0x1ef1, gc_ll); (0x1ef2, 0x1ef2, gc_lu);
   (0x1ef3, 0x1ef3, gc_ll); (0x1ef4, 0x1ef4, gc_lu); (0x1ef5, 0x1ef5, gc_ll); (0x1ef6, 0x1ef6, gc_lu);
   (0x1ef7, 0x1ef7, gc_ll); (0x1ef8, 0x1ef8, gc_lu); (0x1ef9, 0x1ef9, gc_ll); (0x1efa, 0x1efa, gc_lu);
   (0x1efb, 0x1efb, gc_ll); (0x1efc, 0x1efc, gc_lu); (0x1efd, 0x1efd, gc_ll); (0x1efe, 0x1efe, gc_lu);
   (0x1eff, 0x1f07, gc_ll); (0x1f08, 0x1f0f, gc_lu); (0x1f10, 0x1f15, gc_ll); (0x1f18, 0x1f1d, gc_lu);
   (0x1f20, 0x1f27, gc_ll); (0x1f28, 0x1f2f, gc_lu); (0x1f30, 0x1f37, gc_ll); (0x1f38, 0x1f3f, gc_lu);
   (0x1f40, 0x1f45, gc_ll); (0x1f48, 0x1f4d, gc_lu); (0x1f50, 0x1f57, gc_ll); (0x1f59, 0x1f59, gc_lu);
   (0x1f5b, 0x1f5b, gc_lu); (0x1f5d, 0x1f5d, gc_lu); (0x1f5f, 0x1f5f, gc_lu); (0x1f60, 0x1f67, gc_ll);
   (0x1f68, 0x1f6f, gc_lu); (0x1f70, 0x1f7d, gc_ll); (0x1f80, 0x1f87, gc_ll); (0x1f88, 0x1f8f, gc_lt);
   (0x1f90, 0x1f97, gc_ll); (0x1f98, 0x1f9f, gc_lt); (0x1fa0, 0x1fa7, gc_ll); (0x1fa8, 0x1faf, gc_lt);
   (0x1fb0, 0x1fb4, gc_ll); (0x1fb6, 0x1fb7, gc_ll); (0x1fb8, 0x1fbb, gc_lu); (0x1fbc, 0x1fbc, gc_lt);
   (0x1fbd, 0x1fbd, gc_sk); (0x1fbe, 0x1fbe, gc_ll); (0x1fbf, 0x1fc1, gc_sk); (0x1fc2, 0x1fc4, gc_ll);
   (0x1fc6, 0x1fc7, gc_ll); (0x1fc8, 0x1fcb, gc_lu); (0x1fcc, 0x1fcc, gc_lt); (0x1fcd, 0x1fcf, gc_sk);
   (0x1fd0, 0x1fd3, gc_ll); (0x1fd6, 0x1fd7, gc_ll); (0x1fd8, 0x1fdb, gc_lu); (0x1fdd, 0x1fdf, gc_sk);
   (0x1fe0, 0x1fe7, gc_ll); (0x1fe8, 0x1fec, gc_lu); (0x1fed, 0x1fef, gc_sk); (0x1ff2, 0x1ff4, gc_ll);
   (0x1ff6, 0x1ff7, gc_ll); (0x1ff8, 0x1ffb, gc_lu); (0x1ffc, 0x1ffc, gc_lt); (0x1ffd, 0x1ffe, gc_sk);
   (0x2000, 0x200a, gc_zs); (0x200b, 0x200f, gc_cf); (0x2010, 0x2015, gc_pd); (0x2016, 0x2017, gc_po);
   (0x2018, 0x2018, gc_pi); (0x2019, 0x2019, gc_pf); (0x201a, 0x201a, gc_ps); (0x201b, 0x201c, gc_pi);
   (0x201d, 0x201d, gc_pf); (0x201e, 0x201e, gc_ps); (0x201f, 0x201f, gc_pi); (0x2020, 0x2027, gc_po);
   (0x2028, 0x2028, gc_zl); (0x2029, 0x2029, gc_zp); (0x202a, 0x202e, gc_cf); (0x202f, 0x202f, gc_zs);
   (0x2030, 0x2038, gc_po); (0x2039, 0x2039, gc_pi); (0x203a, 0x203a, gc_pf); (0x203b, 0x203e, gc_po);
   (0x203f, 0x2040, gc_pc); (0x2041, 0x2043, gc_po); (0x2044, 0x2044, gc_sm); (0x2045, 0x2045, gc_ps);
   (0x2046, 0x2046, gc_pe); (0x2047, 0x2051, gc_po); (0x2052, 0x2052, gc_sm); (0x2053, 0x2053, gc_po);
   (0x2054, 0x2054, gc_pc); (0x2055, 0x205e, gc_po); (0x205f, 0x205f, gc_zs); (0x2060, 0x2064, gc_cf);
   (0x2066, 0x206f, gc_cf); (0x2070, 0x2070, gc_no); (0x2071, 0x2071, gc_lm); (0x2074, 0x2079, gc_no);
   (0x207a, 0x207c, gc_sm); (0x207d, 0x207d, gc_ps); (0x207e, 0x207e, gc_pe); (0x207f, 0x207f, gc_lm);
   (0x2080, 0x2089, gc_no); (0x208a, 0x208c, gc_sm); (0x208d, 0x208d, gc_ps); (0x208e, 0x208e, gc_pe);
   (0x2090, 0x209c, gc_lm); (0x20a0, 0x20c0, gc_sc); (0x20d0, 0x20dc, gc_mn); (0x20dd, 0x20e0, gc_me);
   (0x20e1, 0x20e1, gc_mn); (0x20e2, 0x20e4, gc_me); (0x20e5, 0x20f0, gc_mn); (0x2100, 0x2101, gc_so);
   (0x2102, 0x2102, gc_lu); (0x2103, 0x2106, gc_so); (0x2107, 0x2107, gc_lu); (0x2108, 0x2109, gc_so);
   (0x210a, 0x210a, gc_ll); (0x210b, 0x210d, gc_lu); (0x210e, 0x210f, gc_ll); (0x2110, 0x2112, gc_lu);
   (0x2113, 0x2113, gc_ll); (0x2114, 0x2114, gc_so); (0x2115, 0x2115, gc_lu); (0x2116, 0x2117, gc_so);
   (0x2118, 0x2118, gc_sm); (0x2119, 0x211d, gc_lu); (0x211e, 0x2123, gc_so); (0x2124, 0x2124, gc_lu);
   (0x2125, 0x2125, gc_so); (0x2126, 0x2126, gc_lu); (0x2127, 0x2127, gc_so); (0x2128, 0x2128, gc_lu);
   (0x2129, 0x2129, gc_so); (0x212a, 0x212d, gc_lu); (0x212e, 0x212e, gc_so); (0x212f, 0x212f, gc_ll);
   (0x2130, 0x2133, gc_lu); (0x2134, 0x2134, gc_ll); (0x2135, 0x2138, gc_lo); (0x2139, 0x2139, gc_ll);
   (0x213a, 0x213b, gc_so); (0x213c, 0x213d, gc_ll); (0x213e, 0x213f, gc_lu); (0x2140, 0x2144, gc_sm);
   (0x2145, 0x2145, gc_lu); (0x2146, 0x2149, gc_ll); (0x214a, 0x214a, gc_so); (0x214b, 0x214b, gc_sm);
   (0x214c, 0x214d, gc_so); (0x214e, 0x214e, gc_ll); (0x214f, 0x214f, gc_so); (0x2150, 0x215f, gc_no);
   (0x2160, 0x2182, gc_nl); (0x2183, 0x2183, gc_lu); (0x2184, 0x2184, gc_ll); (0x2185, 0x2188, gc_nl);
   (0x2189, 0x2189, gc_no); (0x218a, 0x218b, gc_so); (0x2190, 0x2194, gc_sm); (0x2195, 0x2199, gc_so);
   (0x219a, 0x219b, gc_sm); (0x219c, 0x219f, gc_so); (0x21a0, 0x21a0, gc_sm); (0x21a1, 0x21a2, gc_so);
   (0x21a3, 0x21a3, gc_sm); (0x21a4, 0x21a5, gc_so); (0x21a6, 0x21a6, gc_sm); (0x21a7, 0x21ad, gc_so);
   (0x21ae, 0x21ae, gc_sm); (0x21af, 0x21cd, gc_so); (0x21ce, 0x21cf, gc_sm); (0x21d0, 0x21d1, gc_so);
   (0x21d2, 0x21d2, gc_sm); (0x21d3, 0x21d3, gc_so); (0x21d4, 0x21d4, gc_sm); (0x21d5, 0x21f3, gc_so);
   (0x21f4, 0x22ff, gc_sm); (0x2300, 0x2307, gc_so); (0x2308, 0x2308, gc_ps); (0x2309, 0x2309, gc_pe);
   (0x230a, 0x230a, gc_ps); (0x230b, 0x230b, gc_pe); (0x230c, 0x231f, gc_so); (0x2320, 0x2321, gc_sm);
   (0x2322, 0x2328, gc_so); (0x2329, 0x2329, gc_ps); (0x232a, 0x232a, gc_pe); (0x232b, 0x237b, gc_so);
   (0x237c, 0x237c, gc_sm); (0x237d, 0x239a, gc_so); (0x239b, 0x23b3, gc_sm); (0x23b4, 0x23db, gc_so);
   (0x23dc, 0x23e1, gc_sm); (0x23e2, 0x2426, gc_so); (0x2440, 0x244a, gc_so); (0x2460, 0x249b, gc_no);
   (0x249c, 0x24e9, gc_so); (0x24ea, 0x24ff, gc_no); (0x2500, 0x25b6, gc_so); (0x25b7, 0x25b7, gc_sm);
   (0x25b8, 0x25c0, gc_so); (0x25c1, 0x25c1, gc_sm); (0x25c2, 0x25f7, gc_so); (0x25f8, 0x25ff, gc_sm);
   (0x2600, 0x266e, gc_so); (0x266f, 0x266f, gc_sm); (0x2670, 0x2767, gc_so); (0x2768, 0x2768, gc_ps);
   (0x2769, 0x2769, gc_pe); (0x276a, 0x276a, gc_ps); (0x276b, 0x276b, gc_pe); (0x276c, 0x276c, gc_ps);
   (0x276d, 0x276d, gc_pe); (0x276e, 0x276e, gc_ps); (0x276f, 0x276f, gc_pe); (0x2770, 0x2770, gc_ps);
   (0x2771, 0x2771, gc_pe); (0x2772, 0x2772, gc_ps); (0x2773, 0x2773, gc_pe); (0x2774, 0x2774, gc_ps);
   (0x2775, 0x2775, gc_pe); (0x2776, 0x2793, gc_no); (0x2794, 0x27bf, gc_so); (0x27c0, 0x27c4, gc_sm);
   (0x27c5, 0x27c5, gc_ps); (0x27c6, 0x27c6, gc_pe); (0x27c7, 0x27e5, gc_sm); (0x27e6, 0x27e6, gc_ps);
   (0x27e7, 0x27e7, gc_pe); (0x27e8, 0x27e8, gc_ps); (0x27e9, 0x27e9, gc_pe); (0x27ea, 0x27ea, gc_ps);
   (0x27eb, 0x27eb, gc_pe); (0x27ec, 0x27ec, gc_ps); (0x27ed, 0x27ed, gc_pe); (0x27ee, 0x27ee, gc_ps);
   (0x27ef, 0x27ef, gc_pe); (0x27f0, 0x27ff, gc_sm); (0x2800, 0x28ff, gc_so); (0x2900, 0x2982, gc_sm);
   (0x2983, 0x2983, gc_ps); (0x2984, 0x2984, gc_pe); (0x2985, 0x2985, gc_ps); (0x2986, 0x2986, gc_pe);
   (0x2987, 0x2987, gc_ps); (0x2988, 0x2988, gc_pe); (0x2989, 0x2989, gc_ps); (0x298a, 0x298a, gc_pe);
   (0x298b, 0x298b, gc_ps); (0x298c, 0x298c, gc_pe); (0x298d, 0x298d, gc_ps); (0x298e, 0x298e, gc_pe);
   (0x298f, 0x298f, gc_ps); (0x2990, 0x2990, gc_pe); (0x2991, 0x2991, gc_ps); (0x2992, 0x2992, gc_pe);
   (0x2993, 0x2993, gc_ps); (0x2994, 0x2994, gc_pe); (0x2995, 0x2995, gc_ps); (0x2996, 0x2996, gc_pe);
   (0x2997, 0x2997, gc_ps); (0x2998, 0x2998, gc_pe); (0x2999, 0x29d7, gc_sm); (0x29d8, 0x29d8, gc_ps);
   (0x29d9, 0x29d9, gc_pe); (0x29da, 0x29da, gc_ps); (0x29db, 0x29db, gc_pe); (0x29dc, 0x29fb, gc_sm);
   (0x29fc, 0x29fc, gc_ps); (0x29fd, 0x29fd, gc_pe); (0x29fe, 0x2aff, gc_sm); (0x2b00, 0x2b2f, gc_so);
   (0x2b30, 0x2b44, gc_sm); (0x2b45, 0x2b46, gc_so); (0x2b47, 0x2b4c, gc_sm); (0x2b4d, 0x2b73, gc_so);
   (0x2b76, 0x2b95, gc_so); (0x2b97, 0x2bff, gc_so); (0x2c00, 0x2c2f, gc_lu); (0x2c30, 0x2c5f, gc_ll);
   (0x2c60, 0x2c60, gc_lu); (0x2c61, 0x2c61, gc_ll); (0x2c62, 0x2c64, gc_lu); (0x2c65, 0x2c66, gc_ll);
   (0x2c67, 0x2c67, gc_lu); (0x2c68, 0x2c68, gc_ll); (0x2c69, 0x2c69, gc_lu); (0x2c6a, 0x2c6a, gc_ll);
   (0x2c6b, 0x2c6b, gc_lu); (0x2c6c, 0x2c6c, gc_ll); (0x2c6d, 0x2c70, gc_lu); (0x2c71, 0x2c71, gc_ll);
   (0x2c72, 0x2c72, gc_lu); (0x2c73, 0x2c74, gc_ll); (0x2c75, 0x2c75, gc_lu); (0x2c76, 0x2c7b, gc_ll);
   (0x2c7c, 0x2c7d, gc_lm); (0x2c7e, 0x2c80, gc_lu); (0x2c81, 0x2c81, gc_ll); (0x2c82, 0x2c82, gc_lu);
   (0x2c83, 0x2c83, gc_ll); (0x2c84, 0x2c84, gc_lu); (0x2c85, 0x2c85, gc_ll); (0x2c86, 0x2c86, gc_lu);
   (0x2c87, 0x2c87, gc_ll); (0x2c88, 0x2c88, gc_lu); (0x2c89, 0x2c89, gc_ll); (0x2c8a, 0x2c8a, gc_lu);
   (0x2c8b, 0x2c8b, gc_ll); (0x2c8c, 0x2c8c, gc_lu); (0x2c8d, 0x2c8d, gc_ll); (0x2c8e, 0x2c8e, gc_lu);
   (0x2c8f, 0x2c8f, gc_ll); (0x2c90, 0x2c90, gc_lu); (0x2c91, 0x2c91, gc_ll); (0x2c92, 0x2c92, gc_lu);
   (0x2c93, 0x2c93, gc_ll); (0x2c94, 0x2c94, gc_lu); (0x2c95, 0x2c95, gc_ll); (0x2c96, 0x2c96, gc_lu);
   (0x2c97, 0x2c97, gc_ll); (0x2c98, 0x2c98, gc_lu); (0x2c99, 0x2c99, gc_ll); (0x2c9a, 0x2c9a, gc_lu);
   (0x2c9b, 0x2c9b, gc_ll); (0x2c9c, 0x2c9c, gc_lu); (0x2c9d, 0x2c9d, gc_ll); (0x2c9e, 0x2c9e, gc_lu);
   (0x2c9f, 0x2c9f, gc_ll); (0x2ca0, 0x2ca0, gc_lu); (0x2ca1, 0x2ca1, gc_ll); (0x2ca2, 0x2ca2, gc_lu);
   (0x2ca3, 0x2ca3, gc_ll); (0x2ca4, 0x2ca4, gc_lu); (0x2ca5, 0x2ca5, gc_ll); (0x2ca6, 0x2ca6, gc_lu);
   (0x2ca7, 0x2ca7, gc_ll); (0x2ca8, 0x2ca8, gc_lu); (0x2ca9, 0x2ca9, gc_ll); (0x2caa, 0x2caa, gc_lu);
   (0x2cab, 0x2cab, gc_ll); (0x2cac, 0x2cac, gc_lu); (0x2cad, 0x2cad, gc_ll); (0x2cae, 0x2cae, gc_lu);
   (0x2caf, 0x2caf, gc_ll); (0x2cb0, 0x2cb0, gc_lu); (0x2cb1, 0x2cb1, gc_ll); (0x2cb2, 0x2cb2, gc_lu);
   (0x2cb3, 0x2cb3, gc_ll); (0x2cb4, 0x2cb4, gc_lu); (0x2cb5, 0x2cb5, gc_ll); (0x2cb6, 0x2cb6, gc_lu);
   (0x2cb7, 0x2cb7, gc_ll); (0x2cb8, 0x2cb8, gc_lu); (0x2cb9, 0x2cb9, gc_ll); (0x2cba, 0x2cba, gc_lu);
   (0x2cbb, 0x2cbb, gc_ll); (0x2cbc, 0x2cbc, gc_lu); (0x2cbd, 0x2cbd, gc_ll); (0x2cbe, 0x2cbe, gc_lu);
   (0x2cbf, 0x2cbf, gc_ll); (0x2cc0, 0x2cc0, gc_lu); (0x2cc1, 0x2cc1, gc_ll); (0x2cc2, 0x2cc2, gc_lu);
   (0x2cc3, 0x2cc3, gc_ll); (0x2cc4, 0x2cc4, gc_lu); (0x2cc5, 0x2cc5, gc_ll); (0x2cc6, 0x2cc6, gc_lu);
   (0x2cc7, 0x2cc7, gc_ll); (0x2cc8, 0x2cc8, gc_lu); (0x2cc9, 0x2cc9, gc_ll); (0x2cca, 0x2cca, gc_lu);
   (0x2ccb, 0x2ccb, gc_ll); (0x2ccc, 0x2ccc, gc_lu); (0x2ccd, 0x2ccd, gc_ll); (0x2cce, 0x2cce, gc_lu);
   (0x2ccf, 0x2ccf, gc_ll); (0x2cd0, 0x2cd0, gc_lu); (0x2cd1, 0x2cd1, gc_ll); (0x2cd2, 0x2cd2, gc_lu);
   (0x2cd3, 0x2cd3, gc_ll); (0x2cd4, 0x2cd4, gc_lu); (0x2cd5, 0x2cd5, gc_ll); (0x2cd6, 0x2cd6, gc_lu);
   (0x2cd7, 0x2cd7, gc_ll); (0x2cd8, 0x2cd8, gc_lu); (0x2cd9, 0x2cd9, gc_ll); (0x2cda, 0x2cda, gc_lu);
   (0x2cdb, 0x2cdb, gc_ll); (0x2cdc, 0x2cdc, gc_lu); (0x2cdd, 0x2cdd, gc_ll); (0x2cde, 0x2cde, gc_lu);
   (0x2cdf, 0x2cdf, gc_ll); (0x2ce0, 0x2ce0, gc_lu); (0x2ce1, 0x2ce1, gc_ll); (0x2ce2, 0x2ce2, gc_lu);
   (0x2ce3, 0x2ce4, gc_ll); (0x2ce5, 0x2cea, gc_so); (0x2ceb, 0x2ceb, gc_lu); (0x2cec, 0x2cec, gc_ll);
   (0x2ced, 0x2ced, gc_lu); (0x2cee, 0x2cee, gc_ll); (0x2cef, 0x2cf1, gc_mn); (0x2cf2, 0x2cf2, gc_lu);
   (0x2cf3, 0x2cf3, gc_ll); (0x2cf9, 0x2cfc, gc_po); (0x2cfd, 0x2cfd, gc_no); (0x2cfe, 0x2cff, gc_po);
   (0x2d00, 0x2d25, gc_ll); (0x2d27, 0x2d27, gc_ll); (0x2d2d, 0x2d2d, gc_ll); (0x2d30, 0x2d67, gc_lo);
   (0x2d6f, 0x2d6f, gc_lm); (0x2d70, 0x2d70, gc_po); (0x2d7f, 0x2d7f, gc_mn); (0x2d80, 0x2d96, gc_lo);
   (0x2da0, 0x2da6, gc_lo); (0x2da8, 0x2dae, gc_lo); (0x2db0, 0x2db6, gc_lo); (0x2db8, 0x2dbe, gc_lo);
   (0x2dc0, 0x2dc6, gc_lo); (0x2dc8, 0x2dce, gc_lo); (0x2dd0, 0x2dd6, gc_lo); (0x2dd8, 0x2dde, gc_lo);
   (0x2de0, 0x2dff, gc_mn); (0x2e00, 0x2e01, gc_po); (0x2e02, 0x2e02, gc_pi); (0x2e03, 0x2e03, gc_pf);
   (0x2e04, 0x2e04, gc_pi); (0x2e05, 0x2e05, gc_pf); (0x2e06, 0x2e08, gc_po); (0x2e09, 0x2e09, gc_pi);
   (0x2e0a, 0x2e0a, gc_pf); (0x2e0b, 0x2e0b, gc_po); (0x2e0c, 0x2e0c, gc_pi); (0x2e0d, 0x2e0d, gc_pf);
   (0x2e0e, 0x2e16, gc_po); (0x2e17, 0x2e17, gc_pd); (0x2e18, 0x2e19, gc_po); (0x2e1a, 0x2e1a, gc_pd);
   (0x2e1b, 0x2e1b, gc_po); (0x2e1c, 0x2e1c, gc_pi); (0x2e1d, 0x2e1d, gc_pf); (0x2e1e, 0x2e1f, gc_po);
   (0x2e20, 0x2e20, gc_pi); (0x2e21, 0x2e21, gc_pf); (0x2e22, 0x2e22, gc_ps); (0x2e23, 0x2e23, gc_pe);
   (0x2e24, 0x2e24, gc_ps); (0x2e25, 0x2e25, gc_pe); (0x2e26, 0x2e26, gc_ps); (0x2e27, 0x2e27, gc_pe);
   (0x2e28, 0x2e28, gc_ps); (0x2e29, 0x2e29, gc_pe); (0x2e2a, 0x2e2e, gc_po); (0x2e2f, 0x2e2f, gc_lm);
   (0x2e30, 0x2e39, gc_po); (0x2e3a, 0x2e3b, gc_pd); (0x2e3c, 0x2e3f, gc_po); (0x2e40, 0x2e40, gc_pd);
   (0x2e41, 0x2e41, gc_po); (0x2e42, 0x2e42, gc_ps); (0x2e43, 0x2e4f, gc_po); (0x2e50, 0x2e51, gc_so);
   (0x2e52, 0x2e54, gc_po); (0x2e55, 0x2e55, gc_ps); (0x2e56, 0x2e56, gc_pe); (0x2e57, 0x2e57, gc_ps);
   (0x2e58, 0x2e58, gc_pe); (0x2e59, 0x2e59, gc_ps); (0x2e5a, 0x2e5a, gc_pe); (0x2e5b, 0x2e5b, gc_ps);
   (0x2e5c, 0x2e5c, gc_pe); (0x2e5d, 0x2e5d, gc_pd); (0x2e80, 0x2e99, gc_so); (0x2e9b, 0x2ef3, gc_so);
   (0x2f00, 0x2fd5, gc_so); (0x2ff0, 0x2ffb, gc_so); (0x3000, 0x3000, gc_zs); (0x3001, 0x3003, gc_po);
   (0x3004, 0x3004, gc_so); (0x3005, 0x3005, gc_lm); (0x3006, 0x3006, gc_lo); (0x3007, 0x3007, gc_nl);
   (0x3008, 0x3008, gc_ps); (0x3009, 0x3009, gc_pe); (0x300a, 0x300a, gc_ps); (0x300b, 0x300b, gc_pe);
   (0x300c, 0x300c, gc_ps); (0x300d, 0x300d, gc_pe); (0x300e, 0x300e, gc_ps); (0x300f, 0x300f, gc_pe);
   (0x3010, 0x3010, gc_ps); (0x3011, 0x3011, gc_pe); (0x3012, 0x3013, gc_so); (0x3014, 0x3014, gc_ps);
   (0x3015, 0x3015, gc_pe); (0x3016, 0x3016, gc_ps); (0x3017, 0x3017, gc_pe); (0x3018, 0x3018, gc_ps);
   (0x3019, 0x3019, gc_pe); (0x301a, 0x301a, gc_ps); (0x301b, 0x301b, gc_pe); (0x301c, 0x301c, gc_pd);
   (0x301d, 0x301d, gc_ps); (0x301e, 0x301f, gc_pe); (0x3020, 0x3020, gc_so); (0x3021, 0x3029, gc_nl);
   (0x302a, 0x302d, gc_mn); (0x302e, 0x302f, gc_mc); (0x3030, 0x3030, gc_pd); (0x3031, 0x3035, gc_lm);
   (0x3036, 0x3037, gc_so); (0x3038, 0x303a, gc_nl); (0x303b, 0x303b, gc_lm); (0x303c, 0x303c, gc_lo);
   (0x303d, 0x303d, gc_po); (0x303e, 0x303f, gc_so); (0x3041, 0x3096, gc_lo); (0x3099, 0x309a, gc_mn);
   (0x309b, 0x309c, gc_sk); (0x309d, 0x309e, gc_lm); (0x309f, 0x309f, gc_lo); (0x30a0, 0x30a0, gc_pd);
   (0x30a1, 0x30fa, gc_lo); (0x30fb, 0x30fb, gc_po); (0x30fc, 0x30fe, gc_lm); (0x30ff, 0x30ff, gc_lo);
   (0x3105, 0x312f, gc_lo); (0x3131, 0x318e, gc_lo); (0x3190, 0x3191, gc_so); (0x3192, 0x3195, gc_no);
   (0x3196, 0x319f, gc_so); (0x31a0, 0x31bf, gc_lo); (0x31c0, 0x31e3, gc_so); (0x31f0, 0x31ff, gc_lo);
   (0x3200, 0x321e, gc_so); (0x3220, 0x3229, gc_no); (0x322a, 0x3247, gc_so); (0x3248, 0x324f, gc_no);
   (0x3250, 0x3250, gc_so); (0x3251, 0x325f, gc_no); (0x3260, 0x327f, gc_so); (0x3280, 0x3289, gc_no);
   (0x328a, 0x32b0, gc_so); (0x32b1, 0x32bf, gc_no); (0x32c0, 0x33ff, gc_so); (0x3400, 0x4dbf, gc_lo);
   (0x4dc0, 0x4dff, gc_so); (0x4e00, 0xa014, gc_lo); (0xa015, 0xa015, gc_lm); (0xa016, 0xa48c, gc_lo);
   (0xa490, 0xa4c6, gc_so); (0xa4d0, 0xa4f7, gc_lo); (0xa4f8, 0xa4fd, gc_lm); (0xa4fe, 0xa4ff, gc_po);
   (0xa500, 0xa60b, gc_lo); (0xa60c, 0xa60c, gc_lm); (0xa60d, 0xa60f, gc_po); (0xa610, 0xa61f, gc_lo);
   (0xa620, 0xa629, gc_nd); (0xa62a, 0xa62b, gc_lo); (0xa640, 0xa640, gc_lu); (0xa641, 0xa641, gc_ll);
   (0xa642, 0xa642, gc_lu); (0xa643, 0xa643, gc_ll); (0xa644, 0xa644, gc_lu); (0xa645, 0xa645, gc_ll);
   (0xa646, 0xa646, gc_lu); (0xa647, 0xa647, gc_ll); (0xa648, 0xa648, gc_lu); (0xa649, 0xa649, gc_ll);
   (0xa64a, 0xa64a, gc_lu); (0xa64b, 0xa64b, gc_ll); (0xa64c, 0xa64c, gc_lu); (0xa64d, 0xa64d, gc_ll);
   (0xa64e, 0xa64e, gc_lu); (0xa64f, 0xa64f, gc_ll); (0xa650, 0xa650, gc_lu); (0xa651, 0xa651, gc_ll);
   (0xa652, 0xa652, gc_lu); (0xa653, 0xa653, gc_ll); (0xa654, 0xa654, gc_lu); (0xa655, 0xa655, gc_ll);
   (0xa656, 0xa656, gc_lu); (0xa657, 0xa657, gc_ll); (0xa658, 0xa658, gc_lu); (0xa659, 0xa659, gc_ll);
   (0xa65a, 0xa65a, gc_lu); (0xa65b, 0xa65b, gc_ll); (0xa65c, 0xa65c, gc_lu); (0xa65d, 0xa65d, gc_ll);
   (0xa65e, 0xa65e, gc_lu); (0xa65f, 0xa65f, gc_ll); (0xa660, 0xa660, gc_lu); (0xa661, 0xa661, gc_ll);
   (0xa662, 0xa662, gc_lu); (0xa663, 0xa663, gc_ll); (0xa664, 0xa664, gc_lu); (0xa665, 0xa665, gc_ll);
   (0xa666, 0xa666, gc_lu); (0xa667, 0xa667, gc_ll); (0xa668, 0xa668, gc_lu); (0xa669, 0xa669, gc_ll);
   (0xa66a, 0xa66a, gc_lu); (0xa66b, 0xa66b, gc_ll); (0xa66c, 0xa66c, gc_lu); (0xa66d, 0xa66d, gc_ll);
   (0xa66e, 0xa66e, gc_lo); (0xa66f, 0xa66f, gc_mn); (0xa670, 0xa672, gc_me); (0xa673, 0xa673, gc_po);
   (0xa674, 0xa67d, gc_mn); (0xa67e, 0xa67e, gc_po); (0xa67f, 0xa67f, gc_lm); (0xa680, 0xa680, gc_lu);
   (0xa681, 0xa681, gc_ll); (0xa682, 0xa682, gc_lu); (0xa683, 0xa683, gc_ll); (0xa684, 0xa684, gc_lu);
   (0xa685, 0xa685, gc_ll); (0xa686, 0xa686, gc_lu); (0xa687, 0xa687, gc_ll); (0xa688, 0xa688, gc_lu);
   (0xa689, 0xa689, gc_ll); (0xa68a, 0xa68a, gc_lu); (0xa68b, 0xa68b, gc_ll); (0xa68c, 0xa68c, gc_lu);
   (0xa68d, 0xa68d, gc_ll); (0xa68e, 0xa68e, gc_lu); (0xa68f, 0xa68f, gc_ll); (0xa690, 0xa690, gc_lu);
   (0xa691, 0xa691, gc_ll); (0xa692, 0xa692, gc_lu); (0xa693, 0xa693, gc_ll); (0xa694, 0xa694, gc_lu);
   (0xa695, 0xa695, gc_ll); (0xa696, 0xa696, gc_lu); (0xa697, 0xa697, gc_ll); (0xa698, 0xa698, gc_lu);
   (0xa699, 0xa699, gc_ll); (0xa69a, 0xa69a, gc_lu); (0xa69b, 0xa69b, gc_ll); (0xa69c, 0xa69d, gc_lm);
   (0xa69e, 0xa69f, gc_mn); (0xa6a0, 0xa6e5, gc_lo); (0xa6e6, 0xa6ef, gc_nl); (0xa6f0, 0xa6f1, gc_mn);
   (0xa6f2, 0xa6f7, gc_po); (0xa700, 0xa716, gc_sk); (0xa717, 0xa71f, gc_lm); (0xa720, 0xa721, gc_sk);
   (0xa722, 0xa722, gc_lu); (0xa723, 0xa723, gc_ll); (0xa724, 0xa724, gc_lu); (0xa725, 0xa725, gc_ll);
   (0xa726, 0xa726, gc_lu); (0xa727, 0xa727, gc_ll); (0xa728, 0xa728, gc_lu); (0xa729, 0xa729, gc_ll);
   (0xa72a, 0xa72a, gc_lu); (0xa72b, 0xa72b, gc_ll); (0xa72c, 0xa72c, gc_lu); (0xa72d, 0xa72d, gc_ll);
   (0xa72e, 0xa72e, gc_lu); (0xa72f, 0xa731, gc_ll); (0xa732, 0xa732, gc_lu); (0xa733, 0xa733, gc_ll);
   (0xa734, 0xa734, gc_lu); (0xa735, 0xa735, gc_ll); (0xa736, 0xa736, gc_lu); (0xa737, 0xa737, gc_ll);
   (0xa738, 0xa738, gc_lu); (0xa739, 0xa739, gc_ll); (0xa73a, 0xa73a, gc_lu); (0xa73b, 0xa73b, gc_ll);
   (0xa73c, 0xa73c, gc_lu); (0xa73d, 0xa73d, gc_ll); (0xa73e, 0xa73e, gc_lu); (0xa73f, 0xa73f, gc_ll);
   (0xa740, 0xa740, gc_lu); (0xa741, 0xa741, gc_ll); (0xa742, 0xa742, gc_lu); (0xa743, 0xa743, gc_ll);
   (0xa744, 0xa744, gc_lu); (0xa745, 0xa745, gc_ll); (0xa746, 0xa746, gc_lu); (0xa747, 0xa747, gc_ll);
   (0xa748, 0xa748, gc_lu); (0xa749, 0xa749, gc_ll); (0xa74a, 0xa74a, gc_lu); (0xa74b, 0xa74b, gc_ll);
   (0xa74c, 0xa74c, gc_lu); (0xa74d, 0xa74d, gc_ll); (0xa74e, 0xa74e, gc_lu); (0xa74f, 0xa74f, gc_ll);
   (0xa750, 0xa750, gc_lu); (0xa751, 0xa751, gc_ll); (0xa752, 0xa752, gc_lu); (0xa753, 0xa753, gc_ll);
   (0xa754, 0xa754, gc_lu); (0xa755, 0xa755, gc_ll); (0xa756, 0xa756, gc_lu); (0xa757, 0xa757, gc_ll);
   (0xa758, 0xa758, gc_lu); (0xa759, 0xa759, gc_ll); (0xa75a, 0xa75a, gc_lu); (0xa75b, 0xa75b, gc_ll);
   (0xa75c, 0xa75c, gc_lu); (0xa75d, 0xa75d, gc_ll); (0xa75e, 0xa75e, gc_lu); (0xa75f, 0xa75f, gc_ll);
   (0xa760, 0xa760, gc_lu); (0xa761, 0xa761, gc_ll); (0xa762, 0xa762, gc_lu); (0xa763, 0xa763, gc_ll);
   (0xa764, 0xa764, gc_lu); (0xa765, 0xa765, gc_ll); (0xa766, 0xa766, gc_lu); (0xa767, 0xa767, gc_ll);
   (0xa768, 0xa768, gc_lu); (0xa769, 0xa769, gc_ll); (0xa76a, 0xa76a, gc_lu); (0xa76b, 0xa76b, gc_ll);
   (0xa76c, 0xa76c, gc_lu); (0xa76d, 0xa76d, gc_ll); (0xa76e, 0xa76e, gc_lu); (0xa76f, 0xa76f, gc_ll);
   (0xa770, 0xa770, gc_lm); (0xa771, 0xa778, gc_ll); (0xa779, 0xa779, gc_lu); (0xa77a, 0xa77a, gc_ll);
   (0xa77b, 0xa77b, gc_lu); (0xa77c, 0xa77c, gc_ll); (0xa77d, 0xa77e, gc_lu); (0xa77f, 0xa77f, gc_ll);
   (0xa780, 0xa780, gc_lu); (0xa781, 0xa781, gc_ll); (0xa782, 0xa782, gc_lu); (0xa783, 0xa783, gc_ll);
   (0xa784, 0xa784, gc_lu); (0xa785, 0xa785, gc_ll); (0xa786, 0xa786, gc_lu); (0xa787, 0xa787, gc_ll);
   (0xa788, 0xa788, gc_lm); (0xa789, 0xa78a, gc_sk); (0xa78b, 0xa78b, gc_lu); (0xa78c, 0xa78c, gc_ll);
   (0xa78d, 0xa78d, gc_lu); (0xa78e, 0xa78e, gc_ll); (0xa78f, 0xa78f, gc_lo); (0xa790, 0xa790, gc_lu);
   (0xa791, 0xa791, gc_ll); (0xa792, 0xa792, gc_lu); (0xa793, 0xa795, gc_ll); (0xa796, 0xa796, gc_lu);
   (0xa797, 0xa797, gc_ll); (0xa798, 0xa798, gc_lu); (0xa799, 0xa799, gc_ll); (0xa79a, 0xa79a, gc_lu);
   (0xa79b, 0xa79b, gc_ll); (0xa79c, 0xa79c, gc_lu); (0xa79d, 0xa79d, gc_ll); (0xa79e, 0xa79e, gc_lu);
   (0xa79f, 0xa79f, gc_ll); (0xa7a0, 0xa7a0, gc_lu); (0xa7a1, 0xa7a1, gc_ll); (0xa7a2, 0xa7a2, gc_lu);
   (0xa7a3, 0xa7a3, gc_ll); (0xa7a4, 0xa7a4, gc_lu); (0xa7a5, 0xa7a5, gc_ll); (0xa7a6, 0xa7a6, gc_lu);
   (0xa7a7, 0xa7a7, gc_ll); (0xa7a8, 0xa7a8, gc_lu); (0xa7a9, 0xa7a9, gc_ll); (0xa7aa, 0xa7ae, gc_lu);
   (0xa7af, 0xa7af, gc_ll); (0xa7b0, 0xa7b4, gc_lu); (0xa7b5, 0xa7b5, gc_ll); (0xa7b6, 0xa7b6, gc_lu);
   (0xa7b7, 0xa7b7, gc_ll); (0xa7b8, 0xa7b8, gc_lu); (0xa7b9, 0xa7b9, gc_ll); (0xa7ba, 0xa7ba, gc_lu);
   (0xa7bb, 0xa7bb, gc_ll); (0xa7bc, 0xa7bc, gc_lu); (0xa7bd, 0xa7bd, gc_ll); (0xa7be, 0xa7be, gc_lu);
   (0xa7bf, 0xa7bf, gc_ll); (0xa7c0, 0xa7c0, gc_lu); (0xa7c1, 0xa7c1, gc_ll); (0xa7c2, 0xa7c2, gc_lu);
   (0xa7c3, 0xa7c3, gc_ll); (0xa7c4, 0xa7c7, gc_lu); (0xa7c8, 0xa7c8, gc_ll); (0xa7c9, 0xa7c9, gc_lu);
   (0xa7ca, 0xa7ca, gc_ll); (0xa7d0, 0xa7d0, gc_lu); (0xa7d1, 0xa7d1, gc_ll); (0xa7d3, 0xa7d3, gc_ll);
   (0xa7d5, 0xa7d5, gc_ll); (0xa7d6, 0xa7d6, gc_lu); (0xa7d7, 0xa7d7, gc_ll); (0xa7d8, 0xa7d8, gc_lu);
   (0xa7d9, 0xa7d9, gc_ll); (0xa7f2, 0xa7f4, gc_lm); (0xa7f5, 0xa7f5, gc_lu); (0xa7f6, 0xa7f6, gc_ll);
   (0xa7f7, 0xa7f7, gc_lo); (0xa7f8, 0xa7f9, gc_lm); (0xa7fa, 0xa7fa, gc_ll); (0xa7fb, 0xa801, gc_lo);
   (0xa802, 0xa802, gc_mn); (0xa803, 0xa805, gc_lo); (0xa806, 0xa806, gc_mn); (0xa807, 0xa80a, gc_lo);
   (0xa80b, 0xa80b, gc_mn); (0xa80c, 0xa822, gc_lo); (0xa823, 0xa824, gc_mc); (0xa825, 0xa826, gc_mn);
   (0xa827, 0xa827, gc_mc); (0xa828, 0xa82b, gc_so); (0xa82c, 0xa82c, gc_mn); (0xa830, 0xa835, gc_no);
   (0xa836, 0xa837, gc_so); (0xa838, 0xa838, gc_sc); (0xa839, 0xa839, gc_so); (0xa840, 0xa873, gc_lo);
   (0xa874, 0xa877, gc_po); (0xa880, 0xa881, gc_mc); (0xa882, 0xa8b3, gc_lo); (0xa8b4, 0xa8c3, gc_mc);
   (0xa8c4, 0xa8c5, gc_mn); (0xa8ce, 0xa8cf, gc_po); (0xa8d0, 0xa8d9, gc_nd); (0xa8e0, 0xa8f1, gc_mn);
   (0xa8f2, 0xa8f7, gc_lo); (0xa8f8, 0xa8fa, gc_po); (0xa8fb, 0xa8fb, gc_lo); (0xa8fc, 0xa8fc, gc_po);
   (0xa8fd, 0xa8fe, gc_lo); (0xa8ff, 0xa8ff, gc_mn); (0xa900, 0xa909, gc_nd); (0xa90a, 0xa925, gc_lo);
   (0xa926, 0xa92d, gc_mn); (0xa92e, 0xa92f, gc_po); (0xa930, 0xa946, gc_lo); (0xa947, 0xa951, gc_mn);
   (0xa952, 0xa953, gc_mc); (0xa95f, 0xa95f, gc_po); (0xa960, 0xa97c, gc_lo); (0xa980, 0xa982, gc_mn);
   (0xa983, 0xa983, gc_mc); (0xa984, 0xa9b2, gc_lo); (0xa9b3, 0xa9b3, gc_mn); (0xa9b4, 0xa9b5, gc_mc);
   (0xa9b6, 0xa9b9, gc_mn); (0xa9ba, 0xa9bb, gc_mc); (0xa9bc, 0xa9bd, gc_mn); (0xa9be, 0xa9c0, gc_mc);
   (0xa9c1, 0xa9cd, gc_po); (0xa9cf, 0xa9cf, gc_lm); (0xa9d0, 0xa9d9, gc_nd); (0xa9de, 0xa9df, gc_po);
   (0xa9e0, 0xa9e4, gc_lo); (0xa9e5, 0xa9e5, gc_mn); (0xa9e6, 0xa9e6, gc_lm); (0xa9e7, 0xa9ef, gc_lo);
   (0xa9f0, 0xa9f9, gc_nd); (0xa9fa, 0xa9fe, gc_lo); (0xaa00, 0xaa28, gc_lo); (0xaa29, 0xaa2e, gc_mn);
   (0xaa2f, 0xaa30, gc_mc); (0xaa31, 0xaa32, gc_mn); (0xaa33, 0xaa34, gc_mc); (0xaa35, 0xaa36, gc_mn);
   (0xaa40, 0xaa42, gc_lo); (0xaa43, 0xaa43, gc_mn); (0xaa44, 0xaa4b, gc_lo); (0xaa4c, 0xaa4c, gc_mn);
   (0xaa4d, 0xaa4d, gc_mc); (0xaa50, 0xaa59, gc_nd); (0xaa5c, 0xaa5f, gc_po); (0xaa60, 0xaa6f, gc_lo);
   (0xaa70, 0xaa70, gc_lm); (0xaa71, 0xaa76, gc_lo); (0xaa77, 0xaa79, gc_so); (0xaa7a, 0xaa7a, gc_lo);
   (0xaa7b, 0xaa7b, gc_mc); (0xaa7c, 0xaa7c, gc_mn); (0xaa7d, 0xaa7d, gc_mc); (0xaa7e, 0xaaaf, gc_lo);
   (0xaab0, 0xaab0, gc_mn); (0xaab1, 0xaab1, gc_lo); (0xaab2, 0xaab4, gc_mn); (0xaab5, 0xaab6, gc_lo);
   (0xaab7, 0xaab8, gc_mn); (0xaab9, 0xaabd, gc_lo); (0xaabe, 0xaabf, gc_mn); (0xaac0, 0xaac0, gc_lo);
   (0xaac1, 0xaac1, gc_mn); (0xaac2, 0xaac2, gc_lo); (0xaadb, 0xaadc, gc_lo); (0xaadd, 0xaadd, gc_lm);
   (0xaade, 0xaadf, gc_po); (0xaae0, 0xaaea, gc_lo); (0xaaeb, 0xaaeb, gc_mc); (0xaaec, 0xaaed, gc_mn);
   (0xaaee, 0xaaef, gc_mc); (0xaaf0, 0xaaf1, gc_po); (0xaaf2, 0xaaf2, gc_lo); (0xaaf3, 0xaaf4, gc_lm);
   (0xaaf5, 0xaaf5, gc_mc); (0xaaf6, 0xaaf6, gc_mn); (0xab01, 0xab06, gc_lo); (0xab09, 0xab0e, gc_lo);
   (0xab11, 0xab16, gc_lo); (0xab20, 0xab26, gc_lo); (0xab28, 0xab2e, gc_lo); (0xab30, 0xab5a, gc_ll);
   (0xab5b, 0xab5b, gc_sk); (0xab5c, 0xab5f, gc_lm); (0xab60, 0xab68, gc_ll); (0xab69, 0xab69, gc_lm);
   (0xab6a, 0xab6b, gc_sk); (0xab70, 0xabbf, gc_ll); (0xabc0, 0xabe2, gc_lo); (0xabe3, 0xabe4, gc_mc);
   (0xabe5, 0xabe5, gc_mn); (0xabe6, 0xabe7, gc_mc); (0xabe8, 0xabe8, gc_mn); (0xabe9, 0xabea, gc_mc);
   (0xabeb, 0xabeb, gc_po); (0xabec, 0xabec, gc_mc); (0xabed, 0xabed, gc_mn); (0xabf0, 0xabf9, gc_nd);
   (0xac00, 0xd7a3, gc_lo); (0xd7b0, 0xd7c6, gc_lo); (0xd7cb, 0xd7fb, gc_lo); (0xd800, 0xdfff, gc_cs);
   (0xe000, 0xf8ff, gc_co); (0xf900, 0xfa6d, gc_lo); (0xfa70, 0xfad9, gc_lo); (0xfb00, 0xfb06, gc_ll);
   (0xfb13, 0xfb17, gc_ll); (0xfb1d, 0xfb1d, gc_lo); (0xfb1e, 0xfb1e, gc_mn); (0xfb1f, 0xfb28, gc_lo);
   (0xfb29, 0xfb29, gc_sm); (0xfb2a, 0xfb36, gc_lo); (0xfb38, 0xfb3c, gc_lo); (0xfb3e, 0xfb3e, gc_lo);
   (0xfb40, 0xfb41, gc_lo); (0xfb43, 0xfb44, gc_lo); (0xfb46, 0xfbb1, gc_lo); (0xfbb2, 0xfbc2, gc_sk);
   (0xfbd3, 0xfd3d, gc_lo); (0xfd3e, 0xfd3e, gc_pe); (0xfd3f, 0xfd3f, gc_ps); (0xfd40, 0xfd4f, gc_so);
   (0xfd50, 0xfd8f, gc_lo); (0xfd92, 0xfdc7, gc_lo); (0xfdcf, 0xfdcf, gc_so); (0xfdf0, 0xfdfb, gc_lo);
   (0xfdfc, 0xfdfc, gc_sc); (0xfdfd, 0xfdff, gc_so); (0xfe00, 0xfe0f, gc_mn); (0xfe10, 0xfe16, gc_po);
   (0xfe17, 0xfe17, gc_ps); (0xfe18, 0xfe18, gc_pe); (0xfe19, 0xfe19, gc_po); (0xfe20, 0xfe2f, gc_mn);
   (0xfe30, 0xfe30, gc_po); (0xfe31, 0xfe32, gc_pd); (0xfe33, 0xfe34, gc_pc); (0xfe35, 0xfe35, gc_ps);
   (0xfe36, 0xfe36, gc_pe); (0xfe37, 0xfe37, gc_ps); (0xfe38, 0xfe38, gc_pe); (0xfe39, 0xfe39, gc_ps);
   (0xfe3a, 0xfe3a, gc_pe); (0xfe3b, 0xfe3b, gc_ps); (0xfe3c, 0xfe3c, gc_pe); (0xfe3d, 0xfe3d, gc_ps);
   (0xfe3e, 0xfe3e, gc_pe); (0xfe3f, 0xfe3f, gc_ps); (0xfe40, 0xfe40, gc_pe); (0xfe41, 0xfe41, gc_ps);
   (0xfe42, 0xfe42, gc_pe); (0xfe43, 0xfe43, gc_ps); (0xfe44, 0xfe44, gc_pe); (0xfe45, 0xfe46, gc_po);
   (0xfe47, 0xfe47, gc_ps); (0xfe48, 0xfe48, gc_pe); (0xfe49, 0xfe4c, gc_po); (0xfe4d, 0xfe4f, gc_pc);
   (0xfe50, 0xfe52, gc_po); (0xfe54, 0xfe57, gc_po); (0xfe58, 0xfe58, gc_pd); (0xfe59, 0xfe59, gc_ps);
   (0xfe5a, 0xfe5a, gc_pe); (0xfe5b, 0xfe5b, gc_ps); (0xfe5c, 0xfe5c, gc_pe); (0xfe5d, 0xfe5d, gc_ps);
   (0xfe5e, 0xfe5e, gc_pe); (0xfe5f, 0xfe61, gc_po); (0xfe62, 0xfe62, gc_sm); (0xfe63, 0xfe63, gc_pd);
   (0xfe64, 0xfe66, gc_sm); (0xfe68, 0xfe68, gc_po); (0xfe69, 0xfe69, gc_sc); (0xfe6a, 0xfe6b, gc_po);
   (0xfe70, 0xfe74, gc_lo); (0xfe76, 0xfefc, gc_lo); (0xfeff, 0xfeff, gc_cf); (0xff01, 0xff03, gc_po);
   (0xff04, 0xff04, gc_sc); (0xff05, 0xff07, gc_po); (0xff08, 0xff08, gc_ps); (0xff09, 0xff09, gc_pe);
   (0xff0a, 0xff0a, gc_po); (0xff0b, 0xff0b, gc_sm); (0xff0c, 0xff0c, gc_po); (0xff0d, 0xff0d, gc_pd);
   (0xff0e, 0xff0f, gc_po); (0xff10, 0xff19, gc_nd); (0xff1a, 0xff1b, gc_po); (0xff1c, 0xff1e, gc_sm);
   (0xff1f, 0xff20, gc_po); (0xff21, 0xff3a, gc_lu); (0xff3b, 0xff3b, gc_ps); (0xff3c, 0xff3c, gc_po);
   (0xff3d, 0xff3d, gc_pe); (0xff3e, 0xff3e, gc_sk); (0xff3f, 0xff3f, gc_pc); (0xff40, 0xff40, gc_sk);
   (0xff41, 0xff5a, gc_ll); (0xff5b, 0xff5b, gc_ps); (0xff5c, 0xff5c, gc_sm); (0xff5d, 0xff5d, gc_pe);
   (0xff5e, 0xff5e, gc_sm); (0xff5f, 0xff5f, gc_ps); (0xff60, 0xff60, gc_pe); (0xff61, 0xff61, gc_po);
   (0xff62, 0xff62, gc_ps); (0xff63, 0xff63, gc_pe); (0xff64, 0xff65, gc_po); (0xff66, 0xff6f, gc_lo);
   (0xff70, 0xff70, gc_lm); (0xff71, 0xff9d, gc_lo); (0xff9e, 0xff9f, gc_lm); (0xffa0, 0xffbe, gc_lo);
   (0xffc2, 0xffc7, gc_lo); (0xffca, 0xffcf, gc_lo); (0xffd2, 0xffd7, gc_lo); (0xffda, 0xffdc, gc_lo);
   (0xffe0, 0xffe1, gc_sc); (0xffe2, 0xffe2, gc_sm); (0xffe3, 0xffe3, gc_sk); (0xffe4, 0xffe4, gc_so);
   (0xffe5, 0xffe6, gc_sc); (0xffe8, 0xffe8, gc_so); (0xffe9, 0xffec, gc_sm); (0xffed, 0xffee, gc_so);
   (0xfff9, 0xfffb, gc_cf); (0xfffc, 0xfffd, gc_so); (0x10000, 0x1000b, gc_lo); (0x1000d, 0x10026, gc_lo);
   (0x10028, 0x1003a, gc_lo); (0x1003c, 0x1003d, gc_lo); (0x1003f, 0x1004d, gc_lo); (0x10050, 0x1005d, gc_lo);
   (0x10080, 0x100fa, gc_lo); (0x10100, 0x10102, gc_po); (0x10107, 0x10133, gc_no); (0x10137, 0x1013f, gc_so);
   (0x10140, 0x10174, gc_nl); (0x10175, 0x10178, gc_no); (0x10179, 0x10189, gc_so); (0x1018a, 0x1018b, gc_no);
   (0x1018c, 0x1018e, gc_so); (0x10190, 0x1019c, gc_so); (0x101a0, 0x101a0, gc_so); (0x101d0, 0x101fc, gc_so);
   (0x101fd, 0x101fd, gc_mn); (0x10280, 0x1029c, gc_lo); (0x102a0, 0x102d0, gc_lo); (0x102e0, 0x102e0, gc_mn);
   (0x102e1, 0x102fb, gc_no); (0x10300, 0x1031f, gc_lo); (0x10320, 0x10323, gc_no); (0x1032d, 0x10340, gc_lo);
   (0x10341, 0x10341, gc_nl); (0x10342, 0x10349, gc_lo); (0x1034a, 0x1034a, gc_nl); (0x10350, 0x10375, gc_lo);
   (0x10376, 0x1037a, gc_mn); (0x10380, 0x1039d, gc_lo); (0x1039f, 0x1039f, gc_po); (0x103a0, 0x103c3, gc_lo);
   (0x103c8, 0x103cf, gc_lo); (0x103d0, 0x103d0, gc_po); (0x103d1, 0x103d5, gc_nl); (0x10400, 0x10427, gc_lu);
   (0x10428, 0x1044f, gc_ll); (0x10450, 0x1049d, gc_lo); (0x104a0, 0x104a9, gc_nd); (0x104b0, 0x104d3, gc_lu);
   (0x104d8, 0x104fb, gc_ll); (0x10500, 0x10527, gc_lo); (0x10530, 0x10563, gc_lo); (0x1056f, 0x1056f, gc_po);
   (0x10570, 0x1057a, gc_lu); (0x1057c, 0x1058a, gc_lu); (0x1058c, 0x10592, gc_lu); (0x10594, 0x10595, gc_lu);
   (0x10597, 0x105a1, gc_ll); (0x105a3, 0x105b1, gc_ll); (0x105b3, 0x105b9, gc_ll); (0x105bb, 0x105bc, gc_ll);
   (0x10600, 0x10736, gc_lo); (0x10740, 0x10755, gc_lo); (0x10760, 0x10767, gc_lo); (0x10780, 0x10785, gc_lm);
   (0x10787, 0x107b0, gc_lm); (0x107b2, 0x107ba, gc_lm); (0x10800, 0x10805, gc_lo); (0x10808, 0x10808, gc_lo);
   (0x1080a, 0x10835, gc_lo); (0x10837, 0x10838, gc_lo); (0x1083c, 0x1083c, gc_lo); (0x1083f, 0x10855, gc_lo);
   (0x10857, 0x10857, gc_po); (0x10858, 0x1085f, gc_no); (0x10860, 0x10876, gc_lo); (0x10877, 0x10878, gc_so);
   (0x10879, 0x1087f, gc_no); (0x10880, 0x1089e, gc_lo); (0x108a7, 0x108af, gc_no); (0x108e0, 0x108f2, gc_lo);
   (0x108f4, 0x108f5, gc_lo); (0x108fb, 0x108ff, gc_no); (0x10900, 0x10915, gc_lo); (0x10916, 0x1091b, gc_no);
   (0x1091f, 0x1091f, gc_po); (0x10920, 0x10939, gc_lo); (0x1093f, 0x1093f, gc_po); (0x10980, 0x109b7, gc_lo);
   (0x109bc, 0x109bd, gc_no); (0x109be, 0x109bf, gc_lo); (0x109c0, 0x109cf, gc_no); (0x109d2, 0x109ff, gc_no);
   (0x10a00, 0x10a00, gc_lo); (0x10a01, 0x10a03, gc_mn); (0x10a05, 0x10a06, gc_mn); (0x10a0c, 0x10a0f, gc_mn);
   (0x10a10, 0x10a13, gc_lo); (0x10a15, 0x10a17, gc_lo); (0x10a19, 0x10a35, gc_lo); (0x10a38, 0x10a3a, gc_mn);
   (0x10a3f, 0x10a3f, gc_mn); (0x10a40, 0x10a48, gc_no); (0x10a50, 0x10a58, gc_po); (0x10a60, 0x10a7c, gc_lo);
   (0x10a7d, 0x10a7e, gc_no); (0x10a7f, 0x10a7f, gc_po); (0x10a80, 0x10a9c, gc_lo); (0x10a9d, 0x10a9f, gc_no);
   (0x10ac0, 0x10ac7, gc_lo); (0x10ac8, 0x10ac8, gc_so); (0x10ac9, 0x10ae4, gc_lo); (0x10ae5, 0x10ae6, gc_mn);
   (0x10aeb, 0x10aef, gc_no); (0x10af0, 0x10af6, gc_po); (0x10b00, 0x10b35, gc_lo); (0x10b39, 0x10b3f, gc_po);
   (0x10b40, 0x10b55, gc_lo); (0x10b58, 0x10b5f, gc_no); (0x10b60, 0x10b72, gc_lo); (0x10b78, 0x10b7f, gc_no);
   (0x10b80, 0x10b91, gc_lo); (0x10b99, 0x10b9c, gc_po); (0x10ba9, 0x10baf, gc_no); (0x10c00, 0x10c48, gc_lo);
   (0x10c80, 0x10cb2, gc_lu); (0x10cc0, 0x10cf2, gc_ll); (0x10cfa, 0x10cff, gc_no); (0x10d00, 0x10d23, gc_lo);
   (0x10d24, 0x10d27, gc_mn); (0x10d30, 0x10d39, gc_nd); (0x10e60, 0x10e7e, gc_no); (0x10e80, 0x10ea9, gc_lo);
   (0x10eab, 0x10eac, gc_mn); (0x10ead, 0x10ead, gc_pd); (0x10eb0, 0x10eb1, gc_lo); (0x10f00, 0x10f1c, gc_lo);
   (0x10f1d, 0x10f26, gc_no); (0x10f27, 0x10f27, gc_lo); (0x10f30, 0x10f45, gc_lo); (0x10f46, 0x10f50, gc_mn);
   (0x10f51, 0x10f54, gc_no); (0x10f55, 0x10f59, gc_po); (0x10f70, 0x10f81, gc_lo); (0x10f82, 0x10f85, gc_mn);
   (0x10f86, 0x10f89, gc_po); (0x10fb0, 0x10fc4, gc_lo); (0x10fc5, 0x10fcb, gc_no); (0x10fe0, 0x10ff6, gc_lo);
   (0x11000, 0x11000, gc_mc); (0x11001, 0x11001, gc_mn); (0x11002, 0x11002, gc_mc); (0x11003, 0x11037, gc_lo);
   (0x11038, 0x11046, gc_mn); (0x11047, 0x1104d, gc_po); (0x11052, 0x11065, gc_no); (0x11066, 0x1106f, gc_nd);
   (0x11070, 0x11070, gc_mn); (0x11071, 0x11072, gc_lo); (0x11073, 0x11074, gc_mn); (0x11075, 0x11075, gc_lo);
   (0x1107f, 0x11081, gc_mn); (0x11082, 0x11082, gc_mc); (0x11083, 0x110af, gc_lo); (0x110b0, 0x110b2, gc_mc);
   (0x110b3, 0x110b6, gc_mn); (0x110b7, 0x110b8, gc_mc); (0x110b9, 0x110ba, gc_mn); (0x110bb, 0x110bc, gc_po);
   (0x110bd, 0x110bd, gc_cf); (0x110be, 0x110c1, gc_po); (0x110c2, 0x110c2, gc_mn); (0x110cd, 0x110cd, gc_cf);
   (0x110d0, 0x110e8, gc_lo); (0x110f0, 0x110f9, gc_nd); (0x11100, 0x11102, gc_mn); (0x11103, 0x11126, gc_lo);
   (0x11127, 0x1112b, gc_mn); (0x1112c, 0x1112c, gc_mc); (0x1112d, 0x11134, gc_mn); (0x11136, 0x1113f, gc_nd);
   (0x11140, 0x11143, gc_po); (0x11144, 0x11144, gc_lo); (0x11145, 0x11146, gc_mc); (0x11147, 0x11147, gc_lo);
   (0x11150, 0x11172, gc_lo); (0x11173, 0x11173, gc_mn); (0x11174, 0x11175, gc_po); (0x11176, 0x11176, gc_lo);
   (0x11180, 0x11181, gc_mn); (0x11182, 0x11182, gc_mc); (0x11183, 0x111b2, gc_lo); (0x111b3, 0x111b5, gc_mc);
   (0x111b6, 0x111be, gc_mn); (0x111bf, 0x111c0, gc_mc); (0x111c1, 0x111c4, gc_lo); (0x111c5, 0x111c8, gc_po);
   (0x111c9, 0x111cc, gc_mn); (0x111cd, 0x111cd, gc_po); (0x111ce, 0x111ce, gc_mc); (0x111cf, 0x111cf, gc_mn);
   (0x111d0, 0x111d9, gc_nd); (0x111da, 0x111da, gc_lo); (0x111db, 0x111db, gc_po); (0x111dc, 0x111dc, gc_lo);
   (0x111dd, 0x111df, gc_po); (0x111e1, 0x111f4, gc_no); (0x11200, 0x11211, gc_lo); (0x11213, 0x1122b, gc_lo);
   (0x1122c, 0x1122e, gc_mc); (0x1122f, 0x11231, gc_mn); (0x11232, 0x11233, gc_mc); (0x11234, 0x11234, gc_mn);
   (0x11235, 0x11235, gc_mc); (0x11236, 0x11237, gc_mn); (0x11238, 0x1123d, gc_po); (0x1123e, 0x1123e, gc_mn);
   (0x11280, 0x11286, gc_lo); (0x11288, 0x11288, gc_lo); (0x1128a, 0x1128d, gc_lo); (0x1128f, 0x1129d, gc_lo);
   (0x1129f, 0x112a8, gc_lo); (0x112a9, 0x112a9, gc_po); (0x112b0, 0x112de, gc_lo); (0x112df, 0x112df, gc_mn);
   (0x112e0, 0x112e2, gc_mc); (0x112e3, 0x112ea, gc_mn); (0x112f0, 0x112f9, gc_nd); (0x11300, 0x11301, gc_mn);
   (0x11302, 0x11303, gc_mc); (0x11305, 0x1130c, gc_lo); (0x1130f, 0x11310, gc_lo); (0x11313, 0x11328, gc_lo);
   (0x1132a, 0x11330, gc_lo); (0x11332, 0x11333, gc_lo); (0x11335, 0x11339, gc_lo); (0x1133b, 0x1133c, gc_mn);
   (0x1133d, 0x1133d, gc_lo); (0x1133e, 0x1133f, gc_mc); (0x11340, 0x11340, gc_mn); (0x11341, 0x11344, gc_mc);
   (0x11347, 0x11348, gc_mc); (0x1134b, 0x1134d, gc_mc); (0x11350, 0x11350, gc_lo); (0x11357, 0x11357, gc_mc);
   (0x1135d, 0x11361, gc_lo); (0x11362, 0x11363, gc_mc); (0x11366, 0x1136c, gc_mn); (0x11370, 0x11374, gc_mn);
   (0x11400, 0x11434, gc_lo); (0x11435, 0x11437, gc_mc); (0x11438, 0x1143f, gc_mn); (0x11440, 0x11441, gc_mc);
   (0x11442, 0x11444, gc_mn); (0x11445, 0x11445, gc_mc); (0x11446, 0x11446, gc_mn); (0x11447, 0x1144a, gc_lo);
   (0x1144b, 0x1144f, gc_po); (0x11450, 0x11459, gc_nd); (0x1145a, 0x1145b, gc_po); (0x1145d, 0x1145d, gc_po);
   (0x1145e, 0x1145e, gc_mn); (0x1145f, 0x11461, gc_lo); (0x11480, 0x114af, gc_lo); (0x114b0, 0x114b2, gc_mc);
   (0x114b3, 0x114b8, gc_mn); (0x114b9, 0x114b9, gc_mc); (0x114ba, 0x114ba, gc_mn); (0x114bb, 0x114be, gc_mc);
   (0x114bf, 0x114c0, gc_mn); (0x114c1, 0x114c1, gc_mc); (0x114c2, 0x114c3, gc_mn); (0x114c4, 0x114c5, gc_lo);
   (0x114c6, 0x114c6, gc_po); (0x114c7, 0x114c7, gc_lo); (0x114d0, 0x114d9, gc_nd); (0x11580, 0x115ae, gc_lo);
   (0x115af, 0x115b1, gc_mc); (0x115b2, 0x115b5, gc_mn); (0x115b8, 0x115bb, gc_mc); (0x115bc, 0x115bd, gc_mn);
   (0x115be, 0x115be, gc_mc); (0x115bf, 0x115c0, gc_mn); (0x115c1, 0x115d7, gc_po); (0x115d8, 0x115db, gc_lo);
   (0x115dc, 0x115dd, gc_mn); (0x11600, 0x1162f, gc_lo); (0x11630, 0x11632, gc_mc); (0x11633, 0x1163a, gc_mn);
   (0x1163b, 0x1163c, gc_mc); (0x1163d, 0x1163d, gc_mn); (0x1163e, 0x1163e, gc_mc); (0x1163f, 0x11640, gc_mn);
   (0x11641, 0x11643, gc_po); (0x11644, 0x11644, gc_lo); (0x11650, 0x11659, gc_nd); (0x11660, 0x1166c, gc_po);
   (0x11680, 0x116aa, gc_lo); (0x116ab, 0x116ab, gc_mn); (0x116ac, 0x116ac, gc_mc); (0x116ad, 0x116ad, gc_mn);
   (0x116ae, 0x116af, gc_mc); (0x116b0, 0x116b5, gc_mn); (0x116b6, 0x116b6, gc_mc); (0x116b7, 0x116b7, gc_mn);
   (0x116b8, 0x116b8, gc_lo); (0x116b9, 0x116b9, gc_po); (0x116c0, 0x116c9, gc_nd); (0x11700, 0x1171a, gc_lo);
   (0x1171d, 0x1171f, gc_mn); (0x11720, 0x11721, gc_mc); (0x11722, 0x11725, gc_mn); (0x11726, 0x11726, gc_mc);
   (0x11727, 0x1172b, gc_mn); (0x11730, 0x11739, gc_nd); (0x1173a, 0x1173b, gc_no); (0x1173c, 0x1173e, gc_po);
   (0x1173f, 0x1173f, gc_so); (0x11740, 0x11746, gc_lo); (0x11800, 0x1182b, gc_lo); (0x1182c, 0x1182e, gc_mc);
   (0x1182f, 0x11837, gc_mn); (0x11838, 0x11838, gc_mc); (0x11839, 0x1183a, gc_mn); (0x1183b, 0x1183b, gc_po);
   (0x118a0, 0x118bf, gc_lu); (0x118c0, 0x118df, gc_ll); (0x118e0, 0x118e9, gc_nd); (0x118ea, 0x118f2, gc_no);
   (0x118ff, 0x11906, gc_lo); (0x11909, 0x11909, gc_lo); (0x1190c, 0x11913, gc_lo); (0x11915, 0x11916, gc_lo);
   (0x11918, 0x1192f, gc_lo); (0x11930, 0x11935, gc_mc); (0x11937, 0x11938, gc_mc); (0x1193b, 0x1193c, gc_mn);
   (0x1193d, 0x1193d, gc_mc); (0x1193e, 0x1193e, gc_mn); (0x1193f, 0x1193f, gc_lo); (0x11940, 0x11940, gc_mc);
   (0x11941, 0x11941, gc_lo); (0x11942, 0x11942, gc_mc); (0x11943, 0x11943, gc_mn); (0x11944, 0x11946, gc_po);
   (0x11950, 0x11959, gc_nd); (0x119a0, 0x119a7, gc_lo); (0x119aa, 0x119d0, gc_lo); (0x119d1, 0x119d3, gc_mc);
   (0x119d4, 0x119d7, gc_mn); (0x119da, 0x119db, gc_mn); (0x119dc, 0x119df, gc_mc); (0x119e0, 0x119e0, gc_mn);
   (0x119e1, 0x119e1, gc_lo); (0x119e2, 0x119e2, gc_po); (0x119e3, 0x119e3, gc_lo); (0x119e4, 0x119e4, gc_mc);
   (0x11a00, 0x11a00, gc_lo); (0x11a01, 0x11a0a, gc_mn); (0x11a0b, 0x11a32, gc_lo); (0x11a33, 0x11a38, gc_mn);
   (0x11a39, 0x11a39, gc_mc); (0x11a3a, 0x11a3a, gc_lo); (0x11a3b, 0x11a3e, gc_mn); (0x11a3f, 0x11a46, gc_po);
   (0x11a47, 0x11a47, gc_mn); (0x11a50, 0x11a50, gc_lo); (0x11a51, 0x11a56, gc_mn); (0x11a57, 0x11a58, gc_mc);
   (0x11a59, 0x11a5b, gc_mn); (0x11a5c, 0x11a89, gc_lo); (0x11a8a, 0x11a96, gc_mn); (0x11a97, 0x11a97, gc_mc);
   (0x11a98, 0x11a99, gc_mn); (0x11a9a, 0x11a9c, gc_po); (0x11a9d, 0x11a9d, gc_lo); (0x11a9e, 0x11aa2, gc_po);
   (0x11ab0, 0x11af8, gc_lo); (0x11c00, 0x11c08, gc_lo); (0x11c0a, 0x11c2e, gc_lo); (0x11c2f, 0x11c2f, gc_mc);
   (0x11c30, 0x11c36, gc_mn); (0x11c38, 0x11c3d, gc_mn); (0x11c3e, 0x11c3e, gc_mc); (0x11c3f, 0x11c3f, gc_mn);
   (0x11c40, 0x11c40, gc_lo); (0x11c41, 0x11c45, gc_po); (0x11c50, 0x11c59, gc_nd); (0x11c5a, 0x11c6c, gc_no);
   (0x11c70, 0x11c71, gc_po); (0x11c72, 0x11c8f, gc_lo); (0x11c92, 0x11ca7, gc_mn); (0x11ca9, 0x11ca9, gc_mc);
   (0x11caa, 0x11cb0, gc_mn); (0x11cb1, 0x11cb1, gc_mc); (0x11cb2, 0x11cb3, gc_mn); (0x11cb4, 0x11cb4, gc_mc);
   (0x11cb5, 0x11cb6, gc_mn); (0x11d00, 0x11d06, gc_lo); (0x11d08, 0x11d09, gc_lo); (0x11d0b, 0x11d30, gc_lo);
   (0x11d31, 0x11d36, gc_mn); (0x11d3a, 0x11d3a, gc_mn); (0x11d3c, 0x11d3d, gc_mn); (0x11d3f, 0x11d45, gc_mn);
   (0x11d46, 0x11d46, gc_lo); (0x11d47, 0x11d47, gc_mn); (0x11d50, 0x11d59, gc_nd); (0x11d60, 0x11d65, gc_lo);
   (0x11d67, 0x11d68, gc_lo); (0x11d6a, 0x11d89, gc_lo); (0x11d8a, 0x11d8e, gc_mc); (0x11d90, 0x11d91, gc_mn);
   (0x11d93, 0x11d94, gc_mc); (0x11d95, 0x11d95, gc_mn); (0x11d96, 0x11d96, gc_mc); (0x11d97, 0x11d97, gc_mn);
   (0x11d98, 0x11d98, gc_lo); (0x11da0, 0x11da9, gc_nd); (0x11ee0, 0x11ef2, gc_lo); (0x11ef3, 0x11ef4, gc_mn);
   (0x11ef5, 0x11ef6, gc_mc); (0x11ef7, 0x11ef8, gc_po); (0x11fb0, 0x11fb0, gc_lo); (0x11fc0, 0x11fd4, gc_no);
   (0x11fd5, 0x11fdc, gc_so); (0x11fdd, 0x11fe0, gc_sc); (0x11fe1, 0x11ff1, gc_so); (0x11fff, 0x11fff, gc_po);
   (0x12000, 0x12399, gc_lo); (0x12400, 0x1246e, gc_nl); (0x12470, 0x12474, gc_po); (0x12480, 0x12543, gc_lo);
   (0x12f90, 0x12ff0, gc_lo); (0x12ff1, 0x12ff2, gc_po); (0x13000, 0x1342e, gc_lo); (0x13430, 0x13438, gc_cf);
   (0x14400, 0x14646, gc_lo); (0x16800, 0x16a38, gc_lo); (0x16a40, 0x16a5e, gc_lo); (0x16a60, 0x16a69, gc_nd);
   (0x16a6e, 0x16a6f, gc_po); (0x16a70, 0x16abe, gc_lo); (0x16ac0, 0x16ac9, gc_nd); (0x16ad0, 0x16aed, gc_lo);
   (0x16af0, 0x16af4, gc_mn); (0x16af5, 0x16af5, gc_po); (0x16b00, 0x16b2f, gc_lo); (0x16b30, 0x16b36, gc_mn);
   (0x16b37, 0x16b3b, gc_po); (0x16b3c, 0x16b3f, gc_so); (0x16b40, 0x16b43, gc_lm); (0x16b44, 0x16b44, gc_po);
   (0x16b45, 0x16b45, gc_so); (0x16b50, 0x16b59, gc_nd); (0x16b5b, 0x16b61, gc_no); (0x16b63, 0x16b77, gc_lo);
   (0x16b7d, 0x16b8f, gc_lo); (0x16e40, 0x16e5f, gc_lu); (0x16e60, 0x16e7f, gc_ll); (0x16e80, 0x16e96, gc_no);
   (0x16e97, 0x16e9a, gc_po); (0x16f00, 0x16f4a, gc_lo); (0x16f4f, 0x16f4f, gc_mn); (0x16f50, 0x16f50, gc_lo);
   (0x16f51, 0x16f87, gc_mc); (0x16f8f, 0x16f92, gc_mn); (0x16f93, 0x16f9f, gc_lm); (0x16fe0, 0x16fe1, gc_lm);
   (0x16fe2, 0x16fe2, gc_po); (0x16fe3, 0x16fe3, gc_lm); (0x16fe4, 0x16fe4, gc_mn); (0x16ff0, 0x16ff1, gc_mc);
   (0x17000, 0x187f7, gc_lo); (0x18800, 0x18cd5, gc_lo); (0x18d00, 0x18d08, gc_lo); (0x1aff0, 0x1aff3, gc_lm);
   (0x1aff5, 0x1affb, gc_lm); (0x1affd, 0x1affe, gc_lm); (0x1b000, 0x1b122, gc_lo); (0x1b150, 0x1b152, gc_lo);
   (0x1b164, 0x1b167, gc_lo); (0x1b170, 0x1b2fb, gc_lo); (0x1bc00, 0x1bc6a, gc_lo); (0x1bc70, 0x1bc7c, gc_lo);
   (0x1bc80, 0x1bc88, gc_lo); (0x1bc90, 0x1bc99, gc_lo); (0x1bc9c, 0x1bc9c, gc_so); (0x1bc9d, 0x1bc9e, gc_mn);
   (0x1bc9f, 0x1bc9f, gc_po); (0x1bca0, 0x1bca3, gc_cf); (0x1cf00, 0x1cf2d, gc_mn); (0x1cf30, 0x1cf46, gc_mn);
   (0x1cf50, 0x1cfc3, gc_so); (0x1d000, 0x1d0f5, gc_so); (0x1d100, 0x1d126, gc_so); (0x1d129, 0x1d164, gc_so);
   (0x1d165, 0x1d166, gc_mc); (0x1d167, 0x1d169, gc_mn); (0x1d16a, 0x1d16c, gc_so); (0x1d16d, 0x1d172, gc_mc);
   (0x1d173, 0x1d17a, gc_cf); (0x1d17b, 0x1d182, gc_mn); (0x1d183, 0x1d184, gc_so); (0x1d185, 0x1d18b, gc_mn);
   (0x1d18c, 0x1d1a9, gc_so); (0x1d1aa, 0x1d1ad, gc_mn); (0x1d1ae, 0x1d1ea, gc_so); (0x1d200, 0x1d241, gc_so);
   (0x1d242, 0x1d244, gc_mn); (0x1d245, 0x1d245, gc_so); (0x1d2e0, 0x1d2f3, gc_no); (0x1d300, 0x1d356, gc_so);
   (0x1d360, 0x1d378, gc_no); (0x1d400, 0x1d419, gc_lu); (0x1d41a, 0x1d433, gc_ll); (0x1d434, 0x1d44d, gc_lu);
   (0x1d44e, 0x1d454, gc_ll); (0x1d456, 0x1d467, gc_ll); (0x1d468, 0x1d481, gc_lu); (0x1d482, 0x1d49b, gc_ll);
   (0x1d49c, 0x1d49c, gc_lu); (0x1d49e, 0x1d49f, gc_lu); (0x1d4a2, 0x1d4a2, gc_lu); (0x1d4a5, 0x1d4a6, gc_lu);
   (0x1d4a9, 0x1d4ac, gc_lu); (0x1d4ae, 0x1d4b5, gc_lu); (0x1d4b6, 0x1d4b9, gc_ll); (0x1d4bb, 0x1d4bb, gc_ll);
   (0x1d4bd, 0x1d4c3, gc_ll); (0x1d4c5, 0x1d4cf, gc_ll); (0x1d4d0, 0x1d4e9, gc_lu); (0x1d4ea, 0x1d503, gc_ll);
   (0x1d504, 0x1d505, gc_lu); (0x1d507, 0x1d50a, gc_lu); (0x1d50d, 0x1d514, gc_lu); (0x1d516, 0x1d51c, gc_lu);
   (0x1d51e, 0x1d537, gc_ll); (0x1d538, 0x1d539, gc_lu); (0x1d53b, 0x1d53e, gc_lu); (0x1d540, 0x1d544, gc_lu);
   (0x1d546, 0x1d546, gc_lu); (0x1d54a, 0x1d550, gc_lu); (0x1d552, 0x1d56b, gc_ll); (0x1d56c, 0x1d585, gc_lu);
   (0x1d586, 0x1d59f, gc_ll); (0x1d5a0, 0x1d5b9, gc_lu); (0x1d5ba, 0x1d5d3, gc_ll); (0x1d5d4, 0x1d5ed, gc_lu);
   (0x1d5ee, 0x1d607, gc_ll); (0x1d608, 0x1d621, gc_lu); (0x1d622, 0x1d63b, gc_ll); (0x1d63c, 0x1d655, gc_lu);
   (0x1d656, 0x1d66f, gc_ll); (0x1d670, 0x1d689, gc_lu); (0x1d68a, 0x1d6a5, gc_ll); (0x1d6a8, 0x1d6c0, gc_lu);
   (0x1d6c1, 0x1d6c1, gc_sm); (0x1d6c2, 0x1d6da, gc_ll); (0x1d6db, 0x1d6db, gc_sm); (0x1d6dc, 0x1d6e1, gc_ll);
   (0x1d6e2, 0x1d6fa, gc_lu); (0x1d6fb, 0x1d6fb, gc_sm); (0x1d6fc, 0x1d714, gc_ll); (0x1d715, 0x1d715, gc_sm);
   (0x1d716, 0x1d71b, gc_ll); (0x1d71c, 0x1d734, gc_lu); (0x1d735, 0x1d735, gc_sm); (0x1d736, 0x1d74e, gc_ll);
   (0x1d74f, 0x1d74f, gc_sm); (0x1d750, 0x1d755, gc_ll); (0x1d756, 0x1d76e, gc_lu); (0x1d76f, 0x1d76f, gc_sm);
   (0x1d770, 0x1d788, gc_ll); (0x1d789, 0x1d789, gc_sm); (0x1d78a, 0x1d78f, gc_ll); (0x1d790, 0x1d7a8, gc_lu);
   (0x1d7a9, 0x1d7a9, gc_sm); (0x1d7aa, 0x1d7c2, gc_ll); (0x1d7c3, 0x1d7c3, gc_sm); (0x1d7c4, 0x1d7c9, gc_ll);
   (0x1d7ca, 0x1d7ca, gc_lu); (0x1d7cb, 0x1d7cb, gc_ll); (0x1d7ce, 0x1d7ff, gc_nd); (0x1d800, 0x1d9ff, gc_so);
   (0x1da00, 0x1da36, gc_mn); (0x1da37, 0x1da3a, gc_so); (0x1da3b, 0x1da6c, gc_mn); (0x1da6d, 0x1da74, gc_so);
   (0x1da75, 0x1da75, gc_mn); (0x1da76, 0x1da83, gc_so); (0x1da84, 0x1da84, gc_mn); (0x1da85, 0x1da86, gc_so);
   (0x1da87, 0x1da8b, gc_po); (0x1da9b, 0x1da9f, gc_mn); (0x1daa1, 0x1daaf, gc_mn); (0x1df00, 0x1df09, gc_ll);
   (0x1df0a, 0x1df0a, gc_lo); (0x1df0b, 0x1df1e, gc_ll); (0x1e000, 0x1e006, gc_mn); (0x1e008, 0x1e018, gc_mn);
   (0x1e01b, 0x1e021, gc_mn); (0x1e023, 0x1e024, gc_mn); (0x1e026, 0x1e02a, gc_mn); (0x1e100, 0x1e12c, gc_lo);
   (0x1e130, 0x1e136, gc_mn); (0x1e137, 0x1e13d, gc_lm); (0x1e140, 0x1e149, gc_nd); (0x1e14e, 0x1e14e, gc_lo);
   (0x1e14f, 0x1e14f, gc_so); (0x1e290, 0x1e2ad, gc_lo); (0x1e2ae, 0x1e2ae, gc_mn); (0x1e2c0, 0x1e2eb, gc_lo);
   (0x1e2ec, 0x1e2ef, gc_mn); (0x1e2f0, 0x1e2f9, gc_nd); (0x1e2ff, 0x1e2ff, gc_sc); (0x1e7e0, 0x1e7e6, gc_lo);
   (0x1e7e8, 0x1e7eb, gc_lo); (0x1e7ed, 0x1e7ee, gc_lo); (0x1e7f0, 0x1e7fe, gc_lo); (0x1e800, 0x1e8c4, gc_lo);
   (0x1e8c7, 0x1e8cf, gc_no); (0x1e8d0, 0x1e8d6, gc_mn); (0x1e900, 0x1e921, gc_lu); (0x1e922, 0x1e943, gc_ll);
   (0x1e944, 0x1e94a, gc_mn); (0x1e94b, 0x1e94b, gc_lm); (0x1e950, 0x1e959, gc_nd); (0x1e95e, 0x1e95f, gc_po);
   (0x1ec71, 0x1ecab, gc_no); (0x1ecac, 0x1ecac, gc_so); (0x1ecad, 0x1ecaf, gc_no); (0x1ecb0, 0x1ecb0, gc_sc);
   (0x1ecb1, 0x1ecb4, gc_no); (0x1ed01, 0x1ed2d, gc_no); (0x1ed2e, 0x1ed2e, gc_so); (0x1ed2f, 0x1ed3d, gc_no);
   (0x1ee00, 0x1ee03, gc_lo); (0x1ee05, 0x1ee1f, gc_lo); (0x1ee21, 0x1ee22, gc_lo); (0x1ee24, 0x1ee24, gc_lo);
   (0x1ee27, 0x1ee27, gc_lo); (0x1ee29, 0x1ee32, gc_lo); (0x1ee34, 0x1ee37, gc_lo); (0x1ee39, 0x1ee39, gc_lo);
   (0x1ee3b, 0x1ee3b, gc_lo); (0x1ee42, 0x1ee42, gc_lo); (0x1ee47, 0x1ee47, gc_lo); (0x1ee49, 0x1ee49, gc_lo);
   (0x1ee4b, 0x1ee4b, gc_lo); (0x1ee4d, 0x1ee4f, gc_lo); (0x1ee51, 0x1ee52, gc_lo); (0x1ee54, 0x1ee54, gc_lo);
   (0x1ee57, 0x1ee57, gc_lo); (0x1ee59, 0x1ee59, gc_lo); (0x1ee5b, 0x1ee5b, gc_lo); (0x1ee5d, 0x1ee5d, gc_lo);
   (0x1ee5f, 0x1ee5f, gc_lo); (0x1ee61, 0x1ee62, gc_lo); (0x1ee64, 0x1ee64, gc_lo); (0x1ee67, 0x1ee6a, gc_lo);
   (0x1ee6c, 0x1ee72, gc_lo); (0x1ee74, 0x1ee77, gc_lo); (0x1ee79, 0x1ee7c, gc_lo); (0x1ee7e, 0x1ee7e, gc_lo);
   (0x1ee80, 0x1ee89, gc_lo); (0x1ee8b, 0x1ee9b, gc_lo); (0x1eea1, 0x1eea3, gc_lo); (0x1eea5, 0x1eea9, gc_lo);
   (0x1eeab, 0x1eebb, gc_lo); (0x1eef0, 0x1eef1, gc_sm); (0x1f000, 0x1f02b, gc_so); (0x1f030, 0x1f093, gc_so);
   (0x1f0a0, 0x1f0ae, gc_so); (0x1f0b1, 0x1f0bf, gc_so); (0x1f0c1, 0x1f0cf, gc_so); (0x1f0d1, 0x1f0f5, gc_so);
   (0x1f100, 0x1f10c, gc_no); (0x1f10d, 0x1f1ad, gc_so); (0x1f1e6, 0x1f202, gc_so); (0x1f210, 0x1f23b, gc_so);
   (0x1f240, 0x1f248, gc_so); (0x1f250, 0x1f251, gc_so); (0x1f260, 0x1f265, gc_so); (0x1f300, 0x1f3fa, gc_so);
   (0x1f3fb, 0x1f3ff, gc_sk); (0x1f400, 0x1f6d7, gc_so); (0x1f6dd, 0x1f6ec, gc_so); (0x1f6f0, 0x1f6fc, gc_so);
   (0x1f700, 0x1f773, gc_so); (0x1f780, 0x1f7d8, gc_so); (0x1f7e0, 0x1f7eb, gc_so); (0x1f7f0, 0x1f7f0, gc_so);
   (0x1f800, 0x1f80b, gc_so); (0x1f810, 0x1f847, gc_so); (0x1f850, 0x1f859, gc_so); (0x1f860, 0x1f887, gc_so);
   (0x1f890, 0x1f8ad, gc_so); (0x1f8b0, 0x1f8b1, gc_so); (0x1f900, 0x1fa53, gc_so); (0x1fa60, 0x1fa6d, gc_so);
   (0x1fa70, 0x1fa74, gc_so); (0x1fa78, 0x1fa7c, gc_so); (0x1fa80, 0x1fa86, gc_so); (0x1fa90, 0x1faac, gc_so);
   (0x1fab0, 0x1faba, gc_so); (0x1fac0, 0x1fac5, gc_so); (0x1fad0, 0x1fad9, gc_so); (0x1fae0, 0x1fae7, gc_so);
   (0x1faf0, 0x1faf6, gc_so); (0x1fb00, 0x1fb92, gc_so); (0x1fb94, 0x1fbca, gc_so); (0x1fbf0, 0x1fbf9, gc_nd);
   (0x20000, 0x2a6df, gc_lo); (0x2a700, 0x2b738, gc_lo); (0x2b740, 0x2b81d, gc_lo); (0x2b820, 0x2cea1, gc_lo);
   (0x2ceb0, 0x2ebe0, gc_lo); (0x2f800, 0x2fa1d, gc_lo); (0x30000, 0x3134a, gc_lo); (0xe0001, 0xe0001, gc_cf);
   (0xe0020, 0xe007f, gc_cf); (0xe0100, 0xe01ef, gc_mn); (0xf0000, 0xffffd, gc_co); (0x100000, 0x10fffd, gc_co)].

Definition ref_category (u : Z) : Z :=
  match find (fun p => (fst (fst p) <=? u) && (u <=? snd (fst p))) ref_categories with
  | Some p => snd p
  | None => gc_cn
  end.

(** Lowercase. *)
Definition ref_lowercase : list (Z * Z) :=
  [(0x61, 0x7a); (0xaa, 0xaa); (0xb5, 0xb5); (0xba, 0xba); (0xdf, 0xf6); (0xf8, 0xff); (0x101, 0x101); (0x103, 0x103);
   (0x105, 0x105); (0x107, 0x107); (0x109, 0x109); (0x10b, 0x10b); (0x10d, 0x10d); (0x10f, 0x10f); (0x111, 0x111);
   (0x113, 0x113); (0x115, 0x115); (0x117, 0x117); (0x119, 0x119); (0x11b, 0x11b); (0x11d, 0x11d); (0x11f, 0x11f);
   (0x121, 0x121); (0x123, 0x123); (0x125, 0x125); (0x127, 0x127); (0x129, 0x129); (0x12b, 0x12b); (0x12d, 0x12d);
   (0x12f, 0x12f); (0x131, 0x131); (0x133, 0x133); (0x135, 0x135); (0x137, 0x138); (0x13a, 0x13a); (0x13c, 0x13c);
   (0x13e, 0x13e); (0x140, 0x140); (0x142, 0x142); (0x144, 0x144); (0x146, 0x146); (0x148, 0x149); (0x14b, 0x14b);
   (0x14d, 0x14d); (0x14f, 0x14f); (0x151, 0x151); (0x153, 0x153); (0x155, 0x155); (0x157, 0x157); (0x159, 0x159);
   (0x15b, 0x15b); (0x15d, 0x15d); (0x15f, 0x15f); (0x161, 0x161); (0x163, 0x163); (0x165, 0x165); (0x167, 0x167);
   (0x169, 0x169); (0x16b, 0x16b); (0x16d, 0x16d); (0x16f, 0x16f); (0x171, 0x171); (0x173, 0x173); (0x175, 0x175);
   (0x177, 0x177); (0x17a, 0x17a); (0x17c, 0x17c); (0x17e, 0x180); (0x183, 0x183); (0x185, 0x185); (0x188, 0x188);
   (0x18c, 0x18d); (0x192, 0x192); (0x195, 0x195); (0x199, 0x19b); (0x19e, 0x19e); (0x1a1, 0x1a1); (0x1a3, 0x1a3);
   (0x1a5, 0x1a5); (0x1a8, 0x1a8); (0x1aa, 0x1ab); (0x1ad, 0x1ad); (0x1b0, 0x1b0); (0x1b4, 0x1b4); (0x1b6, 0x1b6);
   (0x1b9, 0x1ba); (0x1bd, 0x1bf); (0x1c6, 0x1c6); (0x1c9, 0x1c9); (0x1cc, 0x1cc); (0x1ce, 0x1ce); (0x1d0, 0x1d0);
   (0x1d2, 0x1d2); (0x1d4, 0x1d4); (0x1d6, 0x1d6); (0x1d8, 0x1d8); (0x1da, 0x1da); (0x1dc, 0x1dd); (0x1df, 0x1df);
   (0x1e1, 0x1e1); (0x1e3, 0x1e3); (0x1e5, 0x1e5); (0x1e7, 0x1e7); (0x1e9, 0x1e9); (0x1eb, 0x1eb); (0x1ed, 0x1ed);
   (0x1ef, 0x1f0); (0x1f3, 0x1f3); (0x1f5, 0x1f5); (0x1f9, 0x1f9); (0x1fb, 0x1fb); (0x1fd, 0x1fd); (0x1ff, 0x1ff);
   (0x201, 0x201); (0x203, 0x203); (0x205, 0x205); (0x207, 0x207); (0x209, 0x209); (0x20b, 0x20b); (0x20d, 0x20d);
   (0x20f, 0x20f); (0x211, 0x211); (0x213, 0x213); (0x215, 0x215); (0x217, 0x217); (0x219, 0x219); (0x21b, 0x21b);
   (0x21d, 0x21d); (0x21f, 0x21f); (0x221, 0x221); (0x223, 0x223); (0x225, 0x225); (0x227, 0x227); (0x229, 0x229);
   (0x22b, 0x22b); (0x22d, 0x22d); (0x22f, 0x22f); (0x231, 0x231); (0x233, 0x239); (0x23c, 0x23c); (0x23f, 0x240);
   (0x242, 0x242); (0x247, 0x247); (0x249, 0x249); (0x24b, 0x24b); (0x24d, 0x24d); (0x24f, 0x293); (0x295, 0x2b8);
   (0x2c0, 0x2c1); (0x2e0, 0x2e4); (0x345, 0x345); (0x371, 0x371); (0x373, 0x373); (0x377, 0x377); (0x37a, 0x37d);
   (0x390, 0x390); (0x3ac, 0x3ce); (0x3d0, 0x3d1); (0x3d5, 0x3d7); (0x3d9, 0x3d9); (0x3db, 0x3db); (0x3dd, 0x3dd);
   (0x3df, 0x3df); (0x3e1, 0x3e1); (0x3e3, 0x3e3); (0x3e5, 0x3e5); (0x3e7, 0x3e7); (0x3e9, 0x3e9); (0x3eb, 0x3eb);
   (0x3ed, 0x3ed); (0x3ef, 0x3f3); (0x3f5, 0x3f5); (0x3f8, 0x3f8); (0x3fb, 0x3fc); (0x430, 0x45f); (0x461, 0x461);
   (0x463, 0x463); (0x465, 0x465); (0x467, 0x467); (0x469, 0x469); (0x46b, 0x46b); (0x46d, 0x46d); (0x46f, 0x46f);
   (0x471, 0x471); (0x473, 0x473); (0x475, 0x475); (0x477, 0x477); (0x479, 0x479); (0x47b, 0x47b); (0x47d, 0x47d);
   (0x47f, 0x47f); (0x481, 0x481); (0x48b, 0x48b); (0x48d, 0x48d); (0x48f, 0x48f); (0x491, 0x491); (0x493, 0x493);
   (0x495, 0x495); (0x497, 0x497); (0x499, 0x499); (0x49b, 0x49b); (0x49d, 0x49d); (0x49f, 0x49f); (0x4a1, 0x4a1);
   (0x4a3, 0x4a3); (0x4a5, 0x4a5); (0x4a7, 0x4a7); (0x4a9, 0x4a9); (0x4ab, 0x4ab); (0x4ad, 0x4ad); (0x4af, 0x4af);
   (0x4b1, 0x4b1); (0x4b3, 0x4b3); (0x4b5, 0x4b5); (0x4b7, 0x4b7); (0x4b9, 0x4b9); (0x4bb, 0x4bb); (0x4bd, 0x4bd);
   (0x4bf, 0x4bf); (0x4c2, 0x4c2); (0x4c4, 0x4c4); (0x4c6, 0x4c6); (0x4c8, 0x4c8); (0x4ca, 0x4ca); (0x4cc, 0x4cc);
   (0x4ce, 0x4cf); (0x4d1, 0x4d1); (0x4d3, 0x4d3); (0x4d5, 0x4d5); (0x4d7, 0x4d7); (0x4d9, 0x4d9); (0x4db, 0x4db);
   (0x4dd, 0x4dd); (0x4df, 0x4df); (0x4e1, 0x4e1); (0x4e3, 0x4e3); (0x4e5, 0x4e5); (0x4e7, 0x4e7); (0x4e9, 0x4e9);
   (0x4eb, 0x4eb); (0x4ed, 0x4ed); (0x4ef, 0x4ef); (0x4f1, 0x4f1); (0x4f3, 0x4f3); (0x4f5, 0x4f5); (0x4f7, 0x4f7);
   (0x4f9, 0x4f9); (0x4fb, 0x4fb); (0x4fd, 0x4fd); (0x4ff, 0x4ff); (0x501, 0x501); (0x503, 0x503); (0x505, 0x505);
   (0x507, 0x507); (0x509, 0x509); (0x50b, 0x50b); (0x50d, 0x50d); (0x50f, 0x50f); (0x511, 0x511); (0x513, 0x513);
   (0x515, 0x515); (0x517, 0x517); (0x519, 0x519); (0x51b, 0x51b); (0x51d, 0x51d); (0x51f, 0x51f); (0x521, 0x521);
   (0x523, 0x523); (0x525, 0x525); (0x527, 0x527); (0x529, 0x529); (0x52b, 0x52b); (0x52d, 0x52d); (0x52f, 0x52f);
   (0x560, 0x588); (0x10d0, 0x10fa); (0x10fd, 0x10ff); (0x13f8, 0x13fd); (0x1c80, 0x1c88); (0x1d00, 0x1dbf);
   (0x1e01, 0x1e01); (0x1e03, 0x1e03); (0x1e05, 0x1e05); (0x1e07, 0x1e07); (0x1e09, 0x1e09); (0x1e0b, 0x1e0b);
   (0x1e0d, 0x1e0d); (0x1e0f, 0x1e0f); (0x1e11, 0x1e11); (0x1e13, 0x1e13); (0x1e15, 0x1e15); (0x1e17, 0x1e17);
   (0x1e19, 0x1e19); (0x1e1b, 0x1e1b); (0x1e1d, 0x1e1d); (0x1e1f, 0x1e1f); (0x1e21, 0x1e21); (0x1e23, 0x1e23);
   (0x1e25, 0x1e25); (0x1e27, 0x1e27); (0x1e29, 0x1e29); (0x1e2b, 0x1e2b); (0x1e2d, 0x1e2d); (0x1e2f, 0x1e2f);
   (0x1e31, 0x1e31); (0x1e33, 0x1e33); (0x1e35, 0x1e35); (0x1e37, 0x1e37); (0x1e39, 0x1e39); (0x1e3b, 0x1e3b);
   (0x1e3d, 0x1e3d); (0x1e3f, 0x1e3f); (0x1e41, 0x1e41); (0x1e43, 0x1e43); (0x1e45, 0x1e45); (0x1e47, 0x1e47);
   (0x1e49, 0x1e49); (0x1e4b, 0x1e4b); (0x1e4d, 0x1e4d); (0x1e4f, 0x1e4f); (0x1e51, 0x1e51); (0x1e53, 0x1e53);
   (0x1e55, 0x1e55); (0x1e57, 0x1e57); (0x1e59, 0x1e59); (0x1e5b, 0x1e5b); (0x1e5d, 0x1e5d); (0x1e5f, 0x1e5f);
   (0x1e61, 0x1e61); (0x1e63, 0x1e63); (0x1e65, 0x1e65); (0x1e67, 0x1e67); (0x1e69, 0x1e69); (0x1e6b, 0x1e6b);
   (0x1e6d, 0x1e6d); (0x1e6f, 0x1e6f); (0x1e71, 0x1e71); (0x1e73, 0x1e73); (0x1e75, 0x1e75); (0x1e77, 0x1e77);
   (0x1e79, 0x1e79); (0x1e7b, 0x1e7b); (0x1e7d, 0x1e7d); (0x1e7f, 0x1e7f); (0x1e81, 0x1e81); (0x1e83, 0x1e83);
   (0x1e85, 0x1e85); (0x1e87, 0x1e87); (0x1e89, 0x1e89); (0x1e8b, 0x1e8b); (0x1e8d, 0x1e8d); (0x1e8f, 0x1e8f);
   (0x1e91, 0x1e91); (0x1e93, 0x1e93); (0x1e95, 0x1e9d); (0x1e9f, 0x1e9f); (0x1ea1, 0x1ea1); (0x1ea3, 0x1ea3);
   (0x1ea5, 0x1ea5); (0x1ea7, 0x1ea7); (0x1ea9, 0x1ea9); (0x1eab, 0x1eab); (0x1ead, 0x1ead); (0x1eaf, 0x1eaf);
   (0x1eb1, 0x1eb1); (0x1eb3, 0x1eb3); (0x1eb5, 0x1eb5); (0x1eb7, 0x1eb7); (0x1eb9, 0x1eb9); (0x1ebb, 0x1ebb);
   (0x1ebd, 0x1ebd); (0x1ebf, 0x1ebf); (0x1ec1, 0x1ec1); (0x1ec3, 0x1ec3); (0x1ec5, 0x1ec5); (0x1ec7, 0x1ec7);
   (0x1ec9, 0x1ec9); (0x1ecb, 0x1ecb); (0x1ecd, 0x1ecd); (0x1ecf, 0x1ecf); (0x1ed1, 0x1ed1); (0x1ed3, 0x1ed3);
   (0x1ed5, 0x1ed5); (0x1ed7, 0x1ed7); (0x1ed9, 0x1ed9); (0x1edb, 0x1edb); (0x1edd, 0x1edd); (0x1edf, 0x1edf);
   (0x1ee1, 0x1ee1); (0x1ee3, 0x1ee3); (0x1ee5, 0x1ee5); (0x1ee7, 0x1ee7); (0x1ee9, 0x1ee9); (0x1eeb, 0x1eeb);
   (0x1eed, 0x1eed); (0x1eef, 0x1eef); (0x1ef1, 0x1ef1); (0x1ef3, 0x1ef3); (0x1ef5, 0x1ef5); (0x1ef7, 0x1ef7);
   (0x1ef9, 0x1ef9); (0x1efb, 0x1efb); (0x1efd, 0x1efd); (0x1eff, 0x1f07); (0x1f10, 0x1f15); (0x1f20, 0x1f27);
   (0x1f30, 0x1f37); (0x1f40, 0x1f45); (0x1f50, 0x1f57); (0x1f60, 0x1f67); (0x1f70, 0x1f7d); (0x1f80, 0x1f87);
   (0x1f90, 0x1f97); (0x1fa0, 0x1fa7); (0x1fb0, 0x1fb4); (0x1fb6, 0x1fb7); (0x1fbe, 0x1fbe); (0x1fc2, 0x1fc4);
   (0x1fc6, 0x1fc7); (0x1fd0, 0x1fd3); (0x1fd6, 0x1fd7); (0x1fe0, 0x1fe7); (0x1ff2, 0x1ff4); (0x1ff6, 0x1ff7);
   (0x2071, 0x2071); (0x207f, 0x207f); (0x2090, 0x209c); (0x210a, 0x210a); (0x210e, 0x210f); (0x2113, 0x2113);
   (0x212f, 0x212f); (0x2134, 0x2134); (0x2139, 0x2139); (0x213c, 0x213d); (0x2146, 0x2149); (0x214e, 0x214e);
   (0x2170, 0x217f); (0x2184, 0x2184); (0x24d0, 0x24e9); (0x2c30, 0x2c5f); (0x2c61, 0x2c61); (0x2c65, 0x2c66);
   (0x2c68, 0x2c68); (0x2c6a, 0x2c6a); (0x2c6c, 0x2c6c); (0x2c71, 0x2c71); (0x2c73, 0x2c74); (0x2c76, 0x2c7d);
   (0x2c81, 0x2c81); (0x2c83, 0x2c83); (0x2c85, 0x2c85); (0x2c87, 0x2c87); (0x2c89, 0x2c89); (0x2c8b, 0x2c8b);
   (0x2c8d, 0x2c8d); (0x2c8f, 0x2c8f); (0x2c91, 0x2c91); (0x2c93, 0x2c93); (0x2c95, 0x2c95); (0x2c97, 0x2c97);
   (0x2c99, 0x2c99); (0x2c9b, 0x2c9b); (0x2c9d, 0x2c9d); (0x2c9f, 0x2c9f); (0x2ca1, 0x2ca1); (0x2ca3, 0x2ca3);
   (0x2ca5, 0x2ca5); (0x2ca7, 0x2ca7); (0x2ca9, 0x2ca9); (0x2cab, 0x2cab); (0x2cad, 0x2cad); (0x2caf, 0x2caf);
   (0x2cb1, 0x2cb1); (0x2cb3, 0x2cb3); (0x2cb5, 0x2cb5); (0x2cb7, 0x2cb7); (0x2cb9, 0x2cb9); (0x2cbb, 0x2cbb);
   (0x2cbd, 0x2cbd); (0x2cbf, 0x2cbf); (0x2cc1, 0x2cc1); (0x2cc3, 0x2cc3); (0x2cc5, 0x2cc5); (0x2cc7, 0x2cc7);
   (0x2cc9, 0x2cc9); (0x2ccb, 0x2ccb); (0x2ccd, 0x2ccd); (0x2ccf, 0x2ccf); (0x2cd1, 0x2cd1); (0x2cd3, 0x2cd3);
   (0x2cd5, 0x2cd5); (0x2cd7, 0x2cd7); (0x2cd9, 0x2cd9); (0x2cdb, 0x2cdb); (0x2cdd, 0x2cdd); (0x2cdf, 0x2cdf);
   (0x2ce1, 0x2ce1); (0x2ce3, 0x2ce4); (0x2cec, 0x2cec); (0x2cee, 0x2cee); (0x2cf3, 0x2cf3); (0x2d00, 0x2d25);
   (0x2d27, 0x2d27); (0x2d2d, 0x2d2d); (0xa641, 0xa641); (0xa643, 0xa643); (0xa645, 0xa645); (0xa647, 0xa647);
   (0xa649, 0xa649); (0xa64b, 0xa64b); (0xa64d, 0xa64d); (0xa64f, 0xa64f); (0xa651, 0xa651); (0xa653, 0xa653);
   (0xa655, 0xa655); (0xa657, 0xa657); (0xa659, 0xa659); (0xa65b, 0xa65b); (0xa65d, 0xa65d); (0xa65f, 0xa65f);
   (0xa661, 0xa661); (0xa663, 0xa663); (0xa665, 0xa665); (0xa667, 0xa667); (0xa669, 0xa669); (0xa66b, 0xa66b);
   (0xa66d, 0xa66d); (0xa681, 0xa681); (0xa683, 0xa683); (0xa685, 0xa685); (0xa687, 0xa687); (0xa689, 0xa689);
   (0xa68b, 0xa68b); (0xa68d, 0xa68d); (0xa68f, 0xa68f); (0xa691, 0xa691); (0xa693, 0xa693); (0xa695, 0xa695);
   (0xa697, 0xa697); (0xa699, 0xa699); (0xa69b, 0xa69d); (0xa723, 0xa723); (0xa725, 0xa725); (0xa727, 0xa727);
   (0xa729, 0xa729); (0xa72b, 0xa72b); (0xa72d, 0xa72d); (0xa72f, 0xa731); (0xa733, 0xa733); (0xa735, 0xa735);
   (0xa737, 0xa737); (0xa739, 0xa739); (0xa73b, 0xa73b); (0xa73d, 0xa73d); (0xa73f, 0xa73f); (0xa741, 0xa741);
   (0xa743, 0xa743); (0xa745, 0xa745); (0xa747, 0xa747); (0xa749, 0xa749); (0xa74b, 0xa74b); (0xa74d, 0xa74d);
   (0xa74f, 0xa74f); (0xa751, 0xa751); (0xa753, 0xa753); (0xa755, 0xa755); (0xa757, 0xa757); (0xa759, 0xa759);
   (0xa75b, 0xa75b); (0xa75d, 0xa75d); (0xa75f, 0xa75f); (0xa761, 0xa761); (0xa763, 0xa763); (0xa765, 0xa765);
   (0xa767, 0xa767); (0xa769, 0xa769); (0xa76b, 0xa76b); (0xa76d, 0xa76d); (0xa76f, 0xa778); (0xa77a, 0xa77a);
   (0xa77c, 0xa77c); (0xa77f, 0xa77f); (0xa781, 0xa781); (0xa783, 0xa783); (0xa785, 0xa785); (0xa787, 0xa787);
   (0xa78c, 0xa78c); (0xa78e, 0xa78e); (0xa791, 0xa791); (0xa793, 0xa795); (0xa797, 0xa797); (0xa799, 0xa799);
   (0xa79b, 0xa79b); (0xa79d, 0xa79d); (0xa79f, 0xa79f); (0xa7a1, 0xa7a1); (0xa7a3, 0xa7a3); (0xa7a5, 0xa7a5);
   (0xa7a7, 0xa7a7); (0xa7a9, 0xa7a9); (0xa7af, 0xa7af); (0xa7b5, 0xa7b5); (0xa7b7, 0xa7b7); (0xa7b9, 0xa7b9);
   (0xa7bb, 0xa7bb); (0xa7bd, 0xa7bd); (0xa7bf, 0xa7bf); (0xa7c1, 0xa7c1); (0xa7c3, 0xa7c3); (0xa7c8, 0xa7c8);
   (0xa7ca, 0xa7ca); (0xa7d1, 0xa7d1); (0xa7d3, 0xa7d3); (0xa7d5, 0xa7d5); (0xa7d7, 0xa7d7); (0xa7d9, 0xa7d9);
   (0xa7f6, 0xa7f6); (0xa7f8, 0xa7fa); (0xab30, 0xab5a); (0xab5c, 0xab68); (0xab70, 0xabbf); (0xfb00, 0xfb06);
   (0xfb13, 0xfb17); (0xff41, 0xff5a); (0x10428, 0x1044f); (0x104d8, 0x104fb); (0x10597, 0x105a1); (0x105a3, 0x105b1);
   (0x105b3, 0x105b9); (0x105bb, 0x105bc); (0x10780, 0x10780); (0x10783, 0x10785); (0x10787, 0x107b0);
   (0x107b2, 0x107ba); (0x10cc0, 0x10cf2); (0x118c0, 0x118df); (0x16e60, 0x16e7f); (0x1d41a, 0x1d433);
   (0x1d44e, 0x1d454); (0x1d456, 0x1d467); (0x1d482, 0x1d49b); (0x1d4b6, 0x1d4b9); (0x1d4bb, 0x1d4bb);
   (0x1d4bd, 0x1d4c3); (0x1d4c5, 0x1d4cf); (0x1d4ea, 0x1d503); (0x1d51e, 0x1d537); (0x1d552, 0x1d56b);
   (0x1d586, 0x1d59f); (0x1d5ba, 0x1d5d3); (0x1d5ee, 0x1d607); (0x1d622, 0x1d63b); (0x1d656, 0x1d66f);
   (0x1d68a, 0x1d6a5); (0x1d6c2, 0x1d6da); (0x1d6dc, 0x1d6e1); (0x1d6fc, 0x1d714); (0x1d716, 0x1d71b);
   (0x1d736, 0x1d74e); (0x1d750, 0x1d755); (0x1d770, 0x1d788); (0x1d78a, 0x1d78f); (0x1d7aa, 0x1d7c2);
   (0x1d7c4, 0x1d7c9); (0x1d7cb, 0x1d7cb); (0x1df00, 0x1df09); (0x1df0b, 0x1df1e); (0x1e922, 0x1e943)].

(** Uppercase. *)
Definition ref_uppercase : list (Z * Z) :=
  [(0x41, 0x5a); (0xc0, 0xd6); (0xd8, 0xde); (0x100, 0x100); (0x102, 0x102); (0x104, 0x104); (0x106, 0x106);
   (0x108, 0x108); (0x10a, 0x10a); (0x10c, 0x10c); (0x10e, 0x10e); (0x110, 0x110); (0x112, 0x112); (0x114, 0x114);
   (0x116, 0x116); (0x118, 0x118); (0x11a, 0x11a); (0x11c, 0x11c); (0x11e, 0x11e); (0x120, 0x120); (0x122, 0x122);
   (0x124, 0x124); (0x126, 0x126); (0x128, 0x128); (0x12a, 0x12a); (0x12c, 0x12c); (0x12e, 0x12e); (0x130, 0x130);
   (0x132, 0x132); (0x134, 0x134); (0x136, 0x136); (0x139, 0x139); (0x13b, 0x13b); (0x13d, 0x13d); (0x13f, 0x13f);
   (0x141, 0x141); (0x143, 0x143); (0x145, 0x145); (0x147, 0x147); (0x14a, 0x14a); (0x14c, 0x14c); (0x14e, 0x14e);
   (0x150, 0x150); (0x152, 0x152); (0x154, 0x154); (0x156, 0x156); (0x158, 0x158); (0x15a, 0x15a); (0x15c, 0x15c);
   (0x15e, 0x15e); (0x160, 0x160); (0x162, 0x162); (0x164, 0x164); (0x166, 0x166); (0x168, 0x168); (0x16a, 0x16a);
   (0x16c, 0x16c); (0x16e, 0x16e); (0x170, 0x170); (0x172, 0x172); (0x174, 0x174); (0x176, 0x176); (0x178, 0x179);
   (0x17b, 0x17b); (0x17d, 0x17d); (0x181, 0x182); (0x184, 0x184); (0x186, 0x187); (0x189, 0x18b); (0x18e, 0x191);
   (0x193, 0x194); (0x196, 0x198); (0x19c, 0x19d); (0x19f, 0x1a0); (0x1a2, 0x1a2); (0x1a4, 0x1a4); (0x1a6, 0x1a7);
   (0x1a9, 0x1a9); (0x1ac, 0x1ac); (0x1ae, 0x1af); (0x1b1, 0x1b3); (0x1b5, 0x1b5); (0x1b7, 0x1b8); (0x1bc, 0x1bc);
   (0x1c4, 0x1c4); (0x1c7, 0x1c7); (0x1ca, 0x1ca); (0x1cd, 0x1cd); (0x1cf, 0x1cf); (0x1d1, 0x1d1); (0x1d3, 0x1d3);
   (0x1d5, 0x1d5); (0x1d7, 0x1d7); (0x1d9, 0x1d9); (0x1db, 0x1db); (0x1de, 0x1de); (0x1e0, 0x1e0); (0x1e2, 0x1e2);
   (0x1e4, 0x1e4); (0x1e6, 0x1e6); (0x1e8, 0x1e8); (0x1ea, 0x1ea); (0x1ec, 0x1ec); (0x1ee, 0x1ee); (0x1f1, 0x1f1);
   (0x1f4, 0x1f4); (0x1f6, 0x1f8); (0x1fa, 0x1fa); (0x1fc, 0x1fc); (0x1fe, 0x1fe); (0x200, 0x200); (0x202, 0x202);
   (0x204, 0x204); (0x206, 0x206); (0x208, 0x208); (0x20a, 0x20a); (0x20c, 0x20c); (0x20e, 0x20e); (0x210, 0x210);
   (0x212, 0x212); (0x214, 0x214); (0x216, 0x216); (0x218, 0x218); (0x21a, 0x21a); (0x21c, 0x21c); (0x21e, 0x21e);
   (0x220, 0x220); (0x222, 0x222); (0x224, 0x224); (0x226, 0x226); (0x228, 0x228); (0x22a, 0x22a); (0x22c, 0x22c);
   (0x22e, 0x22e); (0x230, 0x230); (0x232, 0x232); (0x23a, 0x23b); (0x23d, 0x23e); (0x241, 0x241); (0x243, 0x246);
   (0x248, 0x248); (0x24a, 0x24a); (0x24c, 0x24c); (0x24e, 0x24e); (0x370, 0x370); (0x372, 0x372); (0x376, 0x376);
   (0x37f, 0x37f); (0x386, 0x386); (0x388, 0x38a); (0x38c, 0x38c); (0x38e, 0x38f); (0x391, 0x3a1); (0x3a3, 0x3ab);
   (0x3cf, 0x3cf); (0x3d2, 0x3d4); (0x3d8, 0x3d8); (0x3da, 0x3da); (0x3dc, 0x3dc); (0x3de, 0x3de); (0x3e0, 0x3e0);
   (0x3e2, 0x3e2); (0x3e4, 0x3e4); (0x3e6, 0x3e6); (0x3e8, 0x3e8); (0x3ea, 0x3ea); (0x3ec, 0x3ec); (0x3ee, 0x3ee);
   (0x3f4, 0x3f4); (0x3f7, 0x3f7); (0x3f9, 0x3fa); (0x3fd, 0x42f); (0x460, 0x460); (0x462, 0x462); (0x464, 0x464);
   (0x466, 0x466); (0x468, 0x468); (0x46a, 0x46a); (0x46c, 0x46c); (0x46e, 0x46e); (0x470, 0x470); (0x472, 0x472);
   (0x474, 0x474); (0x476, 0x476); (0x478, 0x478); (0x47a, 0x47a); (0x47c, 0x47c); (0x47e, 0x47e); (0x480, 0x480);
   (0x48a, 0x48a); (0x48c, 0x48c); (0x48e, 0x48e); (0x490, 0x490); (0x492, 0x492); (0x494, 0x494); (0x496, 0x496);
   (0x498, 0x498); (0x49a, 0x49a); (0x49c, 0x49c); (0x49e, 0x49e); (0x4a0, 0x4a0); (0x4a2, 0x4a2); (0x4a4, 0x4a4);
   (0x4a6, 0x4a6); (0x4a8, 0x4a8); (0x4aa, 0x4aa); (0x4ac, 0x4ac); (0x4ae, 0x4ae); (0x4b0, 0x4b0); (0x4b2, 0x4b2);
   (0x4b4, 0x4b4); (0x4b6, 0x4b6); (0x4b8, 0x4b8); (0x4ba, 0x4ba); (0x4bc, 0x4bc); (0x4be, 0x4be); (0x4c0, 0x4c1);
   (0x4c3, 0x4c3); (0x4c5, 0x4c5); (0x4c7, 0x4c7); (0x4c9, 0x4c9); (0x4cb, 0x4cb); (0x4cd, 0x4cd); (0x4d0, 0x4d0);
   (0x4d2, 0x4d2); (0x4d4, 0x4d4); (0x4d6, 0x4d6); (0x4d8, 0x4d8); (0x4da, 0x4da); (0x4dc, 0x4dc); (0x4de, 0x4de);
   (0x4e0, 0x4e0); (0x4e2, 0x4e2); (0x4e4, 0x4e4); (0x4e6, 0x4e6); (0x4e8, 0x4e8); (0x4ea, 0x4ea); (0x4ec, 0x4ec);
   (0x4ee, 0x4ee); (0x4f0, 0x4f0); (0x4f2, 0x4f2); (0x4f4, 0x4f4); (0x4f6, 0x4f6); (0x4f8, 0x4f8); (0x4fa, 0x4fa);
   (0x4fc, 0x4fc); (0x4fe, 0x4fe); (0x500, 0x500); (0x502, 0x502); (0x504, 0x504); (0x506, 0x506); (0x508, 0x508);
   (0x50a, 0x50a); (0x50c, 0x50c); (0x50e, 0x50e); (0x510, 0x510); (0x512, 0x512); (0x514, 0x514); (0x516, 0x516);
   (0x518, 0x518); (0x51a, 0x51a); (0x51c, 0x51c); (0x51e, 0x51e); (0x520, 0x520); (0x522, 0x522); (0x524, 0x524);
   (0x526, 0x526); (0x528, 0x528); (0x52a, 0x52a); (0x52c, 0x52c); (0x52e, 0x52e); (0x531, 0x556); (0x10a0, 0x10c5);
   (0x10c7, 0x10c7); (0x10cd, 0x10cd); (0x13a0, 0x13f5); (0x1c90, 0x1cba); (0x1cbd, 0x1cbf); (0x1e00, 0x1e00);
   (0x1e02, 0x1e02); (0x1e04, 0x1e04); (0x1e06, 0x1e06); (0x1e08, 0x1e08); (0x1e0a, 0x1e0a); (0x1e0c, 0x1e0c);
   (0x1e0e, 0x1e0e); (0x1e10, 0x1e10); (0x1e12, 0x1e12); (0x1e14, 0x1e14); (0x1e16, 0x1e16); (0x1e18, 0x1e18);
   (0x1e1a, 0x1e1a); (0x1e1c, 0x1e1c); (0x1e1e, 0x1e1e); (0x1e20, 0x1e20); (0x1e22, 0x1e22); (0x1e24, 0x1e24);
   (0x1e26, 0x1e26); (0x1e28, 0x1e28); (0x1e2a, 0x1e2a); (0x1e2c, 0x1e2c); (0x1e2e, 0x1e2e); (0x1e30, 0x1e30);
   (0x1e32, 0x1e32); (0x1e34, 0x1e34); (0x1e36, 0x1e36); (0x1e38, 0x1e38); (0x1e3a, 0x1e3a); (0x1e3c, 0x1e3c);
   (0x1e3e, 0x1e3e); (0x1e40, 0x1e40); (0x1e42, 0x1e42); (0x1e44, 0x1e44); (0x1e46, 0x1e46); (0x1e48, 0x1e48);
   (0x1e4a, 0x1e4a); (0x1e4c, 0x1e4c); (0x1e4e, 0x1e4e); (0x1e50, 0x1e50); (0x1e52, 0x1e52); (0x1e54, 0x1e54);
   (0x1e56, 0x1e56); (0x1e58, 0x1e58); (0x1e5a, 0x1e5a); (0x1e5c, 0x1e5c); (0x1e5e, 0x1e5e); (0x1e60, 0x1e60);
   (0x1e62, 0x1e62); (0x1e64, 0x1e64); (0x1e66, 0x1e66); (0x1e68, 0x1e68); (0x1e6a, 0x1e6a); (0x1e6c, 0x1e6c);
   (0x1e6e, 0x1e6e); (0x1e70, 0x1e70); (0x1e72, 0x1e72); (0x1e74, 0x1e74); (0x1e76, 0x1e76); (0x1e78, 0x1e78);
   (0x1e7a, 0x1e7a); (0x1e7c, 0x1e7c); (0x1e7e, 0x1e7e); (0x1e80, 0x1e80); (0x1e82, 0x1e82); (0x1e84, 0x1e84);
   (0x1e86, 0x1e86); (0x1e88, 0x1e88); (0x1e8a, 0x1e8a); (0x1e8c, 0x1e8c); (0x1e8e, 0x1e8e); (0x1e90, 0x1e90);
   (0x1e92, 0x1e92); (0x1e94, 0x1e94); (0x1e9e, 0x1e9e); (0x1ea0, 0x1ea0); (0x1ea2, 0x1ea2); (0x1ea4, 0x1ea4);
   (0x1ea6, 0x1ea6); (0x1ea8, 0x1ea8); (0x1eaa, 0x1eaa); (0x1eac, 0x1eac); (0x1eae, 0x1eae); (0x1eb0, 0x1eb0);
   (0x1eb2, 0x1eb2); (0x1eb4, 0x1eb4); (0x1eb6, 0x1eb6); (0x1eb8, 0x1eb8); (0x1eba, 0x1eba); (0x1ebc, 0x1ebc);
   (0x1ebe, 0x1ebe); (0x1ec0, 0x1ec0); (0x1ec2, 0x1ec2); (0x1ec4, 0x1ec4); (0x1ec6, 0x1ec6); (0x1ec8, 0x1ec8);
   (0x1eca, 0x1eca); (0x1ecc, 0x1ecc); (0x1ece, 0x1ece); (0x1ed0, 0x1ed0); (0x1ed2, 0x1ed2); (0x1ed4, 0x1ed4);
   (0x1ed6, 0x1ed6); (0x1ed8, 0x1ed8); (0x1eda, 0x1eda); (0x1edc, 0x1edc); (0x1ede, 0x1ede); (0x1ee0, 0x1ee0);
   (0x1ee2, 0x1ee2); (0x1ee4, 0x1ee4); (0x1ee6, 0x1ee6); (0x1ee8, 0x1ee8); (0x1eea, 0x1eea); (0x1eec, 0x1eec);
   (0x1eee, 0x1eee); (0x1ef0, 0x1ef0); (0x1ef2, 0x1ef2); (0x1ef4, 0x1ef4); (0x1ef6, 0x1ef6); (0x1ef8, 0x1ef8);
   (0x1efa, 0x1efa); (0x1efc, 0x1efc); (0x1efe, 0x1efe); (0x1f08, 0x1f0f); (0x1f18, 0x1f1d); (0x1f28, 0x1f2f);
   (0x1f38, 0x1f3f); (0x1f48, 0x1f4d); (0x1f59, 0x1f59); (0x1f5b, 0x1f5b); (0x1f5d, 0x1f5d); (0x1f5f, 0x1f5f);
   (0x1f68, 0x1f6f); (0x1fb8, 0x1fbb); (0x1fc8, 0x1fcb); (0x1fd8, 0x1fdb); (0x1fe8, 0x1fec); (0x1ff8, 0x1ffb);
   (0x2102, 0x2102); (0x2107, 0x2107); (0x210b, 0x210d); (0x2110, 0x2112); (0x2115, 0x2115); (0x2119, 0x211d);
   (0x2124, 0x2124); (0x2126, 0x2126); (0x2128, 0x2128); (0x212a, 0x212d); (0x2130, 0x2133); (0x213e, 0x213f);
   (0x2145, 0x2145); (0x2160, 0x216f); (0x2183, 0x2183); (0x24b6, 0x24cf); (0x2c00, 0x2c2f); (0x2c60, 0x2c60);
   (0x2c62, 0x2c64); (0x2c67, 0x2c67); (0x2c69, 0x2c69); (0x2c6b, 0x2c6b); (0x2c6d, 0x2c70); (0x2c72, 0x2c72);
   (0x2c75, 0x2c75); (0x2c7e, 0x2c80); (0x2c82, 0x2c82); (0x2c84, 0x2c84); (0x2c86, 0x2c86); (0x2c88, 0x2c88);
   (0x2c8a, 0x2c8a); (0x2c8c, 0x2c8c); (0x2c8e, 0x2c8e); (0x2c90, 0x2c90); (0x2c92, 0x2c92); (0x2c94, 0x2c94);
   (0x2c96, 0x2c96); (0x2c98, 0x2c98); (0x2c9a, 0x2c9a); (0x2c9c, 0x2c9c); (0x2c9e, 0x2c9e); (0x2ca0, 0x2ca0);
   (0x2ca2, 0x2ca2); (0x2ca4, 0x2ca4); (0x2ca6, 0x2ca6); (0x2ca8, 0x2ca8); (0x2caa, 0x2caa); (0x2cac, 0x2cac);
   (0x2cae, 0x2cae); (0x2cb0, 0x2cb0); (0x2cb2, 0x2cb2); (0x2cb4, 0x2cb4); (0x2cb6, 0x2cb6); (0x2cb8, 0x2cb8);
   (0x2cba, 0x2cba); (0x2cbc, 0x2cbc); (0x2cbe, 0x2cbe); (0x2cc0, 0x2cc0); (0x2cc2, 0x2cc2); (0x2cc4, 0x2cc4);
   (0x2cc6, 0x2cc6); (0x2cc8, 0x2cc8); (0x2cca, 0x2cca); (0x2ccc, 0x2ccc); (0x2cce, 0x2cce); (0x2cd0, 0x2cd0);
   (0x2cd2, 0x2cd2); (0x2cd4, 0x2cd4); (0x2cd6, 0x2cd6); (0x2cd8, 0x2cd8); (0x2cda, 0x2cda); (0x2cdc, 0x2cdc);
   (0x2cde, 0x2cde); (0x2ce0, 0x2ce0); (0x2ce2, 0x2ce2); (0x2ceb, 0x2ceb); (0x2ced, 0x2ced); (0x2cf2, 0x2cf2);
   (0xa640, 0xa640); (0xa642, 0xa642); (0xa644, 0xa644); (0xa646, 0xa646); (0xa648, 0xa648); (0xa64a, 0xa64a);
   (0xa64c, 0xa64c); (0xa64e, 0xa64e); (0xa650, 0xa650); (0xa652, 0xa652); (0xa654, 0xa654); (0xa656, 0xa656);
   (0xa658, 0xa658); (0xa65a, 0xa65a); (0xa65c, 0xa65c); (0xa65e, 0xa65e); (0xa660, 0xa660); (0xa662, 0xa662);
   (0xa664, 0xa664); (0xa666, 0xa666); (0xa668, 0xa668); (0xa66a, 0xa66a); (0xa66c, 0xa66c); (0xa680, 0xa680);
   (0xa682, 0xa682); (0xa684, 0xa684); (0xa686, 0xa686); (0xa688, 0xa688); (0xa68a, 0xa68a); (0xa68c, 0xa68c);
   (0xa68e, 0xa68e); (0xa690, 0xa690); (0xa692, 0xa692); (0xa694, 0xa694); (0xa696, 0xa696); (0xa698, 0xa698);
   (0xa69a, 0xa69a); (0xa722, 0xa722); (0xa724, 0xa724); (0xa726, 0xa726); (0xa728, 0xa728); (0xa72a, 0xa72a);
   (0xa72c, 0xa72c); (0xa72e, 0xa72e); (0xa732, 0xa732); (0xa734, 0xa734); (0xa736, 0xa736); (0xa738, 0xa738);
   (0xa73a, 0xa73a); (0xa73c, 0xa73c); (0xa73e, 0xa73e); (0xa740, 0xa740); (0xa742, 0xa742); (0xa744, 0xa744);
   (0xa746, 0xa746); (0xa748, 0xa748); (0xa74a, 0xa74a); (0xa74c, 0xa74c); (0xa74e, 0xa74e); (0xa750, 0xa750);
   (0xa752, 0xa752); (0xa754, 0xa754); (0xa756, 0xa756); (0xa758, 0xa758); (0xa75a, 0xa75a); (0xa75c, 0xa75c);
   (0xa75e, 0xa75e); (0xa760, 0xa760); (0xa762, 0xa762); (0xa764, 0xa764); (0xa766, 0xa766); (0xa768, 0xa768);
   (0xa76a, 0xa76a); (0xa76c, 0xa76c); (0xa76e, 0xa76e); (0xa779, 0xa779); (0xa77b, 0xa77b); (0xa77d, 0xa77e);
   (0xa780, 0xa780); (0xa782, 0xa782); (0xa784, 0xa784); (0xa786, 0xa786); (0xa78b, 0xa78b); (0xa78d, 0xa78d);
   (0xa790, 0xa790); (0xa792, 0xa792); (0xa796, 0xa796); (0xa798, 0xa798); (0xa79a, 0xa79a); (0xa79c, 0xa79c);
   (0xa79e, 0xa79e); (0xa7a0, 0xa7a0); (0xa7a2, 0xa7a2); (0xa7a4, 0xa7a4); (0xa7a6, 0xa7a6); (0xa7a8, 0xa7a8);
   (0xa7aa, 0xa7ae); (0xa7b0, 0xa7b4); (0xa7b6, 0xa7b6); (0xa7b8, 0xa7b8); (0xa7ba, 0xa7ba); (0xa7bc, 0xa7bc);
   (0xa7be, 0xa7be); (0xa7c0, 0xa7c0); (0xa7c2, 0xa7c2); (0xa7c4, 0xa7c7); (0xa7c9, 0xa7c9); (0xa7d0, 0xa7d0);
   (0xa7d6, 0xa7d6); (0xa7d8, 0xa7d8); (0xa7f5, 0xa7f5); (0xff21, 0xff3a); (0x10400, 0x10427); (0x104b0, 0x104d3);
   (0x10570, 0x1057a); (0x1057c, 0x1058a); (0x1058c, 0x10592); (0x10594, 0x10595); (0x10c80, 0x10cb2);
   (0x118a0, 0x118bf); (0x16e40, 0x16e5f); (0x1d400, 0x1d419); (0x1d434, 0x1d44d); (0x1d468, 0x1d481);
   (0x1d49c, 0x1d49c); (0x1d49e, 0x1d49f); (0x1d4a2, 0x1d4a2); (0x1d4a5, 0x1d4a6); (0x1d4a9, 0x1d4ac);
   (0x1d4ae, 0x1d4b5); (0x1d4d0, 0x1d4e9); (0x1d504, 0x1d505); (0x1d507, 0x1d50a); (0x1d50d, 0x1d514);
   (0x1d516, 0x1d51c); (0x1d538, 0x1d539); (0x1d53b, 0x1d53e); (0x1d540, 0x1d544); (0x1d546, 0x1d546);
   (0x1d54a, 0x1d550); (0x1d56c, 0x1d585); (0x1d5a0, 0x1d5b9); (0x1d5d4, 0x1d5ed); (0x1d608, 0x1d621);
   (0x1d63c, 0x1d655); (0x1d670, 0x1d689); (0x1d6a8, 0x1d6c0); (0x1d6e2, 0x1d6fa); (0x1d71c, 0x1d734);
   (0x1d756, 0x1d76e); (0x1d790, 0x1d7a8); (0x1d7ca, 0x1d7ca); (0x1e900, 0x1e921); (0x1f130, 0x1f149);
   (0x1f150, 0x1f169); (0x1f170, 0x1f189)].

(** XID_Start. *)
Definition ref_xid_start : list (Z * Z) :=
  [(0x41, 0x5a); (0x61, 0x7a); (0xaa, 0xaa); (0xb5, 0xb5); (0xba, 0xba); (0xc0, 0xd6); (0xd8, 0xf6); (0xf8, 0x2c1);
   (0x2c6, 0x2d1); (0x2e0, 0x2e4); (0x2ec, 0x2ec); (0x2ee, 0x2ee); (0x370, 0x374); (0x376, 0x377); (0x37b, 0x37d);
   (0x37f, 0x37f); (0x386, 0x386); (0x388, 0x38a); (0x38c, 0x38c); (0x38e, 0x3a1); (0x3a3, 0x3f5); (0x3f7, 0x481);
   (0x48a, 0x52f); (0x531, 0x556); (0x559, 0x559); (0x560, 0x588); (0x5d0, 0x5ea); (0x5ef, 0x5f2); (0x620, 0x64a);
   (0x66e, 0x66f); (0x671, 0x6d3); (0x6d5, 0x6d5); (0x6e5, 0x6e6); (0x6ee, 0x6ef); (0x6fa, 0x6fc); (0x6ff, 0x6ff);
   (0x710, 0x710); (0x712, 0x72f); (0x74d, 0x7a5); (0x7b1, 0x7b1); (0x7ca, 0x7ea); (0x7f4, 0x7f5); (0x7fa, 0x7fa);
   (0x800, 0x815); (0x81a, 0x81a); (0x824, 0x824); (0x828, 0x828); (0x840, 0x858); (0x860, 0x86a); (0x870, 0x887);
   (0x889, 0x88e); (0x8a0, 0x8c9); (0x904, 0x939); (0x93d, 0x93d); (0x950, 0x950); (0x958, 0x961); (0x971, 0x980);
   (0x985, 0x98c); (0x98f, 0x990); (0x993, 0x9a8); (0x9aa, 0x9b0); (0x9b2, 0x9b2); (0x9b6, 0x9b9); (0x9bd, 0x9bd);
   (0x9ce, 0x9ce); (0x9dc, 0x9dd); (0x9df, 0x9e1); (0x9f0, 0x9f1); (0x9fc, 0x9fc); (0xa05, 0xa0a); (0xa0f, 0xa10);
   (0xa13, 0xa28); (0xa2a, 0xa30); (0xa32, 0xa33); (0xa35, 0xa36); (0xa38, 0xa39); (0xa59, 0xa5c); (0xa5e, 0xa5e);
   (0xa72, 0xa74); (0xa85, 0xa8d); (0xa8f, 0xa91); (0xa93, 0xaa8); (0xaaa, 0xab0); (0xab2, 0xab3); (0xab5, 0xab9);
   (0xabd, 0xabd); (0xad0, 0xad0); (0xae0, 0xae1); (0xaf9, 0xaf9); (0xb05, 0xb0c); (0xb0f, 0xb10); (0xb13, 0xb28);
   (0xb2a, 0xb30); (0xb32, 0xb33); (0xb35, 0xb39); (0xb3d, 0xb3d); (0xb5c, 0xb5d); (0xb5f, 0xb61); (0xb71, 0xb71);
   (0xb83, 0xb83); (0xb85, 0xb8a); (0xb8e, 0xb90); (0xb92, 0xb95); (0xb99, 0xb9a); (0xb9c, 0xb9c); (0xb9e, 0xb9f);
   (0xba3, 0xba4); (0xba8, 0xbaa); (0xbae, 0xbb9); (0xbd0, 0xbd0); (0xc05, 0xc0c); (0xc0e, 0xc10); (0xc12, 0xc28);
   (0xc2a, 0xc39); (0xc3d, 0xc3d); (0xc58, 0xc5a); (0xc5d, 0xc5d); (0xc60, 0xc61); (0xc80, 0xc80); (0xc85, 0xc8c);
   (0xc8e, 0xc90); (0xc92, 0xca8); (0xcaa, 0xcb3); (0xcb5, 0xcb9); (0xcbd, 0xcbd); (0xcdd, 0xcde); (0xce0, 0xce1);
   (0xcf1, 0xcf2); (0xd04, 0xd0c); (0xd0e, 0xd10); (0xd12, 0xd3a); (0xd3d, 0xd3d); (0xd4e, 0xd4e); (0xd54, 0xd56);
   (0xd5f, 0xd61); (0xd7a, 0xd7f); (0xd85, 0xd96); (0xd9a, 0xdb1); (0xdb3, 0xdbb); (0xdbd, 0xdbd); (0xdc0, 0xdc6);
   (0xe01, 0xe30); (0xe32, 0xe32); (0xe40, 0xe46); (0xe81, 0xe82); (0xe84, 0xe84); (0xe86, 0xe8a); (0xe8c, 0xea3);
   (0xea5, 0xea5); (0xea7, 0xeb0); (0xeb2, 0xeb2); (0xebd, 0xebd); (0xec0, 0xec4); (0xec6, 0xec6); (0xedc, 0xedf);
   (0xf00, 0xf00); (0xf40, 0xf47); (0xf49, 0xf6c); (0xf88, 0xf8c); (0x1000, 0x102a); (0x103f, 0x103f); (0x1050, 0x1055);
   (0x105a, 0x105d); (0x1061, 0x1061); (0x1065, 0x1066); (0x106e, 0x1070); (0x1075, 0x1081); (0x108e, 0x108e);
   (0x10a0, 0x10c5); (0x10c7, 0x10c7); (0x10cd, 0x10cd); (0x10d0, 0x10fa); (0x10fc, 0x1248); (0x124a, 0x124d);
   (0x1250, 0x1256); (0x1258, 0x1258); (0x125a, 0x125d); (0x1260, 0x1288); (0x128a, 0x128d); (0x1290, 0x12b0);
   (0x12b2, 0x12b5); (0x12b8, 0x12be); (0x12c0, 0x12c0); (0x12c2, 0x12c5); (0x12c8, 0x12d6); (0x12d8, 0x1310);
   (0x1312, 0x1315); (0x1318, 0x135a); (0x1380, 0x138f); (0x13a0, 0x13f5); (0x13f8, 0x13fd); (0x1401, 0x166c);
   (0x166f, 0x167f); (0x1681, 0x169a); (0x16a0, 0x16ea); (0x16ee, 0x16f8); (0x1700, 0x1711); (0x171f, 0x1731);
   (0x1740, 0x1751); (0x1760, 0x176c); (0x176e, 0x1770); (0x1780, 0x17b3); (0x17d7, 0x17d7); (0x17dc, 0x17dc);
   (0x1820, 0x1878); (0x1880, 0x18a8); (0x18aa, 0x18aa); (0x18b0, 0x18f5); (0x1900, 0x191e); (0x1950, 0x196d);
   (0x1970, 0x1974); (0x1980, 0x19ab); (0x19b0, 0x19c9); (0x1a00, 0x1a16); (0x1a20, 0x1a54); (0x1aa7, 0x1aa7);
   (0x1b05, 0x1b33); (0x1b45, 0x1b4c); (0x1b83, 0x1ba0); (0x1bae, 0x1baf); (0x1bba, 0x1be5); (0x1c00, 0x1c23);
   (0x1c4d, 0x1c4f); (0x1c5a, 0x1c7d); (0x1c80, 0x1c88); (0x1c90, 0x1cba); (0x1cbd, 0x1cbf); (0x1ce9, 0x1cec);
   (0x1cee, 0x1cf3); (0x1cf5, 0x1cf6); (0x1cfa, 0x1cfa); (0x1d00, 0x1dbf); (0x1e00, 0x1f15); (0x1f18, 0x1f1d);
   (0x1f20, 0x1f45); (0x1f48, 0x1f4d); (0x1f50, 0x1f57); (0x1f59, 0x1f59); (0x1f5b, 0x1f5b); (0x1f5d, 0x1f5d);
   (0x1f5f, 0x1f7d); (0x1f80, 0x1fb4); (0x1fb6, 0x1fbc); (0x1fbe, 0x1fbe); (0x1fc2, 0x1fc4); (0x1fc6, 0x1fcc);
   (0x1fd0, 0x1fd3); (0x1fd6, 0x1fdb); (0x1fe0, 0x1fec); (0x1ff2, 0x1ff4); (0x1ff6, 0x1ffc); (0x2071, 0x2071);
   (0x207f, 0x207f); (0x2090, 0x209c); (0x2102, 0x2102); (0x2107, 0x2107); (0x210a, 0x2113); (0x2115, 0x2115);
   (0x2118, 0x211d); (0x2124, 0x2124); (0x2126, 0x2126); (0x2128, 0x2128); (0x212a, 0x2139); (0x213c, 0x213f);
   (0x2145, 0x2149); (0x214e, 0x214e); (0x2160, 0x2188); (0x2c00, 0x2ce4); (0x2ceb, 0x2cee); (0x2cf2, 0x2cf3);
   (0x2d00, 0x2d25); (0x2d27, 0x2d27); (0x2d2d, 0x2d2d); (0x2d30, 0x2d67); (0x2d6f, 0x2d6f); (0x2d80, 0x2d96);
   (0x2da0, 0x2da6); (0x2da8, 0x2dae); (0x2db0, 0x2db6); (0x2db8, 0x2dbe); (0x2dc0, 0x2dc6); (0x2dc8, 0x2dce);
   (0x2dd0, 0x2dd6); (0x2dd8, 0x2dde); (0x3005, 0x3007); (0x3021, 0x3029); (0x3031, 0x3035); (0x3038, 0x303c);
   (0x3041, 0x3096); (0x309d, 0x309f); (0x30a1, 0x30fa); (0x30fc, 0x30ff); (0x3105, 0x312f); (0x3131, 0x318e);
   (0x31a0, 0x31bf); (0x31f0, 0x31ff); (0x3400, 0x4dbf); (0x4e00, 0xa48c); (0xa4d0, 0xa4fd); (0xa500, 0xa60c);
   (0xa610, 0xa61f); (0xa62a, 0xa62b); (0xa640, 0xa66e); (0xa67f, 0xa69d); (0xa6a0, 0xa6ef); (0xa717, 0xa71f);
   (0xa722, 0xa788); (0xa78b, 0xa7ca); (0xa7d0, 0xa7d1); (0xa7d3, 0xa7d3); (0xa7d5, 0xa7d9); (0xa7f2, 0xa801);
   (0xa803, 0xa805); (0xa807, 0xa80a); (0xa80c, 0xa822); (0xa840, 0xa873); (0xa882, 0xa8b3); (0xa8f2, 0xa8f7);
   (0xa8fb, 0xa8fb); (0xa8fd, 0xa8fe); (0xa90a, 0xa925); (0xa930, 0xa946); (0xa960, 0xa97c); (0xa984, 0xa9b2);
   (0xa9cf, 0xa9cf); (0xa9e0, 0xa9e4); (0xa9e6, 0xa9ef); (0xa9fa, 0xa9fe); (0xaa00, 0xaa28); (0xaa40, 0xaa42);
   (0xaa44, 0xaa4b); (0xaa60, 0xaa76); (0xaa7a, 0xaa7a); (0xaa7e, 0xaaaf); (0xaab1, 0xaab1); (0xaab5, 0xaab6);
   (0xaab9, 0xaabd); (0xaac0, 0xaac0); (0xaac2, 0xaac2); (0xaadb, 0xaadd); (0xaae0, 0xaaea); (0xaaf2, 0xaaf4);
   (0xab01, 0xab06); (0xab09, 0xab0e); (0xab11, 0xab16); (0xab20, 0xab26); (0xab28, 0xab2e); (0xab30, 0xab5a);
   (0xab5c, 0xab69); (0xab70, 0xabe2); (0xac00, 0xd7a3); (0xd7b0, 0xd7c6); (0xd7cb, 0xd7fb); (0xf900, 0xfa6d);
   (0xfa70, 0xfad9); (0xfb00, 0xfb06); (0xfb13, 0xfb17); (0xfb1d, 0xfb1d); (0xfb1f, 0xfb28); (0xfb2a, 0xfb36);
   (0xfb38, 0xfb3c); (0xfb3e, 0xfb3e); (0xfb40, 0xfb41); (0xfb43, 0xfb44); (0xfb46, 0xfbb1); (0xfbd3, 0xfc5d);
   (0xfc64, 0xfd3d); (0xfd50, 0xfd8f); (0xfd92, 0xfdc7); (0xfdf0, 0xfdf9); (0xfe71, 0xfe71); (0xfe73, 0xfe73);
   (0xfe77, 0xfe77); (0xfe79, 0xfe79); (0xfe7b, 0xfe7b); (0xfe7d, 0xfe7d); (0xfe7f, 0xfefc); (0xff21, 0xff3a);
   (0xff41, 0xff5a); (0xff66, 0xff9d); (0xffa0, 0xffbe); (0xffc2, 0xffc7); (0xffca, 0xffcf); (0xffd2, 0xffd7);
   (0xffda, 0xffdc); (0x10000, 0x1000b); (0x1000d, 0x10026); (0x10028, 0x1003a); (0x1003c, 0x1003d); (0x1003f, 0x1004d);
   (0x10050, 0x1005d); (0x10080, 0x100fa); (0x10140, 0x10174); (0x10280, 0x1029c); (0x102a0, 0x102d0);
   (0x10300, 0x1031f); (0x1032d, 0x1034a); (0x10350, 0x10375); (0x10380, 0x1039d); (0x103a0, 0x103c3);
   (0x103c8, 0x103cf); (0x103d1, 0x103d5); (0x10400, 0x1049d); (0x104b0, 0x104d3); (0x104d8, 0x104fb);
   (0x10500, 0x10527); (0x10530, 0x10563); (0x10570, 0x1057a); (0x1057c, 0x1058a); (0x1058c, 0x10592);
   (0x10594, 0x10595); (0x10597, 0x105a1); (0x105a3, 0x105b1); (0x105b3, 0x105b9); (0x105bb, 0x105bc);
   (0x10600, 0x10736); (0x10740, 0x10755); (0x10760, 0x10767); (0x10780, 0x10785); (0x10787, 0x107b0);
   (0x107b2, 0x107ba); (0x10800, 0x10805); (0x10808, 0x10808); (0x1080a, 0x10835); (0x10837, 0x10838);
   (0x1083c, 0x1083c); (0x1083f, 0x10855); (0x10860, 0x10876); (0x10880, 0x1089e); (0x108e0, 0x108f2);
   (0x108f4, 0x108f5); (0x10900, 0x10915); (0x10920, 0x10939); (0x10980, 0x109b7); (0x109be, 0x109bf);
   (0x10a00, 0x10a00); (0x10a10, 0x10a13); (0x10a15, 0x10a17); (0x10a19, 0x10a35); (0x10a60, 0x10a7c);
   (0x10a80, 0x10a9c); (0x10ac0, 0x10ac7); (0x10ac9, 0x10ae4); (0x10b00, 0x10b35); (0x10b40, 0x10b55);
   (0x10b60, 0x10b72); (0x10b80, 0x10b91); (0x10c00, 0x10c48); (0x10c80, 0x10cb2); (0x10cc0, 0x10cf2);
   (0x10d00, 0x10d23); (0x10e80, 0x10ea9); (0x10eb0, 0x10eb1); (0x10f00, 0x10f1c); (0x10f27, 0x10f27);
   (0x10f30, 0x10f45); (0x10f70, 0x10f81); (0x10fb0, 0x10fc4); (0x10fe0, 0x10ff6); (0x11003, 0x11037);
   (0x11071, 0x11072); (0x11075, 0x11075); (0x11083, 0x110af); (0x110d0, 0x110e8); (0x11103, 0x11126);
   (0x11144, 0x11144); (0x11147, 0x11147); (0x11150, 0x11172); (0x11176, 0x11176); (0x11183, 0x111b2);
   (0x111c1, 0x111c4); (0x111da, 0x111da); (0x111dc, 0x111dc); (0x11200, 0x11211); (0x11213, 0x1122b);
   (0x11280, 0x11286); (0x11288, 0x11288); (0x1128a, 0x1128d); (0x1128f, 0x1129d); (0x1129f, 0x112a8);
   (0x112b0, 0x112de); (0x11305, 0x1130c); (0x1130f, 0x11310); (0x11313, 0x11328); (0x1132a, 0x11330);
   (0x11332, 0x11333); (0x11335, 0x11339); (0x1133d, 0x1133d); (0x11350, 0x11350); (0x1135d, 0x11361);
   (0x11400, 0x11434); (0x11447, 0x1144a); (0x1145f, 0x11461); (0x11480, 0x114af); (0x114c4, 0x114c5);
   (0x114c7, 0x114c7); (0x11580, 0x115ae); (0x115d8, 0x115db); (0x11600, 0x1162f); (0x11644, 0x11644);
   (0x11680, 0x116aa); (0x116b8, 0x116b8); (0x11700, 0x1171a); (0x11740, 0x11746); (0x11800, 0x1182b);
   (0x118a0, 0x118df); (0x118ff, 0x11906); (0x11909, 0x11909); (0x1190c, 0x11913); (0x11915, 0x11916);
   (0x11918, 0x1192f); (0x1193f, 0x1193f); (0x11941, 0x11941); (0x119a0, 0x119a7); (0x119aa, 0x119d0);
   (0x119e1, 0x119e1); (0x119e3, 0x119e3); (0x11a00, 0x11a00); (0x11a0b, 0x11a32); (0x11a3a, 0x11a3a);
   (0x11a50, 0x11a50); (0x11a5c, 0x11a89); (0x11a9d, 0x11a9d); (0x11ab0, 0x11af8); (0x11c00, 0x11c08);
   (0x11c0a, 0x11c2e); (0x11c40, 0x11c40); (0x11c72, 0x11c8f); (0x11d00, 0x11d06); (0x11d08, 0x11d09);
   (0x11d0b, 0x11d30); (0x11d46, 0x11d46); (0x11d60, 0x11d65); (0x11d67, 0x11d68); (0x11d6a, 0x11d89);
   (0x11d98, 0x11d98); (0x11ee0, 0x11ef2); (0x11fb0, 0x11fb0); (0x12000, 0x12399); (0x12400, 0x1246e);
   (0x12480, 0x12543); (0x12f90, 0x12ff0); (0x13000, 0x1342e); (0x14400, 0x14646); (0x16800, 0x16a38);
   (0x16a40, 0x16a5e); (0x16a70, 0x16abe); (0x16ad0, 0x16aed); (0x16b00, 0x16b2f); (0x16b40, 0x16b43);
   (0x16b63, 0x16b77); (0x16b7d, 0x16b8f); (0x16e40, 0x16e7f); (0x16f00, 0x16f4a); (0x16f50, 0x16f50);
   (0x16f93, 0x16f9f); (0x16fe0, 0x16fe1); (0x16fe3, 0x16fe3); (0x17000, 0x187f7); (0x18800, 0x18cd5);
   (0x18d00, 0x18d08); (0x1aff0, 0x1aff3); (0x1aff5, 0x1affb); (0x1affd, 0x1affe); (0x1b000, 0x1b122);
   (0x1b150, 0x1b152); (0x1b164, 0x1b167); (0x1b170, 0x1b2fb); (0x1bc00, 0x1bc6a); (0x1bc70, 0x1bc7c);
   (0x1bc80, 0x1bc88); (0x1bc90, 0x1bc99); (0x1d400, 0x1d454); (0x1d456, 0x1d49c); (0x1d49e, 0x1d49f);
   (0x1d4a2, 0x1d4a2); (0x1d4a5, 0x1d4a6); (0x1d4a9, 0x1d4ac); (0x1d4ae, 0x1d4b9); (0x1d4bb, 0x1d4bb);
   (0x1d4bd, 0x1d4c3); (0x1d4c5, 0x1d505); (0x1d507, 0x1d50a); (0x1d50d, 0x1d514); (0x1d516, 0x1d51c);
   (0x1d51e, 0x1d539); (0x1d53b, 0x1d53e); (0x1d540, 0x1d544); (0x1d546, 0x1d546); (0x1d54a, 0x1d550);
   (0x1d552, 0x1d6a5); (0x1d6a8, 0x1d6c0); (0x1d6c2, 0x1d6da); (0x1d6dc, 0x1d6fa); (0x1d6fc, 0x1d714);
   (0x1d716, 0x1d734); (0x1d736, 0x1d74e); (0x1d750, 0x1d76e); (0x1d770, 0x1d788); (0x1d78a, 0x1d7a8);
   (0x1d7aa, 0x1d7c2); (0x1d7c4, 0x1d7cb); (0x1df00, 0x1df1e); (0x1e100, 0x1e12c); (0x1e137, 0x1e13d);
   (0x1e14e, 0x1e14e); (0x1e290, 0x1e2ad); (0x1e2c0, 0x1e2eb); (0x1e7e0, 0x1e7e6); (0x1e7e8, 0x1e7eb);
   (0x1e7ed, 0x1e7ee); (0x1e7f0, 0x1e7fe); (0x1e800, 0x1e8c4); (0x1e900, 0x1e943); (0x1e94b, 0x1e94b);
   (0x1ee00, 0x1ee03); (0x1ee05, 0x1ee1f); (0x1ee21, 0x1ee22); (0x1ee24, 0x1ee24); (0x1ee27, 0x1ee27);
   (0x1ee29, 0x1ee32); (0x1ee34, 0x1ee37); (0x1ee39, 0x1ee39); (0x1ee3b, 0x1ee3b); (0x1ee42, 0x1ee42);
   (0x1ee47, 0x1ee47); (0x1ee49, 0x1ee49); (0x1ee4b, 0x1ee4b); (0x1ee4d, 0x1ee4f); (0x1ee51, 0x1ee52);
   (0x1ee54, 0x1ee54); (0x1ee57, 0x1ee57); (0x1ee59, 0x1ee59); (0x1ee5b, 0x1ee5b); (0x1ee5d, 0x1ee5d);
   (0x1ee5f, 0x1ee5f); (0x1ee61, 0x1ee62); (0x1ee64, 0x1ee64); (0x1ee67, 0x1ee6a); (0x1ee6c, 0x1ee72);
   (0x1ee74, 0x1ee77); (0x1ee79, 0x1ee7c); (0x1ee7e, 0x1ee7e); (0x1ee80, 0x1ee89); (0x1ee8b, 0x1ee9b);
   (0x1eea1, 0x1eea3); (0x1eea5, 0x1eea9); (0x1eeab, 0x1eebb); (0x20000, 0x2a6df); (0x2a700, 0x2b738);
   (0x2b740, 0x2b81d); (0x2b820, 0x2cea1); (0x2ceb0, 0x2ebe0); (0x2f800, 0x2fa1d); (0x30000, 0x3134a)].

(** XID_Continue. *)
Definition ref_xid_continue : list (Z * Z) :=
  [(0x30, 0x39); (0x41, 0x5a); (0x5f, 0x5f); (0x61, 0x7a); (0xaa, 0xaa); (0xb5, 0xb5); (0xb7, 0xb7); (0xba, 0xba);
   (0xc0, 0xd6); (0xd8, 0xf6); (0xf8, 0x2c1); (0x2c6, 0x2d1); (0x2e0, 0x2e4); (0x2ec, 0x2ec); (0x2ee, 0x2ee);
   (0x300, 0x374); (0x376, 0x377); (0x37b, 0x37d); (0x37f, 0x37f); (0x386, 0x38a); (0x38c, 0x38c); (0x38e, 0x3a1);
   (0x3a3, 0x3f5); (0x3f7, 0x481); (0x483, 0x487); (0x48a, 0x52f); (0x531, 0x556); (0x559, 0x559); (0x560, 0x588);
   (0x591, 0x5bd); (0x5bf, 0x5bf); (0x5c1, 0x5c2); (0x5c4, 0x5c5); (0x5c7, 0x5c7); (0x5d0, 0x5ea); (0x5ef, 0x5f2);
   (0x610, 0x61a); (0x620, 0x669); (0x66e, 0x6d3); (0x6d5, 0x6dc); (0x6df, 0x6e8); (0x6ea, 0x6fc); (0x6ff, 0x6ff);
   (0x710, 0x74a); (0x74d, 0x7b1); (0x7c0, 0x7f5); (0x7fa, 0x7fa); (0x7fd, 0x7fd); (0x800, 0x82d); (0x840, 0x85b);
   (0x860, 0x86a); (0x870, 0x887); (0x889, 0x88e); (0x898, 0x8e1); (0x8e3, 0x963); (0x966, 0x96f); (0x971, 0x983);
   (0x985, 0x98c); (0x98f, 0x990); (0x993, 0x9a8); (0x9aa, 0x9b0); (0x9b2, 0x9b2); (0x9b6, 0x9b9); (0x9bc, 0x9c4);
   (0x9c7, 0x9c8); (0x9cb, 0x9ce); (0x9d7, 0x9d7); (0x9dc, 0x9dd); (0x9df, 0x9e3); (0x9e6, 0x9f1); (0x9fc, 0x9fc);
   (0x9fe, 0x9fe); (0xa01, 0xa03); (0xa05, 0xa0a); (0xa0f, 0xa10); (0xa13, 0xa28); (0xa2a, 0xa30); (0xa32, 0xa33);
   (0xa35, 0xa36); (0xa38, 0xa39); (0xa3c, 0xa3c); (0xa3e, 0xa42); (0xa47, 0xa48); (0xa4b, 0xa4d); (0xa51, 0xa51);
   (0xa59, 0xa5c); (0xa5e, 0xa5e); (0xa66, 0xa75); (0xa81, 0xa83); (0xa85, 0xa8d); (0xa8f, 0xa91); (0xa93, 0xaa8);
   (0xaaa, 0xab0); (0xab2, 0xab3); (0xab5, 0xab9); (0xabc, 0xac5); (0xac7, 0xac9); (0xacb, 0xacd); (0xad0, 0xad0);
   (0xae0, 0xae3); (0xae6, 0xaef); (0xaf9, 0xaff); (0xb01, 0xb03); (0xb05, 0xb0c); (0xb0f, 0xb10); (0xb13, 0xb28);
   (0xb2a, 0xb30); (0xb32, 0xb33); (0xb35, 0xb39); (0xb3c, 0xb44); (0xb47, 0xb48); (0xb4b, 0xb4d); (0xb55, 0xb57);
   (0xb5c, 0xb5d); (0xb5f, 0xb63); (0xb66, 0xb6f); (0xb71, 0xb71); (0xb82, 0xb83); (0xb85, 0xb8a); (0xb8e, 0xb90);
   (0xb92, 0xb95); (0xb99, 0xb9a); (0xb9c, 0xb9c); (0xb9e, 0xb9f); (0xba3, 0xba4); (0xba8, 0xbaa); (0xbae, 0xbb9);
   (0xbbe, 0xbc2); (0xbc6, 0xbc8); (0xbca, 0xbcd); (0xbd0, 0xbd0); (0xbd7, 0xbd7); (0xbe6, 0xbef); (0xc00, 0xc0c);
   (0xc0e, 0xc10); (0xc12, 0xc28); (0xc2a, 0xc39); (0xc3c, 0xc44); (0xc46, 0xc48); (0xc4a, 0xc4d); (0xc55, 0xc56);
   (0xc58, 0xc5a); (0xc5d, 0xc5d); (0xc60, 0xc63); (0xc66, 0xc6f); (0xc80, 0xc83); (0xc85, 0xc8c); (0xc8e, 0xc90);
   (0xc92, 0xca8); (0xcaa, 0xcb3); (0xcb5, 0xcb9); (0xcbc, 0xcc4); (0xcc6, 0xcc8); (0xcca, 0xccd); (0xcd5, 0xcd6);
   (0xcdd, 0xcde); (0xce0, 0xce3); (0xce6, 0xcef); (0xcf1, 0xcf2); (0xd00, 0xd0c); (0xd0e, 0xd10); (0xd12, 0xd44);
   (0xd46, 0xd48); (0xd4a, 0xd4e); (0xd54, 0xd57); (0xd5f, 0xd63); (0xd66, 0xd6f); (0xd7a, 0xd7f); (0xd81, 0xd83);
   (0xd85, 0xd96); (0xd9a, 0xdb1); (0xdb3, 0xdbb); (0xdbd, 0xdbd); (0xdc0, 0xdc6); (0xdca, 0xdca); (0xdcf, 0xdd4);
   (0xdd6, 0xdd6); (0xdd8, 0xddf); (0xde6, 0xdef); (0xdf2, 0xdf3); (0xe01, 0xe3a); (0xe40, 0xe4e); (0xe50, 0xe59);
   (0xe81, 0xe82); (0xe84, 0xe84); (0xe86, 0xe8a); (0xe8c, 0xea3); (0xea5, 0xea5); (0xea7, 0xebd); (0xec0, 0xec4);
   (0xec6, 0xec6); (0xec8, 0xecd); (0xed0, 0xed9); (0xedc, 0xedf); (0xf00, 0xf00); (0xf18, 0xf19); (0xf20, 0xf29);
   (0xf35, 0xf35); (0xf37, 0xf37); (0xf39, 0xf39); (0xf3e, 0xf47); (0xf49, 0xf6c); (0xf71, 0xf84); (0xf86, 0xf97);
   (0xf99, 0xfbc); (0xfc6, 0xfc6); (0x1000, 0x1049); (0x1050, 0x109d); (0x10a0, 0x10c5); (0x10c7, 0x10c7);
   (0x10cd, 0x10cd); (0x10d0, 0x10fa); (0x10fc, 0x1248); (0x124a, 0x124d); (0x1250, 0x1256); (0x1258, 0x1258);
   (0x125a, 0x125d); (0x1260, 0x1288); (0x128a, 0x128d); (0x1290, 0x12b0); (0x12b2, 0x12b5); (0x12b8, 0x12be);
   (0x12c0, 0x12c0); (0x12c2, 0x12c5); (0x12c8, 0x12d6); (0x12d8, 0x1310); (0x1312, 0x1315); (0x1318, 0x135a);
   (0x135d, 0x135f); (0x1369, 0x1371); (0x1380, 0x138f); (0x13a0, 0x13f5); (0x13f8, 0x13fd); (0x1401, 0x166c);
   (0x166f, 0x167f); (0x1681, 0x169a); (0x16a0, 0x16ea); (0x16ee, 0x16f8); (0x1700, 0x1715); (0x171f, 0x1734);
   (0x1740, 0x1753); (0x1760, 0x176c); (0x176e, 0x1770); (0x1772, 0x1773); (0x1780, 0x17d3); (0x17d7, 0x17d7);
   (0x17dc, 0x17dd); (0x17e0, 0x17e9); (0x180b, 0x180d); (0x180f, 0x1819); (0x1820, 0x1878); (0x1880, 0x18aa);
   (0x18b0, 0x18f5); (0x1900, 0x191e); (0x1920, 0x192b); (0x1930, 0x193b); (0x1946, 0x196d); (0x1970, 0x1974);
   (0x1980, 0x19ab); (0x19b0, 0x19c9); (0x19d0, 0x19da); (0x1a00, 0x1a1b); (0x1a20, 0x1a5e); (0x1a60, 0x1a7c);
   (0x1a7f, 0x1a89); (0x1a90, 0x1a99); (0x1aa7, 0x1aa7); (0x1ab0, 0x1abd); (0x1abf, 0x1ace); (0x1b00, 0x1b4c);
   (0x1b50, 0x1b59); (0x1b6b, 0x1b73); (0x1b80, 0x1bf3); (0x1c00, 0x1c37); (0x1c40, 0x1c49); (0x1c4d, 0x1c7d);
   (0x1c80, 0x1c88); (0x1c90, 0x1cba); (0x1cbd, 0x1cbf); (0x1cd0, 0x1cd2); (0x1cd4, 0x1cfa); (0x1d00, 0x1f15);
   (0x1f18, 0x1f1d); (0x1f20, 0x1f45); (0x1f48, 0x1f4d); (0x1f50, 0x1f57); (0x1f59, 0x1f59); (0x1f5b, 0x1f5b);
   (0x1f5d, 0x1f5d); (0x1f5f, 0x1f7d); (0x1f80, 0x1fb4); (0x1fb6, 0x1fbc); (0x1fbe, 0x1fbe); (0x1fc2, 0x1fc4);
   (0x1fc6, 0x1fcc); (0x1fd0, 0x1fd3); (0x1fd6, 0x1fdb); (0x1fe0, 0x1fec); (0x1ff2, 0x1ff4); (0x1ff6, 0x1ffc);
   (0x203f, 0x2040); (0x2054, 0x2054); (0x2071, 0x2071); (0x207f, 0x207f); (0x2090, 0x209c); (0x20d0, 0x20dc);
   (0x20e1, 0x20e1); (0x20e5, 0x20f0); (0x2102, 0x2102); (0x2107, 0x2107); (0x210a, 0x2113); (0x2115, 0x2115);
   (0x2118, 0x211d); (0x2124, 0x2124); (0x2126, 0x2126); (0x2128, 0x2128); (0x212a, 0x2139); (0x213c, 0x213f);
   (0x2145, 0x2149); (0x214e, 0x214e); (0x2160, 0x2188); (0x2c00, 0x2ce4); (0x2ceb, 0x2cf3); (0x2d00, 0x2d25);
   (0x2d27, 0x2d27); (0x2d2d, 0x2d2d); (0x2d30, 0x2d67); (0x2d6f, 0x2d6f); (0x2d7f, 0x2d96); (0x2da0, 0x2da6);
   (0x2da8, 0x2dae); (0x2db0, 0x2db6); (0x2db8, 0x2dbe); (0x2dc0, 0x2dc6); (0x2dc8, 0x2dce); (0x2dd0, 0x2dd6);
   (0x2dd8, 0x2dde); (0x2de0, 0x2dff); (0x3005, 0x3007); (0x3021, 0x302f); (0x3031, 0x3035); (0x3038, 0x303c);
   (0x3041, 0x3096); (0x3099, 0x309a); (0x309d, 0x309f); (0x30a1, 0x30fa); (0x30fc, 0x30ff); (0x3105, 0x312f);
   (0x3131, 0x318e); (0x31a0, 0x31bf); (0x31f0, 0x31ff); (0x3400, 0x4dbf); (0x4e00, 0xa48c); (0xa4d0, 0xa4fd);
   (0xa500, 0xa60c); (0xa610, 0xa62b); (0xa640, 0xa66f); (0xa674, 0xa67d); (0xa67f, 0xa6f1); (0xa717, 0xa71f);
   (0xa722, 0xa788); (0xa78b, 0xa7ca); (0xa7d0, 0xa7d1); (0xa7d3, 0xa7d3); (0xa7d5, 0xa7d9); (0xa7f2, 0xa827);
   (0xa82c, 0xa82c); (0xa840, 0xa873); (0xa880, 0xa8c5); (0xa8d0, 0xa8d9); (0xa8e0, 0xa8f7); (0xa8fb, 0xa8fb);
   (0xa8fd, 0xa92d); (0xa930, 0xa953); (0xa960, 0xa97c); (0xa980, 0xa9c0); (0xa9cf, 0xa9d9); (0xa9e0, 0xa9fe);
   (0xaa00, 0xaa36); (0xaa40, 0xaa4d); (0xaa50, 0xaa59); (0xaa60, 0xaa76); (0xaa7a, 0xaac2); (0xaadb, 0xaadd);
   (0xaae0, 0xaaef); (0xaaf2, 0xaaf6); (0xab01, 0xab06); (0xab09, 0xab0e); (0xab11, 0xab16); (0xab20, 0xab26);
   (0xab28, 0xab2e); (0xab30, 0xab5a); (0xab5c, 0xab69); (0xab70, 0xabea); (0xabec, 0xabed); (0xabf0, 0xabf9);
   (0xac00, 0xd7a3); (0xd7b0, 0xd7c6); (0xd7cb, 0xd7fb); (0xf900, 0xfa6d); (0xfa70, 0xfad9); (0xfb00, 0xfb06);
   (0xfb13, 0xfb17); (0xfb1d, 0xfb28); (0xfb2a, 0xfb36); (0xfb38, 0xfb3c); (0xfb3e, 0xfb3e); (0xfb40, 0xfb41);
   (0xfb43, 0xfb44); (0xfb46, 0xfbb1); (0xfbd3, 0xfc5d); (0xfc64, 0xfd3d); (0xfd50, 0xfd8f); (0xfd92, 0xfdc7);
   (0xfdf0, 0xfdf9); (0xfe00, 0xfe0f); (0xfe20, 0xfe2f); (0xfe33, 0xfe34); (0xfe4d, 0xfe4f); (0xfe71, 0xfe71);
   (0xfe73, 0xfe73); (0xfe77, 0xfe77); (0xfe79, 0xfe79); (0xfe7b, 0xfe7b); (0xfe7d, 0xfe7d); (0xfe7f, 0xfefc);
   (0xff10, 0xff19); (0xff21, 0xff3a); (0xff3f, 0xff3f); (0xff41, 0xff5a); (0xff66, 0xffbe); (0xffc2, 0xffc7);
   (0xffca, 0xffcf); (0xffd2, 0xffd7); (0xffda, 0xffdc); (0x10000, 0x1000b); (0x1000d, 0x10026); (0x10028, 0x1003a);
   (0x1003c, 0x1003d); (0x1003f, 0x1004d); (0x10050, 0x1005d); (0x10080, 0x100fa); (0x10140, 0x10174);
   (0x101fd, 0x101fd); (0x10280, 0x1029c); (0x102a0, 0x102d0); (0x102e0, 0x102e0); (0x10300, 0x1031f);
   (0x1032d, 0x1034a); (0x10350, 0x1037a); (0x10380, 0x1039d); (0x103a0, 0x103c3); (0x103c8, 0x103cf);
   (0x103d1, 0x103d5); (0x10400, 0x1049d); (0x104a0, 0x104a9); (0x104b0, 0x104d3); (0x104d8, 0x104fb);
   (0x10500, 0x10527); (0x10530, 0x10563); (0x10570, 0x1057a); (0x1057c, 0x1058a); (0x1058c, 0x10592);
   (0x10594, 0x10595); (0x10597, 0x105a1); (0x105a3, 0x105b1); (0x105b3, 0x105b9); (0x105bb, 0x105bc);
   (0x10600, 0x10736); (0x10740, 0x10755); (0x10760, 0x10767); (0x10780, 0x10785); (0x10787, 0x107b0);
   (0x107b2, 0x107ba); (0x10800, 0x10805); (0x10808, 0x10808); (0x1080a, 0x10835); (0x10837, 0x10838);
   (0x1083c, 0x1083c); (0x1083f, 0x10855); (0x10860, 0x10876); (0x10880, 0x1089e); (0x108e0, 0x108f2);
   (0x108f4, 0x108f5); (0x10900, 0x10915); (0x10920, 0x10939); (0x10980, 0x109b7); (0x109be, 0x109bf);
   (0x10a00, 0x10a03); (0x10a05, 0x10a06); (0x10a0c, 0x10a13); (0x10a15, 0x10a17); (0x10a19, 0x10a35);
   (0x10a38, 0x10a3a); (0x10a3f, 0x10a3f); (0x10a60, 0x10a7c); (0x10a80, 0x10a9c); (0x10ac0, 0x10ac7);
   (0x10ac9, 0x10ae6); (0x10b00, 0x10b35); (0x10b40, 0x10b55); (0x10b60, 0x10b72); (0x10b80, 0x10b91);
   (0x10c00, 0x10c48); (0x10c80, 0x10cb2); (0x10cc0, 0x10cf2); (0x10d00, 0x10d27); (0x10d30, 0x10d39);
   (0x10e80, 0x10ea9); (0x10eab, 0x10eac); (0x10eb0, 0x10eb1); (0x10f00, 0x10f1c); (0x10f27, 0x10f27);
   (0x10f30, 0x10f50); (0x10f70, 0x10f85); (0x10fb0, 0x10fc4); (0x10fe0, 0x10ff6); (0x11000, 0x11046);
   (0x11066, 0x11075); (0x1107f, 0x110ba); (0x110c2, 0x110c2); (0x110d0, 0x110e8); (0x110f0, 0x110f9);
   (0x11100, 0x11134); (0x11136, 0x1113f); (0x11144, 0x11147); (0x11150, 0x11173); (0x11176, 0x11176);
   (0x11180, 0x111c4); (0x111c9, 0x111cc); (0x111ce, 0x111da); (0x111dc, 0x111dc); (0x11200, 0x11211);
   (0x11213, 0x11237); (0x1123e, 0x1123e); (0x11280, 0x11286); (0x11288, 0x11288); (0x1128a, 0x1128d);
   (0x1128f, 0x1129d); (0x1129f, 0x112a8); (0x112b0, 0x112ea); (0x112f0, 0x112f9); (0x11300, 0x11303);
   (0x11305, 0x1130c); (0x1130f, 0x11310); (0x11313, 0x11328); (0x1132a, 0x11330); (0x11332, 0x11333);
   (0x11335, 0x11339); (0x1133b, 0x11344); (0x11347, 0x11348); (0x1134b, 0x1134d); (0x11350, 0x11350);
   (0x11357, 0x11357); (0x1135d, 0x11363); (0x11366, 0x1136c); (0x11370, 0x11374); (0x11400, 0x1144a);
   (0x11450, 0x11459); (0x1145e, 0x11461); (0x11480, 0x114c5); (0x114c7, 0x114c7); (0x114d0, 0x114d9);
   (0x11580, 0x115b5); (0x115b8, 0x115c0); (0x115d8, 0x115dd); (0x11600, 0x11640); (0x11644, 0x11644);
   (0x11650, 0x11659); (0x11680, 0x116b8); (0x116c0, 0x116c9); (0x11700, 0x1171a); (0x1171d, 0x1172b);
   (0x11730, 0x11739); (0x11740, 0x11746); (0x11800, 0x1183a); (0x118a0, 0x118e9); (0x118ff, 0x11906);
   (0x11909, 0x11909); (0x1190c, 0x11913); (0x11915, 0x11916); (0x11918, 0x11935); (0x11937, 0x11938);
   (0x1193b, 0x11943); (0x11950, 0x11959); (0x119a0, 0x119a7); (0x119aa, 0x119d7); (0x119da, 0x119e1);
   (0x119e3, 0x119e4); (0x11a00, 0x11a3e); (0x11a47, 0x11a47); (0x11a50, 0x11a99); (0x11a9d, 0x11a9d);
   (0x11ab0, 0x11af8); (0x11c00, 0x11c08); (0x11c0a, 0x11c36); (0x11c38, 0x11c40); (0x11c50, 0x11c59);
   (0x11c72, 0x11c8f); (0x11c92, 0x11ca7); (0x11ca9, 0x11cb6); (0x11d00, 0x11d06); (0x11d08, 0x11d09);
   (0x11d0b, 0x11d36); (0x11d3a, 0x11d3a); (0x11d3c, 0x11d3d); (0x11d3f, 0x11d47); (0x11d50, 0x11d59);
   (0x11d60, 0x11d65); (0x11d67, 0x11d68); (0x11d6a, 0x11d8e); (0x11d90, 0x11d91); (0x11d93, 0x11d98);
   (0x11da0, 0x11da9); (0x11ee0, 0x11ef6); (0x11fb0, 0x11fb0); (0x12000, 0x12399); (0x12400, 0x1246e);
   (0x12480, 0x12543); (0x12f90, 0x12ff0); (0x13000, 0x1342e); (0x14400, 0x14646); (0x16800, 0x16a38);
   (0x16a40, 0x16a5e); (0x16a60, 0x16a69); (0x16a70, 0x16abe); (0x16ac0, 0x16ac9); (0x16ad0, 0x16aed);
   (0x16af0, 0x16af4); (0x16b00, 0x16b36); (0x16b40, 0x16b43); (0x16b50, 0x16b59); (0x16b63, 0x16b77);
   (0x16b7d, 0x16b8f); (0x16e40, 0x16e7f); (0x16f00, 0x16f4a); (0x16f4f, 0x16f87); (0x16f8f, 0x16f9f);
   (0x16fe0, 0x16fe1); (0x16fe3, 0x16fe4); (0x16ff0, 0x16ff1); (0x17000, 0x187f7); (0x18800, 0x18cd5);
   (0x18d00, 0x18d08); (0x1aff0, 0x1aff3); (0x1aff5, 0x1affb); (0x1affd, 0x1affe); (0x1b000, 0x1b122);
   (0x1b150, 0x1b152); (0x1b164, 0x1b167); (0x1b170, 0x1b2fb); (0x1bc00, 0x1bc6a); (0x1bc70, 0x1bc7c);
   (0x1bc80, 0x1bc88); (0x1bc90, 0x1bc99); (0x1bc9d, 0x1bc9e); (0x1cf00, 0x1cf2d); (0x1cf30, 0x1cf46);
   (0x1d165, 0x1d169); (0x1d16d, 0x1d172); (0x1d17b, 0x1d182); (0x1d185, 0x1d18b); (0x1d1aa, 0x1d1ad);
   (0x1d242, 0x1d244); (0x1d400, 0x1d454); (0x1d456, 0x1d49c); (0x1d49e, 0x1d49f); (0x1d4a2, 0x1d4a2);
   (0x1d4a5, 0x1d4a6); (0x1d4a9, 0x1d4ac); (0x1d4ae, 0x1d4b9); (0x1d4bb, 0x1d4bb); (0x1d4bd, 0x1d4c3);
   (0x1d4c5, 0x1d505); (0x1d507, 0x1d50a); (0x1d50d, 0x1d514); (0x1d516, 0x1d51c); (0x1d51e, 0x1d539);
   (0x1d53b, 0x1d53e); (0x1d540, 0x1d544); (0x1d546, 0x1d546); (0x1d54a, 0x1d550); (0x1d552, 0x1d6a5);
   (0x1d6a8, 0x1d6c0); (0x1d6c2, 0x1d6da); (0x1d6dc, 0x1d6fa); (0x1d6fc, 0x1d714); (0x1d716, 0x1d734);
   (0x1d736, 0x1d74e); (0x1d750, 0x1d76e); (0x1d770, 0x1d788); (0x1d78a, 0x1d7a8); (0x1d7aa, 0x1d7c2);
   (0x1d7c4, 0x1d7cb); (0x1d7ce, 0x1d7ff); (0x1da00, 0x1da36); (0x1da3b, 0x1da6c); (0x1da75, 0x1da75);
   (0x1da84, 0x1da84); (0x1da9b, 0x1da9f); (0x1daa1, 0x1daaf); (0x1df00, 0x1df1e); (0x1e000, 0x1e006);
   (0x1e008, 0x1e018); (0x1e01b, 0x1e021); (0x1e023, 0x1e024); (0x1e026, 0x1e02a); (0x1e100, 0x1e12c);
   (0x1e130, 0x1e13d); (0x1e140, 0x1e149); (0x1e14e, 0x1e14e); (0x1e290, 0x1e2ae); (0x1e2c0, 0x1e2f9);
   (0x1e7e0, 0x1e7e6); (0x1e7e8, 0x1e7eb); (0x1e7ed, 0x1e7ee); (0x1e7f0, 0x1e7fe); (0x1e800, 0x1e8c4);
   (0x1e8d0, 0x1e8d6); (0x1e900, 0x1e94b); (0x1e950, 0x1e959); (0x1ee00, 0x1ee03); (0x1ee05, 0x1ee1f);
   (0x1ee21, 0x1ee22); (0x1ee24, 0x1ee24); (0x1ee27, 0x1ee27); (0x1ee29, 0x1ee32); (0x1ee34, 0x1ee37);
   (0x1ee39, 0x1ee39); (0x1ee3b, 0x1ee3b); (0x1ee42, 0x1ee42); (0x1ee47, 0x1ee47); (0x1ee49, 0x1ee49);
   (0x1ee4b, 0x1ee4b); (0x1ee4d, 0x1ee4f); (0x1ee51, 0x1ee52); (0x1ee54, 0x1ee54); (0x1ee57, 0x1ee57);
   (0x1ee59, 0x1ee59); (0x1ee5b, 0x1ee5b); (0x1ee5d, 0x1ee5d); (0x1ee5f, 0x1ee5f); (0x1ee61, 0x1ee62);
   (0x1ee64, 0x1ee64); (0x1ee67, 0x1ee6a); (0x1ee6c, 0x1ee72); (0x1ee74, 0x1ee77); (0x1ee79, 0x1ee7c);
   (0x1ee7e, 0x1ee7e); (0x1ee80, 0x1ee89); (0x1ee8b, 0x1ee9b); (0x1eea1, 0x1eea3); (0x1eea5, 0x1eea9);
   (0x1eeab, 0x1eebb); (0x1fbf0, 0x1fbf9); (0x20000, 0x2a6df); (0x2a700, 0x2b738); (0x2b740, 0x2b81d);
   (0x2b820, 0x2cea1); (0x2ceb0, 0x2ebe0); (0x2f800, 0x2fa1d); (0x30000, 0x3134a); (0xe0100, 0xe01ef)].

(** Bidi_Mirrored. *)
Definition ref_bidi_mirrored : list (Z * Z) :=
  [(0x28, 0x29); (0x3c, 0x3c); (0x3e, 0x3e); (0x5b, 0x5b); (0x5d, 0x5d); (0x7b, 0x7b); (0x7d, 0x7d); (0xab, 0xab);
   (0xbb, 0xbb); (0xf3a, 0xf3d); (0x169b, 0x169c); (0x2039, 0x203a); (0x2045, 0x2046); (0x207d, 0x207e);
   (0x208d, 0x208e); (0x2140, 0x2140); (0x2201, 0x2204); (0x2208, 0x220d); (0x2211, 0x2211); (0x2215, 0x2216);
   (0x221a, 0x221d); (0x221f, 0x2222); (0x2224, 0x2224); (0x2226, 0x2226); (0x222b, 0x2233); (0x2239, 0x2239);
   (0x223b, 0x224c); (0x2252, 0x2255); (0x225f, 0x2260); (0x2262, 0x2262); (0x2264, 0x226b); (0x226e, 0x228c);
   (0x228f, 0x2292); (0x2298, 0x2298); (0x22a2, 0x22a3); (0x22a6, 0x22b8); (0x22be, 0x22bf); (0x22c9, 0x22cd);
   (0x22d0, 0x22d1); (0x22d6, 0x22ed); (0x22f0, 0x22ff); (0x2308, 0x230b); (0x2320, 0x2321); (0x2329, 0x232a);
   (0x2768, 0x2775); (0x27c0, 0x27c0); (0x27c3, 0x27c6); (0x27c8, 0x27c9); (0x27cb, 0x27cd); (0x27d3, 0x27d6);
   (0x27dc, 0x27de); (0x27e2, 0x27ef); (0x2983, 0x2998); (0x299b, 0x29a0); (0x29a2, 0x29af); (0x29b8, 0x29b8);
   (0x29c0, 0x29c5); (0x29c9, 0x29c9); (0x29ce, 0x29d2); (0x29d4, 0x29d5); (0x29d8, 0x29dc); (0x29e1, 0x29e1);
   (0x29e3, 0x29e5); (0x29e8, 0x29e9); (0x29f4, 0x29f9); (0x29fc, 0x29fd); (0x2a0a, 0x2a1c); (0x2a1e, 0x2a21);
   (0x2a24, 0x2a24); (0x2a26, 0x2a26); (0x2a29, 0x2a29); (0x2a2b, 0x2a2e); (0x2a34, 0x2a35); (0x2a3c, 0x2a3e);
   (0x2a57, 0x2a58); (0x2a64, 0x2a65); (0x2a6a, 0x2a6d); (0x2a6f, 0x2a70); (0x2a73, 0x2a74); (0x2a79, 0x2aa3);
   (0x2aa6, 0x2aad); (0x2aaf, 0x2ad6); (0x2adc, 0x2adc); (0x2ade, 0x2ade); (0x2ae2, 0x2ae6); (0x2aec, 0x2aee);
   (0x2af3, 0x2af3); (0x2af7, 0x2afb); (0x2afd, 0x2afd); (0x2bfe, 0x2bfe); (0x2e02, 0x2e05); (0x2e09, 0x2e0a);
   (0x2e0c, 0x2e0d); (0x2e1c, 0x2e1d); (0x2e20, 0x2e29); (0x2e55, 0x2e5c); (0x3008, 0x3011); (0x3014, 0x301b);
   (0xfe59, 0xfe5e); (0xfe64, 0xfe65); (0xff08, 0xff09); (0xff1c, 0xff1c); (0xff1e, 0xff1e); (0xff3b, 0xff3b);
   (0xff3d, 0xff3d); (0xff5b, 0xff5b); (0xff5d, 0xff5d); (0xff5f, 0xff60); (0xff62, 0xff63); (0x1d6db, 0x1d6db);
   (0x1d715, 0x1d715); (0x1d74f, 0x1d74f); (0x1d789, 0x1d789); (0x1d7c3, 0x1d7c3)].

(** Numeric_Value: code point, numerator and denominator in lowest terms. *)
Definition ref_numeric : list (Z * (Z * Z)) :=
  [(0x30, (0, 1)); (0x31, (1, 1)); (0x32, (2, 1)); (0x33, (3, 1)); (0x34, (4, 1)); (0x35, (5, 1)); (0x36, (6, 1));
   (0x37, (7, 1)); (0x38, (8, 1)); (0x39, (9, 1)); (0xb2, (2, 1)); (0xb3, (3, 1)); (0xb9, (1, 1)); (0xbc, (1, 4));
   (0xbd, (1, 2)); (0xbe, (3, 4)); (0x660, (0, 1)); (0x661, (1, 1)); (0x662, (2, 1)); (0x663, (3, 1)); (0x664, (4, 1));
   (0x665, (5, 1)); (0x666, (6, 1)); (0x667, (7, 1)); (0x668, (8, 1)); (0x669, (9, 1)); (0x6f0, (0, 1));
   (0x6f1, (1, 1)); (0x6f2, (2, 1)); (0x6f3, (3, 1)); (0x6f4, (4, 1)); (0x6f5, (5, 1)); (0x6f6, (6, 1));
   (0x6f7, (7, 1)); (0x6f8, (8, 1)); (0x6f9, (9, 1)); (0x7c0, (0, 1)); (0x7c1, (1, 1)); (0x7c2, (2, 1));
   (0x7c3, (3, 1)); (0x7c4, (4, 1)); (0x7c5, (5, 1)); (0x7c6, (6, 1)); (0x7c7, (7, 1)); (0x7c8, (8, 1));
   (0x7c9, (9, 1)); (0x966, (0, 1)); (0x967, (1, 1)); (0x968, (2, 1)); (0x969, (3, 1)); (0x96a, (4, 1));
   (0x96b, (5, 1)); (0x96c, (6, 1)); (0x96d, (7, 1)); (0x96e, (8, 1)); (0x96f, (9, 1)); (0x9e6, (0, 1));
   (0x9e7, (1, 1)); (0x9e8, (2, 1)); (0x9e9, (3, 1)); (0x9ea, (4, 1)); (0x9eb, (5, 1)); (0x9ec, (6, 1));
   (0x9ed, (7, 1)); (0x9ee, (8, 1)); (0x9ef, (9, 1)); (0x9f4, (1, 16)); (0x9f5, (1, 8)); (0x9f6, (3, 16));
   (0x9f7, (1, 4)); (0x9f8, (3, 4)); (0x9f9, (16, 1)); (0xa66, (0, 1)); (0xa67, (1, 1)); (0xa68, (2, 1));
   (0xa69, (3, 1)); (0xa6a, (4, 1)); (0xa6b, (5, 1)); (0xa6c, (6, 1)); (0xa6d, (7, 1)); (0xa6e, (8, 1));
   (0xa6f, (9, 1)); (0xae6, (0, 1)); (0xae7, (1, 1)); (0xae8, (2, 1)); (0xae9, (3, 1)); (0xaea, (4, 1));
   (0xaeb, (5, 1)); (0xaec, (6, 1)); (0xaed, (7, 1)); (0xaee, (8, 1)); (0xaef, (9, 1)); (0xb66, (0, 1));
   (0xb67, (1, 1)); (0xb68, (2, 1)); (0xb69, (3, 1)); (0xb6a, (4, 1)); (0xb6b, (5, 1)); (0xb6c, (6, 1));
   (0xb6d, (7, 1)); (0xb6e, (8, 1)); (0xb6f, (9, 1)); (0xb72, (1, 4)); (0xb73, (1, 2)); (0xb74, (3, 4));
   (0xb75, (1, 16)); (0xb76, (1, 8)); (0xb77, (3, 16)); (0xbe6, (0, 1)); (0xbe7, (1, 1)); (0xbe8, (2, 1));
   (0xbe9, (3, 1)); (0xbea, (4, 1)); (0xbeb, (5, 1)); (0xbec, (6, 1)); (0xbed, (7, 1)); (0xbee, (8, 1));
   (0xbef, (9, 1)); (0xbf0, (10, 1)); (0xbf1, (100, 1)); (0xbf2, (1000, 1)); (0xc66, (0, 1)); (0xc67, (1, 1));
   (0xc68, (2, 1)); (0xc69, (3, 1)); (0xc6a, (4, 1)); (0xc6b, (5, 1)); (0xc6c, (6, 1)); (0xc6d, (7, 1));
   (0xc6e, (8, 1)); (0xc6f, (9, 1)); (0xc78, (0, 1)); (0xc79, (1, 1)); (0xc7a, (2, 1)); (0xc7b, (3, 1));
   (0xc7c, (1, 1)); (0xc7d, (2, 1)); (0xc7e, (3, 1)); (0xce6, (0, 1)); (0xce7, (1, 1)); (0xce8, (2, 1));
   (0xce9, (3, 1)); (0xcea, (4, 1)); (0xceb, (5, 1)); (0xcec, (6, 1)); (0xced, (7, 1)); (0xcee, (8, 1));
   (0xcef, (9, 1)); (0xd58, (1, 160)); (0xd59, (1, 40)); (0xd5a, (3, 80)); (0xd5b, (1, 20)); (0xd5c, (1, 10));
   (0xd5d, (3, 20)); (0xd5e, (1, 5)); (0xd66, (0, 1)); (0xd67, (1, 1)); (0xd68, (2, 1)); (0xd69, (3, 1));
   (0xd6a, (4, 1)); (0xd6b, (5, 1)); (0xd6c, (6, 1)); (0xd6d, (7, 1)); (0xd6e, (8, 1)); (0xd6f, (9, 1));
   (0xd70, (10, 1)); (0xd71, (100, 1)); (0xd72, (1000, 1)); (0xd73, (1, 4)); (0xd74, (1, 2)); (0xd75, (3, 4));
   (0xd76, (1, 16)); (0xd77, (1, 8)); (0xd78, (3, 16)); (0xde6, (0, 1)); (0xde7, (1, 1)); (0xde8, (2, 1));
   (0xde9, (3, 1)); (0xdea, (4, 1)); (0xdeb, (5, 1)); (0xdec, (6, 1)); (0xded, (7, 1)); (0xdee, (8, 1));
   (0xdef, (9, 1)); (0xe50, (0, 1)); (0xe51, (1, 1)); (0xe52, (2, 1)); (0xe53, (3, 1)); (0xe54, (4, 1));
   (0xe55, (5, 1)); (0xe56, (6, 1)); (0xe57, (7, 1)); (0xe58, (8, 1)); (0xe59, (9, 1)); (0xed0, (0, 1));
   (0xed1, (1, 1)); (0xed2, (2, 1)); (0xed3, (3, 1)); (0xed4, (4, 1)); (0xed5, (5, 1)); (0xed6, (6, 1));
   (0xed7, (7, 1)); (0xed8, (8, 1)); (0xed9, (9, 1)); (0xf20, (0, 1)); (0xf21, (1, 1)); (0xf22, (2, 1));
   (0xf23, (3, 1)); (0xf24, (4, 1)); (0xf25, (5, 1)); (0xf26, (6, 1)); (0xf27, (7, 1)); (0xf28, (8, 1));
   (0xf29, (9, 1)); (0xf2a, (1, 2)); (0xf2b, (3, 2)); (0xf2c, (5, 2)); (0xf2d, (7, 2)); (0xf2e, (9, 2));
   (0xf2f, (11, 2)); (0xf30, (13, 2)); (0xf31, (15, 2)); (0xf32, (17, 2)); (0xf33, ((-1), 2)); (0x1040, (0, 1));
   (0x1041, (1, 1)); (0x1042, (2, 1)); (0x1043, (3, 1)); (0x1044, (4, 1)); (0x1045, (5, 1)); (0x1046, (6, 1));
   (0x1047, (7, 1)); (0x1048, (8, 1)); (0x1049, (9, 1)); (0x1090, (0, 1)); (0x1091, (1, 1)); (0x1092, (2, 1));
   (0x1093, (3, 1)); (0x1094, (4, 1)); (0x1095, (5, 1)); (0x1096, (6, 1)); (0x1097, (7, 1)); (0x1098, (8, 1));
   (0x1099, (9, 1)); (0x1369, (1, 1)); (0x136a, (2, 1)); (0x136b, (3, 1)); (0x136c, (4, 1)); (0x136d, (5, 1));
   (0x136e, (6, 1)); (0x136f, (7, 1)); (0x1370, (8, 1)); (0x1371, (9, 1)); (0x1372, (10, 1)); (0x1373, (20, 1));
   (0x1374, (30, 1)); (0x1375, (40, 1)); (0x1376, (50, 1)); (0x1377, (60, 1)); (0x1378, (70, 1)); (0x1379, (80, 1));
   (0x137a, (90, 1)); (0x137b, (100, 1)); (0x137c, (10000, 1)); (0x16ee, (17, 1)); (0x16ef, (18, 1)); (0x16f0, (19, 1));
   (0x17e0, (0, 1)); (0x17e1, (1, 1)); (0x17e2, (2, 1)); (0x17e3, (3, 1)); (0x17e4, (4, 1)); (0x17e5, (5, 1));
   (0x17e6, (6, 1)); (0x17e7, (7, 1)); (0x17e8, (8, 1)); (0x17e9, (9, 1)); (0x17f0, (0, 1)); (0x17f1, (1, 1));
   (0x17f2, (2, 1)); (0x17f3, (3, 1)); (0x17f4, (4, 1)); (0x17f5, (5, 1)); (0x17f6, (6, 1)); (0x17f7, (7, 1));
   (0x17f8, (8, 1)); (0x17f9, (9, 1)); (0x1810, (0, 1)); (0x1811, (1, 1)); (0x1812, (2, 1)); (0x1813, (3, 1));
   (0x1814, (4, 1)); (0x1815, (5, 1)); (0x1816, (6, 1)); (0x1817, (7, 1)); (0x1818, (8, 1)); (0x1819, (9, 1));
   (0x1946, (0, 1)); (0x1947, (1, 1)); (0x1948, (2, 1)); (0x1949, (3, 1)); (0x194a, (4, 1)); (0x194b, (5, 1));
   (0x194c, (6, 1)); (0x194d, (7, 1)); (0x194e, (8, 1)); (0x194f, (9, 1)); (0x19d0, (0, 1)); (0x19d1, (1, 1));
   (0x19d2, (2, 1)); (0x19d3, (3, 1)); (0x19d4, (4, 1)); (0x19d5, (5, 1)); (0x19d6, (6, 1)); (0x19d7, (7, 1));
   (0x19d8, (8, 1)); (0x19d9, (9, 1)); (0x19da, (1, 1)); (0x1a80, (0, 1)); (0x1a81, (1, 1)); (0x1a82, (2, 1));
   (0x1a83, (3, 1)); (0x1a84, (4, 1)); (0x1a85, (5, 1)); (0x1a86, (6, 1)); (0x1a87, (7, 1)); (0x1a88, (8, 1));
   (0x1a89, (9, 1)); (0x1a90, (0, 1)); (0x1a91, (1, 1)); (0x1a92, (2, 1)); (0x1a93, (3, 1)); (0x1a94, (4, 1));
   (0x1a95, (5, 1)); (0x1a96, (6, 1)); (0x1a97, (7, 1)); (0x1a98, (8, 1)); (0x1a99, (9, 1)); (0x1b50, (0, 1));
   (0x1b51, (1, 1)); (0x1b52, (2, 1)); (0x1b53, (3, 1)); (0x1b54, (4, 1)); (0x1b55, (5, 1)); (0x1b56, (6, 1));
   (0x1b57, (7, 1)); (0x1b58, (8, 1)); (0x1b59, (9, 1)); (0x1bb0, (0, 1)); (0x1bb1, (1, 1)); (0x1bb2, (2, 1));
   (0x1bb3, (3, 1)); (0x1bb4, (4, 1)); (0x1bb5, (5, 1)); (0x1bb6, (6, 1)); (0x1bb7, (7, 1)); (0x1bb8, (8, 1));
   (0x1bb9, (9, 1)); (0x1c40, (0, 1)); (0x1c41, (1, 1)); (0x1c42, (2, 1)); (0x1c43, (3, 1)); (0x1c44, (4, 1));
   (0x1c45, (5, 1)); (0x1c46, (6, 1)); (0x1c47, (7, 1)); (0x1c48, (8, 1)); (0x1c49, (9, 1)); (0x1c50, (0, 1));
   (0x1c51, (1, 1)); (0x1c52, (2, 1)); (0x1c53, (3, 1)); (0x1c54, (4, 1)); (0x1c55, (5, 1)); (0x1c56, (6, 1));
   (0x1c57, (7, 1)); (0x1c58, (8, 1)); (0x1c59, (9, 1)); (0x2070, (0, 1)); (0x2074, (4, 1)); (0x2075, (5, 1));
   (0x2076, (6, 1)); (0x2077, (7, 1)); (0x2078, (8, 1)); (0x2079, (9, 1)); (0x2080, (0, 1)); (0x2081, (1, 1));
   (0x2082, (2, 1)); (0x2083, (3, 1)); (0x2084, (4, 1)); (0x2085, (5, 1)); (0x2086, (6, 1)); (0x2087, (7, 1));
   (0x2088, (8, 1)); (0x2089, (9, 1)); (0x2150, (1, 7)); (0x2151, (1, 9)); (0x2152, (1, 10)); (0x2153, (1, 3));
   (0x2154, (2, 3)); (0x2155, (1, 5)); (0x2156, (2, 5)); (0x2157, (3, 5)); (0x2158, (4, 5)); (0x2159, (1, 6));
   (0x215a, (5, 6)); (0x215b, (1, 8)); (0x215c, (3, 8)); (0x215d, (5, 8)); (0x215e, (7, 8)); (0x215f, (1, 1));
   (0x2160, (1, 1)); (0x2161, (2, 1)); (0x2162, (3, 1)); (0x2163, (4, 1)); (0x2164, (5, 1)); (0x2165, (6, 1));
   (0x2166, (7, 1)); (0x2167, (8, 1)); (0x2168, (9, 1)); (0x2169, (10, 1)); (0x216a, (11, 1)); (0x216b, (12, 1));
   (0x216c, (50, 1)); (0x216d, (100, 1)); (0x216e, (500, 1)); (0x216f, (1000, 1)); (0x2170, (1, 1)); (0x2171, (2, 1));
   (0x2172, (3, 1)); (0x2173, (4, 1)); (0x2174, (5, 1)); (0x2175, (6, 1)); (0x2176, (7, 1)); (0x2177, (8, 1));
   (0x2178, (9, 1)); (0x2179, (10, 1)); (0x217a, (11, 1)); (0x217b, (12, 1)); (0x217c, (50, 1)); (0x217d, (100, 1));
   (0x217e, (500, 1)); (0x217f, (1000, 1)); (0x2180, (1000, 1)); (0x2181, (5000, 1)); (0x2182, (10000, 1));
   (0x2185, (6, 1)); (0x2186, (50, 1)); (0x2187, (50000, 1)); (0x2188, (100000, 1)); (0x2189, (0, 1)); (0x2460, (1, 1));
   (0x2461, (2, 1)); (0x2462, (3, 1)); (0x2463, (4, 1)); (0x2464, (5, 1)); (0x2465, (6, 1)); (0x2466, (7, 1));
   (0x2467, (8, 1)); (0x2468, (9, 1)); (0x2469, (10, 1)); (0x246a, (11, 1)); (0x246b, (12, 1)); (0x246c, (13, 1));
   (0x246d, (14, 1)); (0x246e, (15, 1)); (0x246f, (16, 1)); (0x2470, (17, 1)); (0x2471, (18, 1)); (0x2472, (19, 1));
   (0x2473, (20, 1)); (0x2474, (1, 1)); (0x2475, (2, 1)); (0x2476, (3, 1)); (0x2477, (4, 1)); (0x2478, (5, 1));
   (0x2479, (6, 1)); (0x247a, (7, 1)); (0x247b, (8, 1)); (0x247c, (9, 1)); (0x247d, (10, 1)); (0x247e, (11, 1));
   (0x247f, (12, 1)); (0x2480, (13, 1)); (0x2481, (14, 1)); (0x2482, (15, 1)); (0x2483, (16, 1)); (0x2484, (17, 1));
   (0x2485, (18, 1)); (0x2486, (19, 1)); (0x2487, (20, 1)); (0x2488, (1, 1)); (0x2489, (2, 1)); (0x248a, (3, 1));
   (0x248b, (4, 1)); (0x248c, (5, 1)); (0x248d, (6, 1)); (0x248e, (7, 1)); (0x248f, (8, 1)); (0x2490, (9, 1));
   (0x2491, (10, 1)); (0x2492, (11, 1)); (0x2493, (12, 1)); (0x2494, (13, 1)); (0x2495, (14, 1)); (0x2496, (15, 1));
   (0x2497, (16, 1)); (0x2498, (17, 1)); (0x2499, (18, 1)); (0x249a, (19, 1)); (0x249b, (20, 1)); (0x24ea, (0, 1));
   (0x24eb, (11, 1)); (0x24ec, (12, 1)); (0x24ed, (13, 1)); (0x24ee, (14, 1)); (0x24ef, (15, 1)); (0x24f0, (16, 1));
   (0x24f1, (17, 1)); (0x24f2, (18, 1)); (0x24f3, (19, 1)); (0x24f4, (20, 1)); (0x24f5, (1, 1)); (0x24f6, (2, 1));
   (0x24f7, (3, 1)); (0x24f8, (4, 1)); (0x24f9, (5, 1)); (0x24fa, (6, 1)); (0x24fb, (7, 1)); (0x24fc, (8, 1));
   (0x24fd, (9, 1)); (0x24fe, (10, 1)); (0x24ff, (0, 1)); (0x2776, (1, 1)); (0x2777, (2, 1)); (0x2778, (3, 1));
   (0x2779, (4, 1)); (0x277a, (5, 1)); (0x277b, (6, 1)); (0x277c, (7, 1)); (0x277d, (8, 1)); (0x277e, (9, 1));
   (0x277f, (10, 1)); (0x2780, (1, 1)); (0x2781, (2, 1)); (0x2782, (3, 1)); (0x2783, (4, 1)); (0x2784, (5, 1));
   (0x2785, (6, 1)); (0x2786, (7, 1)); (0x2787, (8, 1)); (0x2788, (9, 1)); (0x2789, (10, 1)); (0x278a, (1, 1));
   (0x278b, (2, 1)); (0x278c, (3, 1)); (0x278d, (4, 1)); (0x278e, (5, 1)); (0x278f, (6, 1)); (0x2790, (7, 1));
   (0x2791, (8, 1)); (0x2792, (9, 1)); (0x2793, (10, 1)); (0x2cfd, (1, 2)); (0x3007, (0, 1)); (0x3021, (1, 1));
   (0x3022, (2, 1)); (0x3023, (3, 1)); (0x3024, (4, 1)); (0x3025, (5, 1)); (0x3026, (6, 1)); (0x3027, (7, 1));
   (0x3028, (8, 1)); (0x3029, (9, 1)); (0x3038, (10, 1)); (0x3039, (20, 1)); (0x303a, (30, 1)); (0x3192, (1, 1));
   (0x3193, (2, 1)); (0x3194, (3, 1)); (0x3195, (4, 1)); (0x3220, (1, 1)); (0x3221, (2, 1)); (0x3222, (3, 1));
   (0x3223, (4, 1)); (0x3224, (5, 1)); (0x3225, (6, 1)); (0x3226, (7, 1)); (0x3227, (8, 1)); (0x3228, (9, 1));
   (0x3229, (10, 1)); (0x3248, (10, 1)); (0x3249, (20, 1)); (0x324a, (30, 1)); (0x324b, (40, 1)); (0x324c, (50, 1));
   (0x324d, (60, 1)); (0x324e, (70, 1)); (0x324f, (80, 1)); (0x3251, (21, 1)); (0x3252, (22, 1)); (0x3253, (23, 1));
   (0x3254, (24, 1)); (0x3255, (25, 1)); (0x3256, (26, 1)); (0x3257, (27, 1)); (0x3258, (28, 1)); (0x3259, (29, 1));
   (0x325a, (30, 1)); (0x325b, (31, 1)); (0x325c, (32, 1)); (0x325d, (33, 1)); (0x325e, (34, 1)); (0x325f, (35, 1));
   (0x3280, (1, 1)); (0x3281, (2, 1)); (0x3282, (3, 1)); (0x3283, (4, 1)); (0x3284, (5, 1)); (0x3285, (6, 1));
   (0x3286, (7, 1)); (0x3287, (8, 1)); (0x3288, (9, 1)); (0x3289, (10, 1)); (0x32b1, (36, 1)); (0x32b2, (37, 1));
   (0x32b3, (38, 1)); (0x32b4, (39, 1)); (0x32b5, (40, 1)); (0x32b6, (41, 1)); (0x32b7, (42, 1)); (0x32b8, (43, 1));
   (0x32b9, (44, 1)); (0x32ba, (45, 1)); (0x32bb, (46, 1)); (0x32bc, (47, 1)); (0x32bd, (48, 1)); (0x32be, (49, 1));
   (0x32bf, (50, 1)); (0x3405, (5, 1)); (0x3483, (2, 1)); (0x382a, (5, 1)); (0x3b4d, (7, 1)); (0x4e00, (1, 1));
   (0x4e03, (7, 1)); (0x4e07, (10000, 1)); (0x4e09, (3, 1)); (0x4e5d, (9, 1)); (0x4e8c, (2, 1)); (0x4e94, (5, 1));
   (0x4e96, (4, 1)); (0x4ebf, (100000000, 1)); (0x4ec0, (10, 1)); (0x4edf, (1000, 1)); (0x4ee8, (3, 1));
   (0x4f0d, (5, 1)); (0x4f70, (100, 1)); (0x5104, (100000000, 1)); (0x5146, (1000000000000, 1)); (0x5169, (2, 1));
   (0x516b, (8, 1)); (0x516d, (6, 1)); (0x5341, (10, 1)); (0x5343, (1000, 1)); (0x5344, (20, 1)); (0x5345, (30, 1));
   (0x534c, (40, 1)); (0x53c1, (3, 1)); (0x53c2, (3, 1)); (0x53c3, (3, 1)); (0x53c4, (3, 1)); (0x56db, (4, 1));
   (0x58f1, (1, 1)); (0x58f9, (1, 1)); (0x5e7a, (1, 1)); (0x5efe, (9, 1)); (0x5eff, (20, 1)); (0x5f0c, (1, 1));
   (0x5f0d, (2, 1)); (0x5f0e, (3, 1)); (0x5f10, (2, 1)); (0x62fe, (10, 1)); (0x634c, (8, 1)); (0x67d2, (7, 1));
   (0x6f06, (7, 1)); (0x7396, (9, 1)); (0x767e, (100, 1)); (0x8086, (4, 1)); (0x842c, (10000, 1)); (0x8cae, (2, 1));
   (0x8cb3, (2, 1)); (0x8d30, (2, 1)); (0x9621, (1000, 1)); (0x9646, (6, 1)); (0x964c, (100, 1)); (0x9678, (6, 1));
   (0x96f6, (0, 1)); (0xa620, (0, 1)); (0xa621, (1, 1)); (0xa622, (2, 1)); (0xa623, (3, 1)); (0xa624, (4, 1));
   (0xa625, (5, 1)); (0xa626, (6, 1)); (0xa627, (7, 1)); (0xa628, (8, 1)); (0xa629, (9, 1)); (0xa6e6, (1, 1));
   (0xa6e7, (2, 1)); (0xa6e8, (3, 1)); (0xa6e9, (4, 1)); (0xa6ea, (5, 1)); (0xa6eb, (6, 1)); (0xa6ec, (7, 1));
   (0xa6ed, (8, 1)); (0xa6ee, (9, 1)); (0xa6ef, (0, 1)); (0xa830, (1, 4)); (0xa831, (1, 2)); (0xa832, (3, 4));
   (0xa833, (1, 16)); (0xa834, (1, 8)); (0xa835, (3, 16)); (0xa8d0, (0, 1)); (0xa8d1, (1, 1)); (0xa8d2, (2, 1));
   (0xa8d3, (3, 1)); (0xa8d4, (4, 1)); (0xa8d5, (5, 1)); (0xa8d6, (6, 1)); (0xa8d7, (7, 1)); (0xa8d8, (8, 1));
   (0xa8d9, (9, 1)); (0xa900, (0, 1)); (0xa901, (1, 1)); (0xa902, (2, 1)); (0xa903, (3, 1)); (0xa904, (4, 1));
   (0xa905, (5, 1)); (0xa906, (6, 1)); (0xa907, (7, 1)); (0xa908, (8, 1)); (0xa909, (9, 1)); (0xa9d0, (0, 1));
   (0xa9d1, (1, 1)); (0xa9d2, (2, 1)); (0xa9d3, (3, 1)); (0xa9d4, (4, 1)); (0xa9d5, (5, 1)); (0xa9d6, (6, 1));
   (0xa9d7, (7, 1)); (0xa9d8, (8, 1)); (0xa9d9, (9, 1)); (0xa9f0, (0, 1)); (0xa9f1, (1, 1)); (0xa9f2, (2, 1));
   (0xa9f3, (3, 1)); (0xa9f4, (4, 1)); (0xa9f5, (5, 1)); (0xa9f6, (6, 1)); (0xa9f7, (7, 1)); (0xa9f8, (8, 1));
   (0xa9f9, (9, 1)); (0xaa50, (0, 1)); (0xaa51, (1, 1)); (0xaa52, (2, 1)); (0xaa53, (3, 1)); (0xaa54, (4, 1));
   (0xaa55, (5, 1)); (0xaa56, (6, 1)); (0xaa57, (7, 1)); (0xaa58, (8, 1)); (0xaa59, (9, 1)); (0xabf0, (0, 1));
   (0xabf1, (1, 1)); (0xabf2, (2, 1)); (0xabf3, (3, 1)); (0xabf4, (4, 1)); (0xabf5, (5, 1)); (0xabf6, (6, 1));
   (0xabf7, (7, 1)); (0xabf8, (8, 1)); (0xabf9, (9, 1)); (0xf96b, (3, 1)); (0xf973, (10, 1)); (0xf978, (2, 1));
   (0xf9b2, (0, 1)); (0xf9d1, (6, 1)); (0xf9d3, (6, 1)); (0xf9fd, (10, 1)); (0xff10, (0, 1)); (0xff11, (1, 1));
   (0xff12, (2, 1)); (0xff13, (3, 1)); (0xff14, (4, 1)); (0xff15, (5, 1)); (0xff16, (6, 1)); (0xff17, (7, 1));
   (0xff18, (8, 1)); (0xff19, (9, 1)); (0x10107, (1, 1)); (0x10108, (2, 1)); (0x10109, (3, 1)); (0x1010a, (4, 1));
   (0x1010b, (5, 1)); (0x1010c, (6, 1)); (0x1010d, (7, 1)); (0x1010e, (8, 1)); (0x1010f, (9, 1)); (0x10110, (10, 1));
   (0x10111, (20, 1)); (0x10112, (30, 1)); (0x10113, (40, 1)); (0x10114, (50, 1)); (0x10115, (60, 1));
   (0x10116, (70, 1)); (0x10117, (80, 1)); (0x10118, (90, 1)); (0x10119, (100, 1)); (0x1011a, (200, 1));
   (0x1011b, (300, 1)); (0x1011c, (400, 1)); (0x1011d, (500, 1)); (0x1011e, (600, 1)); (0x1011f, (700, 1));
   (0x10120, (800, 1)); (0x10121, (900, 1)); (0x10122, (1000, 1)); (0x10123, (2000, 1)); (0x10124, (3000, 1));
   (0x10125, (4000, 1)); (0x10126, (5000, 1)); (0x10127, (6000, 1)); (0x10128, (7000, 1)); (0x10129, (8000, 1));
   (0x1012a, (9000, 1)); (0x1012b, (10000, 1)); (0x1012c, (20000, 1)); (0x1012d, (30000, 1)); (0x1012e, (40000, 1));
   (0x1012f, (50000, 1)); (0x10130, (60000, 1)); (0x10131, (70000, 1)); (0x10132, (80000, 1)); (0x10133, (90000, 1));
   (0x10140, (1, 4)); (0x10141, (1, 2)); (0x10142, (1, 1)); (0x10143, (5, 1)); (0x10144, (50, 1)); (0x10145, (500, 1));
   (0x10146, (5000, 1)); (0x10147, (50000, 1)); (0x10148, (5, 1)); (0x10149, (10, 1)); (0x1014a, (50, 1));
   (0x1014b, (100, 1)); (0x1014c, (500, 1)); (0x1014d, (1000, 1)); (0x1014e, (5000, 1)); (0x1014f, (5, 1));
   (0x10150, (10, 1)); (0x10151, (50, 1)); (0x10152, (100, 1)); (0x10153, (500, 1)); (0x10154, (1000, 1));
   (0x10155, (10000, 1)); (0x10156, (50000, 1)); (0x10157, (10, 1)); (0x10158, (1, 1)); (0x10159, (1, 1));
   (0x1015a, (1, 1)); (0x1015b, (2, 1)); (0x1015c, (2, 1)); (0x1015d, (2, 1)); (0x1015e, (2, 1)); (0x1015f, (5, 1));
   (0x10160, (10, 1)); (0x10161, (10, 1)); (0x10162, (10, 1)); (0x10163, (10, 1)); (0x10164, (10, 1));
   (0x10165, (30, 1)); (0x10166, (50, 1)); (0x10167, (50, 1)); (0x10168, (50, 1)); (0x10169, (50, 1));
   (0x1016a, (100, 1)); (0x1016b, (300, 1)); (0x1016c, (500, 1)); (0x1016d, (500, 1)); (0x1016e, (500, 1));
   (0x1016f, (500, 1)); (0x10170, (500, 1)); (0x10171, (1000, 1)); (0x10172, (5000, 1)); (0x10173, (5, 1));
   (0x10174, (50, 1)); (0x10175, (1, 2)); (0x10176, (1, 2)); (0x10177, (2, 3)); (0x10178, (3, 4)); (0x1018a, (0, 1));
   (0x1018b, (1, 4)); (0x102e1, (1, 1)); (0x102e2, (2, 1)); (0x102e3, (3, 1)); (0x102e4, (4, 1)); (0x102e5, (5, 1));
   (0x102e6, (6, 1)); (0x102e7, (7, 1)); (0x102e8, (8, 1)); (0x102e9, (9, 1)); (0x102ea, (10, 1)); (0x102eb, (20, 1));
   (0x102ec, (30, 1)); (0x102ed, (40, 1)); (0x102ee, (50, 1)); (0x102ef, (60, 1)); (0x102f0, (70, 1));
   (0x102f1, (80, 1)); (0x102f2, (90, 1)); (0x102f3, (100, 1)); (0x102f4, (200, 1)); (0x102f5, (300, 1));
   (0x102f6, (400, 1)); (0x102f7, (500, 1)); (0x102f8, (600, 1)); (0x102f9, (700, 1)); (0x102fa, (800, 1));
   (0x102fb, (900, 1)); (0x10320, (1, 1)); (0x10321, (5, 1)); (0x10322, (10, 1)); (0x10323, (50, 1));
   (0x10341, (90, 1)); (0x1034a, (900, 1)); (0x103d1, (1, 1)); (0x103d2, (2, 1)); (0x103d3, (10, 1));
   (0x103d4, (20, 1)); (0x103d5, (100, 1)); (0x104a0, (0, 1)); (0x104a1, (1, 1)); (0x104a2, (2, 1)); (0x104a3, (3, 1));
   (0x104a4, (4, 1)); (0x104a5, (5, 1)); (0x104a6, (6, 1)); (0x104a7, (7, 1)); (0x104a8, (8, 1)); (0x104a9, (9, 1));
   (0x10858, (1, 1)); (0x10859, (2, 1)); (0x1085a, (3, 1)); (0x1085b, (10, 1)); (0x1085c, (20, 1)); (0x1085d, (100, 1));
   (0x1085e, (1000, 1)); (0x1085f, (10000, 1)); (0x10879, (1, 1)); (0x1087a, (2, 1)); (0x1087b, (3, 1));
   (0x1087c, (4, 1)); (0x1087d, (5, 1)); (0x1087e, (10, 1)); (0x1087f, (20, 1)); (0x108a7, (1, 1)); (0x108a8, (2, 1));
   (0x108a9, (3, 1)); (0x108aa, (4, 1)); (0x108ab, (4, 1)); (0x108ac, (5, 1)); (0x108ad, (10, 1)); (0x108ae, (20, 1));
   (0x108af, (100, 1)); (0x108fb, (1, 1)); (0x108fc, (5, 1)); (0x108fd, (10, 1)); (0x108fe, (20, 1));
   (0x108ff, (100, 1)); (0x10916, (1, 1)); (0x10917, (10, 1)); (0x10918, (20, 1)); (0x10919, (100, 1));
   (0x1091a, (2, 1)); (0x1091b, (3, 1)); (0x109bc, (11, 12)); (0x109bd, (1, 2)); (0x109c0, (1, 1)); (0x109c1, (2, 1));
   (0x109c2, (3, 1)); (0x109c3, (4, 1)); (0x109c4, (5, 1)); (0x109c5, (6, 1)); (0x109c6, (7, 1)); (0x109c7, (8, 1));
   (0x109c8, (9, 1)); (0x109c9, (10, 1)); (0x109ca, (20, 1)); (0x109cb, (30, 1)); (0x109cc, (40, 1));
   (0x109cd, (50, 1)); (0x109ce, (60, 1)); (0x109cf, (70, 1)); (0x109d2, (100, 1)); (0x109d3, (200, 1));
   (0x109d4, (300, 1)); (0x109d5, (400, 1)); (0x109d6, (500, 1)); (0x109d7, (600, 1)); (0x109d8, (700, 1));
   (0x109d9, (800, 1)); (0x109da, (900, 1)); (0x109db, (1000, 1)); (0x109dc, (2000, 1)); (0x109dd, (3000, 1));
   (0x109de, (4000, 1)); (0x109df, (5000, 1)); (0x109e0, (6000, 1)); (0x109e1, (7000, 1)); (0x109e2, (8000, 1));
   (0x109e3, (9000, 1)); (0x109e4, (10000, 1)); (0x109e5, (20000, 1)); (0x109e6, (30000, 1)); (0x109e7, (40000, 1));
   (0x109e8, (50000, 1)); (0x109e9, (60000, 1)); (0x109ea, (70000, 1)); (0x109eb, (80000, 1)); (0x109ec, (90000, 1));
   (0x109ed, (100000, 1)); (0x109ee, (200000, 1)); (0x109ef, (300000, 1)); (0x109f0, (400000, 1));
   (0x109f1, (500000, 1)); (0x109f2, (600000, 1)); (0x109f3, (700000, 1)); (0x109f4, (800000, 1));
   (0x109f5, (900000, 1)); (0x109f6, (1, 12)); (0x109f7, (1, 6)); (0x109f8, (1, 4)); (0x109f9, (1, 3));
   (0x109fa, (5, 12)); (0x109fb, (1, 2)); (0x109fc, (7, 12)); (0x109fd, (2, 3)); (0x109fe, (3, 4)); (0x109ff, (5, 6));
   (0x10a40, (1, 1)); (0x10a41, (2, 1)); (0x10a42, (3, 1)); (0x10a43, (4, 1)); (0x10a44, (10, 1)); (0x10a45, (20, 1));
   (0x10a46, (100, 1)); (0x10a47, (1000, 1)); (0x10a48, (1, 2)); (0x10a7d, (1, 1)); (0x10a7e, (50, 1));
   (0x10a9d, (1, 1)); (0x10a9e, (10, 1)); (0x10a9f, (20, 1)); (0x10aeb, (1, 1)); (0x10aec, (5, 1)); (0x10aed, (10, 1));
   (0x10aee, (20, 1)); (0x10aef, (100, 1)); (0x10b58, (1, 1)); (0x10b59, (2, 1)); (0x10b5a, (3, 1)); (0x10b5b, (4, 1));
   (0x10b5c, (10, 1)); (0x10b5d, (20, 1)); (0x10b5e, (100, 1)); (0x10b5f, (1000, 1)); (0x10b78, (1, 1));
   (0x10b79, (2, 1)); (0x10b7a, (3, 1)); (0x10b7b, (4, 1)); (0x10b7c, (10, 1)); (0x10b7d, (20, 1)); (0x10b7e, (100, 1));
   (0x10b7f, (1000, 1)); (0x10ba9, (1, 1)); (0x10baa, (2, 1)); (0x10bab, (3, 1)); (0x10bac, (4, 1)); (0x10bad, (10, 1));
   (0x10bae, (20, 1)); (0x10baf, (100, 1)); (0x10cfa, (1, 1)); (0x10cfb, (5, 1)); (0x10cfc, (10, 1));
   (0x10cfd, (50, 1)); (0x10cfe, (100, 1)); (0x10cff, (1000, 1)); (0x10d30, (0, 1)); (0x10d31, (1, 1));
   (0x10d32, (2, 1)); (0x10d33, (3, 1)); (0x10d34, (4, 1)); (0x10d35, (5, 1)); (0x10d36, (6, 1)); (0x10d37, (7, 1));
   (0x10d38, (8, 1)); (0x10d39, (9, 1)); (0x10e60, (1, 1)); (0x10e61, (2, 1)); (0x10e62, (3, 1)); (0x10e63, (4, 1));
   (0x10e64, (5, 1)); (0x10e65, (6, 1)); (0x10e66, (7, 1)); (0x10e67, (8, 1)); (0x10e68, (9, 1)); (0x10e69, (10, 1));
   (0x10e6a, (20, 1)); (0x10e6b, (30, 1)); (0x10e6c, (40, 1)); (0x10e6d, (50, 1)); (0x10e6e, (60, 1));
   (0x10e6f, (70, 1)); (0x10e70, (80, 1)); (0x10e71, (90, 1)); (0x10e72, (100, 1)); (0x10e73, (200, 1));
   (0x10e74, (300, 1)); (0x10e75, (400, 1)); (0x10e76, (500, 1)); (0x10e77, (600, 1)); (0x10e78, (700, 1));
   (0x10e79, (800, 1)); (0x10e7a, (900, 1)); (0x10e7b, (1, 2)); (0x10e7c, (1, 4)); (0x10e7d, (1, 3)); (0x10e7e, (2, 3));
   (0x10f1d, (1, 1)); (0x10f1e, (2, 1)); (0x10f1f, (3, 1)); (0x10f20, (4, 1)); (0x10f21, (5, 1)); (0x10f22, (10, 1));
   (0x10f23, (20, 1)); (0x10f24, (30, 1)); (0x10f25, (100, 1)); (0x10f26, (1, 2)); (0x10f51, (1, 1));
   (0x10f52, (10, 1)); (0x10f53, (20, 1)); (0x10f54, (100, 1)); (0x10fc5, (1, 1)); (0x10fc6, (2, 1)); (0x10fc7, (3, 1));
   (0x10fc8, (4, 1)); (0x10fc9, (10, 1)); (0x10fca, (20, 1)); (0x10fcb, (100, 1)); (0x11052, (1, 1)); (0x11053, (2, 1));
   (0x11054, (3, 1)); (0x11055, (4, 1)); (0x11056, (5, 1)); (0x11057, (6, 1)); (0x11058, (7, 1)); (0x11059, (8, 1));
   (0x1105a, (9, 1)); (0x1105b, (10, 1)); (0x1105c, (20, 1)); (0x1105d, (30, 1)); (0x1105e, (40, 1));
   (0x1105f, (50, 1)); (0x11060, (60, 1)); (0x11061, (70, 1)); (0x11062, (80, 1)); (0x11063, (90, 1));
   (0x11064, (100, 1)); (0x11065, (1000, 1)); (0x11066, (0, 1)); (0x11067, (1, 1)); (0x11068, (2, 1));
   (0x11069, (3, 1)); (0x1106a, (4, 1)); (0x1106b, (5, 1)); (0x1106c, (6, 1)); (0x1106d, (7, 1)); (0x1106e, (8, 1));
   (0x1106f, (9, 1)); (0x110f0, (0, 1)); (0x110f1, (1, 1)); (0x110f2, (2, 1)); (0x110f3, (3, 1)); (0x110f4, (4, 1));
   (0x110f5, (5, 1)); (0x110f6, (6, 1)); (0x110f7, (7, 1)); (0x110f8, (8, 1)); (0x110f9, (9, 1)); (0x11136, (0, 1));
   (0x11137, (1, 1)); (0x11138, (2, 1)); (0x11139, (3, 1)); (0x1113a, (4, 1)); (0x1113b, (5, 1)); (0x1113c, (6, 1));
   (0x1113d, (7, 1)); (0x1113e, (8, 1)); (0x1113f, (9, 1)); (0x111d0, (0, 1)); (0x111d1, (1, 1)); (0x111d2, (2, 1));
   (0x111d3, (3, 1)); (0x111d4, (4, 1)); (0x111d5, (5, 1)); (0x111d6, (6, 1)); (0x111d7, (7, 1)); (0x111d8, (8, 1));
   (0x111d9, (9, 1)); (0x111e1, (1, 1)); (0x111e2, (2, 1)); (0x111e3, (3, 1)); (0x111e4, (4, 1)); (0x111e5, (5, 1));
   (0x111e6, (6, 1)); (0x111e7, (7, 1)); (0x111e8, (8, 1)); (0x111e9, (9, 1)); (0x111ea, (10, 1)); (0x111eb, (20, 1));
   (0x111ec, (30, 1)); (0x111ed, (40, 1)); (0x111ee, (50, 1)); (0x111ef, (60, 1)); (0x111f0, (70, 1));
   (0x111f1, (80, 1)); (0x111f2, (90, 1)); (0x111f3, (100, 1)); (0x111f4, (1000, 1)); (0x112f0, (0, 1));
   (0x112f1, (1, 1)); (0x112f2, (2, 1)); (0x112f3, (3, 1)); (0x112f4, (4, 1)); (0x112f5, (5, 1)); (0x112f6, (6, 1));
   (0x112f7, (7, 1)); (0x112f8, (8, 1)); (0x112f9, (9, 1)); (0x11450, (0, 1)); (0x11451, (1, 1)); (0x11452, (2, 1));
   (0x11453, (3, 1)); (0x11454, (4, 1)); (0x11455, (5, 1)); (0x11456, (6, 1)); (0x11457, (7, 1)); (0x11458, (8, 1));
   (0x11459, (9, 1)); (0x114d0, (0, 1)); (0x114d1, (1, 1)); (0x114d2, (2, 1)); (0x114d3, (3, 1)); (0x114d4, (4, 1));
   (0x114d5, (5, 1)); (0x114d6, (6, 1)); (0x114d7, (7, 1)); (0x114d8, (8, 1)); (0x114d9, (9, 1)); (0x11650, (0, 1));
   (0x11651, (1, 1)); (0x11652, (2, 1)); (0x11653, (3, 1)); (0x11654, (4, 1)); (0x11655, (5, 1)); (0x11656, (6, 1));
   (0x11657, (7, 1)); (0x11658, (8, 1)); (0x11659, (9, 1)); (0x116c0, (0, 1)); (0x116c1, (1, 1)); (0x116c2, (2, 1));
   (0x116c3, (3, 1)); (0x116c4, (4, 1)); (0x116c5, (5, 1)); (0x116c6, (6, 1)); (0x116c7, (7, 1)); (0x116c8, (8, 1));
   (0x116c9, (9, 1)); (0x11730, (0, 1)); (0x11731, (1, 1)); (0x11732, (2, 1)); (0x11733, (3, 1)); (0x11734, (4, 1));
   (0x11735, (5, 1)); (0x11736, (6, 1)); (0x11737, (7, 1)); (0x11738, (8, 1)); (0x11739, (9, 1)); (0x1173a, (10, 1));
   (0x1173b, (20, 1)); (0x118e0, (0, 1)); (0x118e1, (1, 1)); (0x118e2, (2, 1)); (0x118e3, (3, 1)); (0x118e4, (4, 1));
   (0x118e5, (5, 1)); (0x118e6, (6, 1)); (0x118e7, (7, 1)); (0x118e8, (8, 1)); (0x118e9, (9, 1)); (0x118ea, (10, 1));
   (0x118eb, (20, 1)); (0x118ec, (30, 1)); (0x118ed, (40, 1)); (0x118ee, (50, 1)); (0x118ef, (60, 1));
   (0x118f0, (70, 1)); (0x118f1, (80, 1)); (0x118f2, (90, 1)); (0x11950, (0, 1)); (0x11951, (1, 1)); (0x11952, (2, 1));
   (0x11953, (3, 1)); (0x11954, (4, 1)); (0x11955, (5, 1)); (0x11956, (6, 1)); (0x11957, (7, 1)); (0x11958, (8, 1));
   (0x11959, (9, 1)); (0x11c50, (0, 1)); (0x11c51, (1, 1)); (0x11c52, (2, 1)); (0x11c53, (3, 1)); (0x11c54, (4, 1));
   (0x11c55, (5, 1)); (0x11c56, (6, 1)); (0x11c57, (7, 1)); (0x11c58, (8, 1)); (0x11c59, (9, 1)); (0x11c5a, (1, 1));
   (0x11c5b, (2, 1)); (0x11c5c, (3, 1)); (0x11c5d, (4, 1)); (0x11c5e, (5, 1)); (0x11c5f, (6, 1)); (0x11c60, (7, 1));
   (0x11c61, (8, 1)); (0x11c62, (9, 1)); (0x11c63, (10, 1)); (0x11c64, (20, 1)); (0x11c65, (30, 1)); (0x11c66, (40, 1));
   (0x11c67, (50, 1)); (0x11c68, (60, 1)); (0x11c69, (70, 1)); (0x11c6a, (80, 1)); (0x11c6b, (90, 1));
   (0x11c6c, (100, 1)); (0x11d50, (0, 1)); (0x11d51, (1, 1)); (0x11d52, (2, 1)); (0x11d53, (3, 1)); (0x11d54, (4, 1));
   (0x11d55, (5, 1)); (0x11d56, (6, 1)); (0x11d57, (7, 1)); (0x11d58, (8, 1)); (0x11d59, (9, 1)); (0x11da0, (0, 1));
   (0x11da1, (1, 1)); (0x11da2, (2, 1)); (0x11da3, (3, 1)); (0x11da4, (4, 1)); (0x11da5, (5, 1)); (0x11da6, (6, 1));
   (0x11da7, (7, 1)); (0x11da8, (8, 1)); (0x11da9, (9, 1)); (0x11fc0, (1, 320)); (0x11fc1, (1, 160));
   (0x11fc2, (1, 80)); (0x11fc3, (1, 64)); (0x11fc4, (1, 40)); (0x11fc5, (1, 32)); (0x11fc6, (3, 80));
   (0x11fc7, (3, 64)); (0x11fc8, (1, 20)); (0x11fc9, (1, 16)); (0x11fca, (1, 16)); (0x11fcb, (1, 10));
   (0x11fcc, (1, 8)); (0x11fcd, (3, 20)); (0x11fce, (3, 16)); (0x11fcf, (1, 5)); (0x11fd0, (1, 4)); (0x11fd1, (1, 2));
   (0x11fd2, (1, 2)); (0x11fd3, (3, 4)); (0x11fd4, (1, 320)); (0x12400, (2, 1)); (0x12401, (3, 1)); (0x12402, (4, 1));
   (0x12403, (5, 1)); (0x12404, (6, 1)); (0x12405, (7, 1)); (0x12406, (8, 1)); (0x12407, (9, 1)); (0x12408, (3, 1));
   (0x12409, (4, 1)); (0x1240a, (5, 1)); (0x1240b, (6, 1)); (0x1240c, (7, 1)); (0x1240d, (8, 1)); (0x1240e, (9, 1));
   (0x1240f, (4, 1)); (0x12410, (5, 1)); (0x12411, (6, 1)); (0x12412, (7, 1)); (0x12413, (8, 1)); (0x12414, (9, 1));
   (0x12415, (1, 1)); (0x12416, (2, 1)); (0x12417, (3, 1)); (0x12418, (4, 1)); (0x12419, (5, 1)); (0x1241a, (6, 1));
   (0x1241b, (7, 1)); (0x1241c, (8, 1)); (0x1241d, (9, 1)); (0x1241e, (1, 1)); (0x1241f, (2, 1)); (0x12420, (3, 1));
   (0x12421, (4, 1)); (0x12422, (5, 1)); (0x12423, (2, 1)); (0x12424, (3, 1)); (0x12425, (3, 1)); (0x12426, (4, 1));
   (0x12427, (5, 1)); (0x12428, (6, 1)); (0x12429, (7, 1)); (0x1242a, (8, 1)); (0x1242b, (9, 1)); (0x1242c, (1, 1));
   (0x1242d, (2, 1)); (0x1242e, (3, 1)); (0x1242f, (3, 1)); (0x12430, (4, 1)); (0x12431, (5, 1));
   (0x12432, (216000, 1)); (0x12433, (432000, 1)); (0x12434, (1, 1)); (0x12435, (2, 1)); (0x12436, (3, 1));
   (0x12437, (3, 1)); (0x12438, (4, 1)); (0x12439, (5, 1)); (0x1243a, (3, 1)); (0x1243b, (3, 1)); (0x1243c, (4, 1));
   (0x1243d, (4, 1)); (0x1243e, (4, 1)); (0x1243f, (4, 1)); (0x12440, (6, 1)); (0x12441, (7, 1)); (0x12442, (7, 1));
   (0x12443, (7, 1)); (0x12444, (8, 1)); (0x12445, (8, 1)); (0x12446, (9, 1)); (0x12447, (9, 1)); (0x12448, (9, 1));
   (0x12449, (9, 1)); (0x1244a, (2, 1)); (0x1244b, (3, 1)); (0x1244c, (4, 1)); (0x1244d, (5, 1)); (0x1244e, (6, 1));
   (0x1244f, (1, 1)); (0x12450, (2, 1)); (0x12451, (3, 1)); (0x12452, (4, 1)); (0x12453, (4, 1)); (0x12454, (5, 1));
   (0x12455, (5, 1)); (0x12456, (2, 1)); (0x12457, (3, 1)); (0x12458, (1, 1)); (0x12459, (2, 1)); (0x1245a, (1, 3));
   (0x1245b, (2, 3)); (0x1245c, (5, 6)); (0x1245d, (1, 3)); (0x1245e, (2, 3)); (0x1245f, (1, 8)); (0x12460, (1, 4));
   (0x12461, (1, 6)); (0x12462, (1, 4)); (0x12463, (1, 4)); (0x12464, (1, 2)); (0x12465, (1, 3)); (0x12466, (2, 3));
   (0x12467, (40, 1)); (0x12468, (50, 1)); (0x12469, (4, 1)); (0x1246a, (5, 1)); (0x1246b, (6, 1)); (0x1246c, (7, 1));
   (0x1246d, (8, 1)); (0x1246e, (9, 1)); (0x16a60, (0, 1)); (0x16a61, (1, 1)); (0x16a62, (2, 1)); (0x16a63, (3, 1));
   (0x16a64, (4, 1)); (0x16a65, (5, 1)); (0x16a66, (6, 1)); (0x16a67, (7, 1)); (0x16a68, (8, 1)); (0x16a69, (9, 1));
   (0x16ac0, (0, 1)); (0x16ac1, (1, 1)); (0x16ac2, (2, 1)); (0x16ac3, (3, 1)); (0x16ac4, (4, 1)); (0x16ac5, (5, 1));
   (0x16ac6, (6, 1)); (0x16ac7, (7, 1)); (0x16ac8, (8, 1)); (0x16ac9, (9, 1)); (0x16b50, (0, 1)); (0x16b51, (1, 1));
   (0x16b52, (2, 1)); (0x16b53, (3, 1)); (0x16b54, (4, 1)); (0x16b55, (5, 1)); (0x16b56, (6, 1)); (0x16b57, (7, 1));
   (0x16b58, (8, 1)); (0x16b59, (9, 1)); (0x16b5b, (10, 1)); (0x16b5c, (100, 1)); (0x16b5d, (10000, 1));
   (0x16b5e, (1000000, 1)); (0x16b5f, (100000000, 1)); (0x16b60, (10000000000, 1)); (0x16b61, (1000000000000, 1));
   (0x16e80, (0, 1)); (0x16e81, (1, 1)); (0x16e82, (2, 1)); (0x16e83, (3, 1)); (0x16e84, (4, 1)); (0x16e85, (5, 1));
   (0x16e86, (6, 1)); (0x16e87, (7, 1)); (0x16e88, (8, 1)); (0x16e89, (9, 1)); (0x16e8a, (10, 1)); (0x16e8b, (11, 1));
   (0x16e8c, (12, 1)); (0x16e8d, (13, 1)); (0x16e8e, (14, 1)); (0x16e8f, (15, 1)); (0x16e90, (16, 1));
   (0x16e91, (17, 1)); (0x16e92, (18, 1)); (0x16e93, (19, 1)); (0x16e94, (1, 1)); (0x16e95, (2, 1)); (0x16e96, (3, 1));
   (0x1d2e0, (0, 1)); (0x1d2e1, (1, 1)); (0x1d2e2, (2, 1)); (0x1d2e3, (3, 1)); (0x1d2e4, (4, 1)); (0x1d2e5, (5, 1));
   (0x1d2e6, (6, 1)); (0x1d2e7, (7, 1)); (0x1d2e8, (8, 1)); (0x1d2e9, (9, 1)); (0x1d2ea, (10, 1)); (0x1d2eb, (11, 1));
   (0x1d2ec, (12, 1)); (0x1d2ed, (13, 1)); (0x1d2ee, (14, 1)); (0x1d2ef, (15, 1)); (0x1d2f0, (16, 1));
   (0x1d2f1, (17, 1)); (0x1d2f2, (18, 1)); (0x1d2f3, (19, 1)); (0x1d360, (1, 1)); (0x1d361, (2, 1)); (0x1d362, (3, 1));
   (0x1d363, (4, 1)); (0x1d364, (5, 1)); (0x1d365, (6, 1)); (0x1d366, (7, 1)); (0x1d367, (8, 1)); (0x1d368, (9, 1));
   (0x1d369, (10, 1)); (0x1d36a, (20, 1)); (0x1d36b, (30, 1)); (0x1d36c, (40, 1)); (0x1d36d, (50, 1));
   (0x1d36e, (60, 1)); (0x1d36f, (70, 1)); (0x1d370, (80, 1)); (0x1d371, (90, 1)); (0x1d372, (1, 1)); (0x1d373, (2, 1));
   (0x1d374, (3, 1)); (0x1d375, (4, 1)); (0x1d376, (5, 1)); (0x1d377, (1, 1)); (0x1d378, (5, 1)); (0x1d7ce, (0, 1));
   (0x1d7cf, (1, 1)); (0x1d7d0, (2, 1)); (0x1d7d1, (3, 1)); (0x1d7d2, (4, 1)); (0x1d7d3, (5, 1)); (0x1d7d4, (6, 1));
   (0x1d7d5, (7, 1)); (0x1d7d6, (8, 1)); (0x1d7d7, (9, 1)); (0x1d7d8, (0, 1)); (0x1d7d9, (1, 1)); (0x1d7da, (2, 1));
   (0x1d7db, (3, 1)); (0x1d7dc, (4, 1)); (0x1d7dd, (5, 1)); (0x1d7de, (6, 1)); (0x1d7df, (7, 1)); (0x1d7e0, (8, 1));
   (0x1d7e1, (9, 1)); (0x1d7e2, (0, 1)); (0x1d7e3, (1, 1)); (0x1d7e4, (2, 1)); (0x1d7e5, (3, 1)); (0x1d7e6, (4, 1));
   (0x1d7e7, (5, 1)); (0x1d7e8, (6, 1)); (0x1d7e9, (7, 1)); (0x1d7ea, (8, 1)); (0x1d7eb, (9, 1)); (0x1d7ec, (0, 1));
   (0x1d7ed, (1, 1)); (0x1d7ee, (2, 1)); (0x1d7ef, (3, 1)); (0x1d7f0, (4, 1)); (0x1d7f1, (5, 1)); (0x1d7f2, (6, 1));
   (0x1d7f3, (7, 1)); (0x1d7f4, (8, 1)); (0x1d7f5, (9, 1)); (0x1d7f6, (0, 1)); (0x1d7f7, (1, 1)); (0x1d7f8, (2, 1));
   (0x1d7f9, (3, 1)); (0x1d7fa, (4, 1)); (0x1d7fb, (5, 1)); (0x1d7fc, (6, 1)); (0x1d7fd, (7, 1)); (0x1d7fe, (8, 1));
   (0x1d7ff, (9, 1)); (0x1e140, (0, 1)); (0x1e141, (1, 1)); (0x1e142, (2, 1)); (0x1e143, (3, 1)); (0x1e144, (4, 1));
   (0x1e145, (5, 1)); (0x1e146, (6, 1)); (0x1e147, (7, 1)); (0x1e148, (8, 1)); (0x1e149, (9, 1)); (0x1e2f0, (0, 1));
   (0x1e2f1, (1, 1)); (0x1e2f2, (2, 1)); (0x1e2f3, (3, 1)); (0x1e2f4, (4, 1)); (0x1e2f5, (5, 1)); (0x1e2f6, (6, 1));
   (0x1e2f7, (7, 1)); (0x1e2f8, (8, 1)); (0x1e2f9, (9, 1)); (0x1e8c7, (1, 1)); (0x1e8c8, (2, 1)); (0x1e8c9, (3, 1));
   (0x1e8ca, (4, 1)); (0x1e8cb, (5, 1)); (0x1e8cc, (6, 1)); (0x1e8cd, (7, 1)); (0x1e8ce, (8, 1)); (0x1e8cf, (9, 1));
   (0x1e950, (0, 1)); (0x1e951, (1, 1)); (0x1e952, (2, 1)); (0x1e953, (3, 1)); (0x1e954, (4, 1)); (0x1e955, (5, 1));
   (0x1e956, (6, 1)); (0x1e957, (7, 1)); (0x1e958, (8, 1)); (0x1e959, (9, 1)); (0x1ec71, (1, 1)); (0x1ec72, (2, 1));
   (0x1ec73, (3, 1)); (0x1ec74, (4, 1)); (0x1ec75, (5, 1)); (0x1ec76, (6, 1)); (0x1ec77, (7, 1)); (0x1ec78, (8, 1));
   (0x1ec79, (9, 1)); (0x1ec7a, (10, 1)); (0x1ec7b, (20, 1)); (0x1ec7c, (30, 1)); (0x1ec7d, (40, 1));
   (0x1ec7e, (50, 1)); (0x1ec7f, (60, 1)); (0x1ec80, (70, 1)); (0x1ec81, (80, 1)); (0x1ec82, (90, 1));
   (0x1ec83, (100, 1)); (0x1ec84, (200, 1)); (0x1ec85, (300, 1)); (0x1ec86, (400, 1)); (0x1ec87, (500, 1));
   (0x1ec88, (600, 1)); (0x1ec89, (700, 1)); (0x1ec8a, (800, 1)); (0x1ec8b, (900, 1)); (0x1ec8c, (1000, 1));
   (0x1ec8d, (2000, 1)); (0x1ec8e, (3000, 1)); (0x1ec8f, (4000, 1)); (0x1ec90, (5000, 1)); (0x1ec91, (6000, 1));
   (0x1ec92, (7000, 1)); (0x1ec93, (8000, 1)); (0x1ec94, (9000, 1)); (0x1ec95, (10000, 1)); (0x1ec96, (20000, 1));
   (0x1ec97, (30000, 1)); (0x1ec98, (40000, 1)); (0x1ec99, (50000, 1)); (0x1ec9a, (60000, 1)); (0x1ec9b, (70000, 1));
   (0x1ec9c, (80000, 1)); (0x1ec9d, (90000, 1)); (0x1ec9e, (100000, 1)); (0x1ec9f, (200000, 1)); (0x1eca0, (100000, 1));
   (0x1eca1, (10000000, 1)); (0x1eca2, (20000000, 1)); (0x1eca3, (1, 1)); (0x1eca4, (2, 1)); (0x1eca5, (3, 1));
   (0x1eca6, (4, 1)); (0x1eca7, (5, 1)); (0x1eca8, (6, 1)); (0x1eca9, (7, 1)); (0x1ecaa, (8, 1)); (0x1ecab, (9, 1));
   (0x1ecad, (1, 4)); (0x1ecae, (1, 2)); (0x1ecaf, (3, 4)); (0x1ecb1, (1, 1)); (0x1ecb2, (2, 1)); (0x1ecb3, (10000, 1));
   (0x1ecb4, (100000, 1)); (0x1ed01, (1, 1)); (0x1ed02, (2, 1)); (0x1ed03, (3, 1)); (0x1ed04, (4, 1));
   (0x1ed05, (5, 1)); (0x1ed06, (6, 1)); (0x1ed07, (7, 1)); (0x1ed08, (8, 1)); (0x1ed09, (9, 1)); (0x1ed0a, (10, 1));
   (0x1ed0b, (20, 1)); (0x1ed0c, (30, 1)); (0x1ed0d, (40, 1)); (0x1ed0e, (50, 1)); (0x1ed0f, (60, 1));
   (0x1ed10, (70, 1)); (0x1ed11, (80, 1)); (0x1ed12, (90, 1)); (0x1ed13, (100, 1)); (0x1ed14, (200, 1));
   (0x1ed15, (300, 1)); (0x1ed16, (400, 1)); (0x1ed17, (500, 1)); (0x1ed18, (600, 1)); (0x1ed19, (700, 1));
   (0x1ed1a, (800, 1)); (0x1ed1b, (900, 1)); (0x1ed1c, (1000, 1)); (0x1ed1d, (2000, 1)); (0x1ed1e, (3000, 1));
   (0x1ed1f, (4000, 1)); (0x1ed20, (5000, 1)); (0x1ed21, (6000, 1)); (0x1ed22, (7000, 1)); (0x1ed23, (8000, 1));
   (0x1ed24, (9000, 1)); (0x1ed25, (10000, 1)); (0x1ed26, (20000, 1)); (0x1ed27, (30000, 1)); (0x1ed28, (40000, 1));
   (0x1ed29, (50000, 1)); (0x1ed2a, (60000, 1)); (0x1ed2b, (70000, 1)); (0x1ed2c, (80000, 1)); (0x1ed2d, (90000, 1));
   (0x1ed2f, (2, 1)); (0x1ed30, (3, 1)); (0x1ed31, (4, 1)); (0x1ed32, (5, 1)); (0x1ed33, (6, 1)); (0x1ed34, (7, 1));
   (0x1ed35, (8, 1)); (0x1ed36, (9, 1)); (0x1ed37, (10, 1)); (0x1ed38, (400, 1)); (0x1ed39, (600, 1));
   (0x1ed3a, (2000, 1)); (0x1ed3b, (10000, 1)); (0x1ed3c, (1, 2)); (0x1ed3d, (1, 6)); (0x1f100, (0, 1));
   (0x1f101, (0, 1)); (0x1f102, (1, 1)); (0x1f103, (2, 1)); (0x1f104, (3, 1)); (0x1f105, (4, 1)); (0x1f106, (5, 1));
   (0x1f107, (6, 1)); (0x1f108, (7, 1)); (0x1f109, (8, 1)); (0x1f10a, (9, 1)); (0x1f10b, (0, 1)); (0x1f10c, (0, 1));
   (0x1fbf0, (0, 1)); (0x1fbf1, (1, 1)); (0x1fbf2, (2, 1)); (0x1fbf3, (3, 1)); (0x1fbf4, (4, 1)); (0x1fbf5, (5, 1));
   (0x1fbf6, (6, 1)); (0x1fbf7, (7, 1)); (0x1fbf8, (8, 1)); (0x1fbf9, (9, 1)); (0x20001, (7, 1)); (0x20064, (4, 1));
   (0x200e2, (4, 1)); (0x20121, (5, 1)); (0x2092a, (1, 1)); (0x20983, (30, 1)); (0x2098c, (40, 1)); (0x2099c, (40, 1));
   (0x20aea, (6, 1)); (0x20afd, (3, 1)); (0x20b19, (3, 1)); (0x22390, (2, 1)); (0x22998, (3, 1)); (0x23b1b, (3, 1));
   (0x2626d, (4, 1)); (0x2f890, (9, 1))].

Definition ref_numeric_value (u : Z) : option (Z * Z) :=
  option_map snd (find (fun p => fst p =? u) ref_numeric).
