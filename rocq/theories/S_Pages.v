(** Generated by tools/gen_charsets.py from Python's codecs, not from the code under study: the characters of the bytes 80..FF of the Windows code
    pages; [None]: the code page does not use the byte. *)
From Verif Require Import Base.
Local Open Scope N_scope.

Definition upper_cp1251 : list (option N) := [Some 0x402; Some 0x403; Some 0x201A; Some 0x453; Some 0x201E; Some 0x2026; Some 0x2020; Some 0x2021;
  Some 0x20AC; Some 0x2030; Some 0x409; Some 0x2039; Some 0x40A; Some 0x40C; Some 0x40B; Some 0x40F;
  Some 0x452; Some 0x2018; Some 0x2019; Some 0x201C; Some 0x201D; Some 0x2022; Some 0x2013; Some 0x2014;
  None; Some 0x2122; Some 0x459; Some 0x203A; Some 0x45A; Some 0x45C; Some 0x45B; Some 0x45F;
  Some 0xA0; Some 0x40E; Some 0x45E; Some 0x408; Some 0xA4; Some 0x490; Some 0xA6; Some 0xA7;
  Some 0x401; Some 0xA9; Some 0x404; Some 0xAB; Some 0xAC; Some 0xAD; Some 0xAE; Some 0x407;
  Some 0xB0; Some 0xB1; Some 0x406; Some 0x456; Some 0x491; Some 0xB5; Some 0xB6; Some 0xB7;
  Some 0x451; Some 0x2116; Some 0x454; Some 0xBB; Some 0x458; Some 0x405; Some 0x455; Some 0x457;
  Some 0x410; Some 0x411; Some 0x412; Some 0x413; Some 0x414; Some 0x415; Some 0x416; Some 0x417;
  Some 0x418; Some 0x419; Some 0x41A; Some 0x41B; Some 0x41C; Some 0x41D; Some 0x41E; Some 0x41F;
  Some 0x420; Some 0x421; Some 0x422; Some 0x423; Some 0x424; Some 0x425; Some 0x426; Some 0x427;
  Some 0x428; Some 0x429; Some 0x42A; Some 0x42B; Some 0x42C; Some 0x42D; Some 0x42E; Some 0x42F;
  Some 0x430; Some 0x431; Some 0x432; Some 0x433; Some 0x434; Some 0x435; Some 0x436; Some 0x437;
  Some 0x438; Some 0x439; Some 0x43A; Some 0x43B; Some 0x43C; Some 0x43D; Some 0x43E; Some 0x43F;
  Some 0x440; Some 0x441; Some 0x442; Some 0x443; Some 0x444; Some 0x445; Some 0x446; Some 0x447;
  Some 0x448; Some 0x449; Some 0x44A; Some 0x44B; Some 0x44C; Some 0x44D; Some 0x44E; Some 0x44F].
Definition upper_cp1252 : list (option N) := [Some 0x20AC; None; Some 0x201A; Some 0x192; Some 0x201E; Some 0x2026; Some 0x2020; Some 0x2021;
  Some 0x2C6; Some 0x2030; Some 0x160; Some 0x2039; Some 0x152; None; Some 0x17D; None;
  None; Some 0x2018; Some 0x2019; Some 0x201C; Some 0x201D; Some 0x2022; Some 0x2013; Some 0x2014;
  Some 0x2DC; Some 0x2122; Some 0x161; Some 0x203A; Some 0x153; None; Some 0x17E; Some 0x178;
  Some 0xA0; Some 0xA1; Some 0xA2; Some 0xA3; Some 0xA4; Some 0xA5; Some 0xA6; Some 0xA7;
  Some 0xA8; Some 0xA9; Some 0xAA; Some 0xAB; Some 0xAC; Some 0xAD; Some 0xAE; Some 0xAF;
  Some 0xB0; Some 0xB1; Some 0xB2; Some 0xB3; Some 0xB4; Some 0xB5; Some 0xB6; Some 0xB7;
  Some 0xB8; Some 0xB9; Some 0xBA; Some 0xBB; Some 0xBC; Some 0xBD; Some 0xBE; Some 0xBF;
  Some 0xC0; Some 0xC1; Some 0xC2; Some 0xC3; Some 0xC4; Some 0xC5; Some 0xC6; Some 0xC7;
  Some 0xC8; Some 0xC9; Some 0xCA; Some 0xCB; Some 0xCC; Some 0xCD; Some 0xCE; Some 0xCF;
  Some 0xD0; Some 0xD1; Some 0xD2; Some 0xD3; Some 0xD4; Some 0xD5; Some 0xD6; Some 0xD7;
  Some 0xD8; Some 0xD9; Some 0xDA; Some 0xDB; Some 0xDC; Some 0xDD; Some 0xDE; Some 0xDF;
  Some 0xE0; Some 0xE1; Some 0xE2; Some 0xE3; Some 0xE4; Some 0xE5; Some 0xE6; Some 0xE7;
  Some 0xE8; Some 0xE9; Some 0xEA; Some 0xEB; Some 0xEC; Some 0xED; Some 0xEE; Some 0xEF;
  Some 0xF0; Some 0xF1; Some 0xF2; Some 0xF3; Some 0xF4; Some 0xF5; Some 0xF6; Some 0xF7;
  Some 0xF8; Some 0xF9; Some 0xFA; Some 0xFB; Some 0xFC; Some 0xFD; Some 0xFE; Some 0xFF].
Definition upper_cp1253 : list (option N) := [Some 0x20AC; None; Some 0x201A; Some 0x192; Some 0x201E; Some 0x2026; Some 0x2020; Some 0x2021;
  None; Some 0x2030; None; Some 0x2039; None; None; None; None;
  None; Some 0x2018; Some 0x2019; Some 0x201C; Some 0x201D; Some 0x2022; Some 0x2013; Some 0x2014;
  None; Some 0x2122; None; Some 0x203A; None; None; None; None;
  Some 0xA0; Some 0x385; Some 0x386; Some 0xA3; Some 0xA4; Some 0xA5; Some 0xA6; Some 0xA7;
  Some 0xA8; Some 0xA9; None; Some 0xAB; Some 0xAC; Some 0xAD; Some 0xAE; Some 0x2015;
  Some 0xB0; Some 0xB1; Some 0xB2; Some 0xB3; Some 0x384; Some 0xB5; Some 0xB6; Some 0xB7;
  Some 0x388; Some 0x389; Some 0x38A; Some 0xBB; Some 0x38C; Some 0xBD; Some 0x38E; Some 0x38F;
  Some 0x390; Some 0x391; Some 0x392; Some 0x393; Some 0x394; Some 0x395; Some 0x396; Some 0x397;
  Some 0x398; Some 0x399; Some 0x39A; Some 0x39B; Some 0x39C; Some 0x39D; Some 0x39E; Some 0x39F;
  Some 0x3A0; Some 0x3A1; None; Some 0x3A3; Some 0x3A4; Some 0x3A5; Some 0x3A6; Some 0x3A7;
  Some 0x3A8; Some 0x3A9; Some 0x3AA; Some 0x3AB; Some 0x3AC; Some 0x3AD; Some 0x3AE; Some 0x3AF;
  Some 0x3B0; Some 0x3B1; Some 0x3B2; Some 0x3B3; Some 0x3B4; Some 0x3B5; Some 0x3B6; Some 0x3B7;
  Some 0x3B8; Some 0x3B9; Some 0x3BA; Some 0x3BB; Some 0x3BC; Some 0x3BD; Some 0x3BE; Some 0x3BF;
  Some 0x3C0; Some 0x3C1; Some 0x3C2; Some 0x3C3; Some 0x3C4; Some 0x3C5; Some 0x3C6; Some 0x3C7;
  Some 0x3C8; Some 0x3C9; Some 0x3CA; Some 0x3CB; Some 0x3CC; Some 0x3CD; Some 0x3CE; None].
Definition upper_cp1254 : list (option N) := [Some 0x20AC; None; Some 0x201A; Some 0x192; Some 0x201E; Some 0x2026; Some 0x2020; Some 0x2021;
  Some 0x2C6; Some 0x2030; Some 0x160; Some 0x2039; Some 0x152; None; None; None;
  None; Some 0x2018; Some 0x2019; Some 0x201C; Some 0x201D; Some 0x2022; Some 0x2013; Some 0x2014;
  Some 0x2DC; Some 0x2122; Some 0x161; Some 0x203A; Some 0x153; None; None; Some 0x178;
  Some 0xA0; Some 0xA1; Some 0xA2; Some 0xA3; Some 0xA4; Some 0xA5; Some 0xA6; Some 0xA7;
  Some 0xA8; Some 0xA9; Some 0xAA; Some 0xAB; Some 0xAC; Some 0xAD; Some 0xAE; Some 0xAF;
  Some 0xB0; Some 0xB1; Some 0xB2; Some 0xB3; Some 0xB4; Some 0xB5; Some 0xB6; Some 0xB7;
  Some 0xB8; Some 0xB9; Some 0xBA; Some 0xBB; Some 0xBC; Some 0xBD; Some 0xBE; Some 0xBF;
  Some 0xC0; Some 0xC1; Some 0xC2; Some 0xC3; Some 0xC4; Some 0xC5; Some 0xC6; Some 0xC7;
  Some 0xC8; Some 0xC9; Some 0xCA; Some 0xCB; Some 0xCC; Some 0xCD; Some 0xCE; Some 0xCF;
  Some 0x11E; Some 0xD1; Some 0xD2; Some 0xD3; Some 0xD4; Some 0xD5; Some 0xD6; Some 0xD7;
  Some 0xD8; Some 0xD9; Some 0xDA; Some 0xDB; Some 0xDC; Some 0x130; Some 0x15E; Some 0xDF;
  Some 0xE0; Some 0xE1; Some 0xE2; Some 0xE3; Some 0xE4; Some 0xE5; Some 0xE6; Some 0xE7;
  Some 0xE8; Some 0xE9; Some 0xEA; Some 0xEB; Some 0xEC; Some 0xED; Some 0xEE; Some 0xEF;
  Some 0x11F; Some 0xF1; Some 0xF2; Some 0xF3; Some 0xF4; Some 0xF5; Some 0xF6; Some 0xF7;
  Some 0xF8; Some 0xF9; Some 0xFA; Some 0xFB; Some 0xFC; Some 0x131; Some 0x15F; Some 0xFF].
Definition upper_cp1255 : list (option N) := [Some 0x20AC; None; Some 0x201A; Some 0x192; Some 0x201E; Some 0x2026; Some 0x2020; Some 0x2021;
  Some 0x2C6; Some 0x2030; None; Some 0x2039; None; None; None; None;
  None; Some 0x2018; Some 0x2019; Some 0x201C; Some 0x201D; Some 0x2022; Some 0x2013; Some 0x2014;
  Some 0x2DC; Some 0x2122; None; Some 0x203A; None; None; None; None;
  Some 0xA0; Some 0xA1; Some 0xA2; Some 0xA3; Some 0x20AA; Some 0xA5; Some 0xA6; Some 0xA7;
  Some 0xA8; Some 0xA9; Some 0xD7; Some 0xAB; Some 0xAC; Some 0xAD; Some 0xAE; Some 0xAF;
  Some 0xB0; Some 0xB1; Some 0xB2; Some 0xB3; Some 0xB4; Some 0xB5; Some 0xB6; Some 0xB7;
  Some 0xB8; Some 0xB9; Some 0xF7; Some 0xBB; Some 0xBC; Some 0xBD; Some 0xBE; Some 0xBF;
  Some 0x5B0; Some 0x5B1; Some 0x5B2; Some 0x5B3; Some 0x5B4; Some 0x5B5; Some 0x5B6; Some 0x5B7;
  Some 0x5B8; Some 0x5B9; None; Some 0x5BB; Some 0x5BC; Some 0x5BD; Some 0x5BE; Some 0x5BF;
  Some 0x5C0; Some 0x5C1; Some 0x5C2; Some 0x5C3; Some 0x5F0; Some 0x5F1; Some 0x5F2; Some 0x5F3;
  Some 0x5F4; None; None; None; None; None; None; None;
  Some 0x5D0; Some 0x5D1; Some 0x5D2; Some 0x5D3; Some 0x5D4; Some 0x5D5; Some 0x5D6; Some 0x5D7;
  Some 0x5D8; Some 0x5D9; Some 0x5DA; Some 0x5DB; Some 0x5DC; Some 0x5DD; Some 0x5DE; Some 0x5DF;
  Some 0x5E0; Some 0x5E1; Some 0x5E2; Some 0x5E3; Some 0x5E4; Some 0x5E5; Some 0x5E6; Some 0x5E7;
  Some 0x5E8; Some 0x5E9; Some 0x5EA; None; None; Some 0x200E; Some 0x200F; None].
Definition upper_cp1256 : list (option N) := [Some 0x20AC; Some 0x67E; Some 0x201A; Some 0x192; Some 0x201E; Some 0x2026; Some 0x2020; Some 0x2021;
  Some 0x2C6; Some 0x2030; Some 0x679; Some 0x2039; Some 0x152; Some 0x686; Some 0x698; Some 0x688;
  Some 0x6AF; Some 0x2018; Some 0x2019; Some 0x201C; Some 0x201D; Some 0x2022; Some 0x2013; Some 0x2014;
  Some 0x6A9; Some 0x2122; Some 0x691; Some 0x203A; Some 0x153; Some 0x200C; Some 0x200D; Some 0x6BA;
  Some 0xA0; Some 0x60C; Some 0xA2; Some 0xA3; Some 0xA4; Some 0xA5; Some 0xA6; Some 0xA7;
  Some 0xA8; Some 0xA9; Some 0x6BE; Some 0xAB; Some 0xAC; Some 0xAD; Some 0xAE; Some 0xAF;
  Some 0xB0; Some 0xB1; Some 0xB2; Some 0xB3; Some 0xB4; Some 0xB5; Some 0xB6; Some 0xB7;
  Some 0xB8; Some 0xB9; Some 0x61B; Some 0xBB; Some 0xBC; Some 0xBD; Some 0xBE; Some 0x61F;
  Some 0x6C1; Some 0x621; Some 0x622; Some 0x623; Some 0x624; Some 0x625; Some 0x626; Some 0x627;
  Some 0x628; Some 0x629; Some 0x62A; Some 0x62B; Some 0x62C; Some 0x62D; Some 0x62E; Some 0x62F;
  Some 0x630; Some 0x631; Some 0x632; Some 0x633; Some 0x634; Some 0x635; Some 0x636; Some 0xD7;
  Some 0x637; Some 0x638; Some 0x639; Some 0x63A; Some 0x640; Some 0x641; Some 0x642; Some 0x643;
  Some 0xE0; Some 0x644; Some 0xE2; Some 0x645; Some 0x646; Some 0x647; Some 0x648; Some 0xE7;
  Some 0xE8; Some 0xE9; Some 0xEA; Some 0xEB; Some 0x649; Some 0x64A; Some 0xEE; Some 0xEF;
  Some 0x64B; Some 0x64C; Some 0x64D; Some 0x64E; Some 0xF4; Some 0x64F; Some 0x650; Some 0xF7;
  Some 0x651; Some 0xF9; Some 0x652; Some 0xFB; Some 0xFC; Some 0x200E; Some 0x200F; Some 0x6D2].
Definition upper_cp1257 : list (option N) := [Some 0x20AC; None; Some 0x201A; None; Some 0x201E; Some 0x2026; Some 0x2020; Some 0x2021;
  None; Some 0x2030; None; Some 0x2039; None; Some 0xA8; Some 0x2C7; Some 0xB8;
  None; Some 0x2018; Some 0x2019; Some 0x201C; Some 0x201D; Some 0x2022; Some 0x2013; Some 0x2014;
  None; Some 0x2122; None; Some 0x203A; None; Some 0xAF; Some 0x2DB; None;
  Some 0xA0; None; Some 0xA2; Some 0xA3; Some 0xA4; None; Some 0xA6; Some 0xA7;
  Some 0xD8; Some 0xA9; Some 0x156; Some 0xAB; Some 0xAC; Some 0xAD; Some 0xAE; Some 0xC6;
  Some 0xB0; Some 0xB1; Some 0xB2; Some 0xB3; Some 0xB4; Some 0xB5; Some 0xB6; Some 0xB7;
  Some 0xF8; Some 0xB9; Some 0x157; Some 0xBB; Some 0xBC; Some 0xBD; Some 0xBE; Some 0xE6;
  Some 0x104; Some 0x12E; Some 0x100; Some 0x106; Some 0xC4; Some 0xC5; Some 0x118; Some 0x112;
  Some 0x10C; Some 0xC9; Some 0x179; Some 0x116; Some 0x122; Some 0x136; Some 0x12A; Some 0x13B;
  Some 0x160; Some 0x143; Some 0x145; Some 0xD3; Some 0x14C; Some 0xD5; Some 0xD6; Some 0xD7;
  Some 0x172; Some 0x141; Some 0x15A; Some 0x16A; Some 0xDC; Some 0x17B; Some 0x17D; Some 0xDF;
  Some 0x105; Some 0x12F; Some 0x101; Some 0x107; Some 0xE4; Some 0xE5; Some 0x119; Some 0x113;
  Some 0x10D; Some 0xE9; Some 0x17A; Some 0x117; Some 0x123; Some 0x137; Some 0x12B; Some 0x13C;
  Some 0x161; Some 0x144; Some 0x146; Some 0xF3; Some 0x14D; Some 0xF5; Some 0xF6; Some 0xF7;
  Some 0x173; Some 0x142; Some 0x15B; Some 0x16B; Some 0xFC; Some 0x17C; Some 0x17E; Some 0x2D9].
Definition upper_cp1258 : list (option N) := [Some 0x20AC; None; Some 0x201A; Some 0x192; Some 0x201E; Some 0x2026; Some 0x2020; Some 0x2021;
  Some 0x2C6; Some 0x2030; None; Some 0x2039; Some 0x152; None; None; None;
  None; Some 0x2018; Some 0x2019; Some 0x201C; Some 0x201D; Some 0x2022; Some 0x2013; Some 0x2014;
  Some 0x2DC; Some 0x2122; None; Some 0x203A; Some 0x153; None; None; Some 0x178;
  Some 0xA0; Some 0xA1; Some 0xA2; Some 0xA3; Some 0xA4; Some 0xA5; Some 0xA6; Some 0xA7;
  Some 0xA8; Some 0xA9; Some 0xAA; Some 0xAB; Some 0xAC; Some 0xAD; Some 0xAE; Some 0xAF;
  Some 0xB0; Some 0xB1; Some 0xB2; Some 0xB3; Some 0xB4; Some 0xB5; Some 0xB6; Some 0xB7;
  Some 0xB8; Some 0xB9; Some 0xBA; Some 0xBB; Some 0xBC; Some 0xBD; Some 0xBE; Some 0xBF;
  Some 0xC0; Some 0xC1; Some 0xC2; Some 0x102; Some 0xC4; Some 0xC5; Some 0xC6; Some 0xC7;
  Some 0xC8; Some 0xC9; Some 0xCA; Some 0xCB; Some 0x300; Some 0xCD; Some 0xCE; Some 0xCF;
  Some 0x110; Some 0xD1; Some 0x309; Some 0xD3; Some 0xD4; Some 0x1A0; Some 0xD6; Some 0xD7;
  Some 0xD8; Some 0xD9; Some 0xDA; Some 0xDB; Some 0xDC; Some 0x1AF; Some 0x303; Some 0xDF;
  Some 0xE0; Some 0xE1; Some 0xE2; Some 0x103; Some 0xE4; Some 0xE5; Some 0xE6; Some 0xE7;
  Some 0xE8; Some 0xE9; Some 0xEA; Some 0xEB; Some 0x301; Some 0xED; Some 0xEE; Some 0xEF;
  Some 0x111; Some 0xF1; Some 0x323; Some 0xF3; Some 0xF4; Some 0x1A1; Some 0xF6; Some 0xF7;
  Some 0xF8; Some 0xF9; Some 0xFA; Some 0xFB; Some 0xFC; Some 0x1B0; Some 0x20AB; Some 0xFF].
Definition upper_cp874 : list (option N) := [Some 0x20AC; None; None; None; None; Some 0x2026; None; None;
  None; None; None; None; None; None; None; None;
  None; Some 0x2018; Some 0x2019; Some 0x201C; Some 0x201D; Some 0x2022; Some 0x2013; Some 0x2014;
  None; None; None; None; None; None; None; None;
  Some 0xA0; Some 0xE01; Some 0xE02; Some 0xE03; Some 0xE04; Some 0xE05; Some 0xE06; Some 0xE07;
  Some 0xE08; Some 0xE09; Some 0xE0A; Some 0xE0B; Some 0xE0C; Some 0xE0D; Some 0xE0E; Some 0xE0F;
  Some 0xE10; Some 0xE11; Some 0xE12; Some 0xE13; Some 0xE14; Some 0xE15; Some 0xE16; Some 0xE17;
  Some 0xE18; Some 0xE19; Some 0xE1A; Some 0xE1B; Some 0xE1C; Some 0xE1D; Some 0xE1E; Some 0xE1F;
  Some 0xE20; Some 0xE21; Some 0xE22; Some 0xE23; Some 0xE24; Some 0xE25; Some 0xE26; Some 0xE27;
  Some 0xE28; Some 0xE29; Some 0xE2A; Some 0xE2B; Some 0xE2C; Some 0xE2D; Some 0xE2E; Some 0xE2F;
  Some 0xE30; Some 0xE31; Some 0xE32; Some 0xE33; Some 0xE34; Some 0xE35; Some 0xE36; Some 0xE37;
  Some 0xE38; Some 0xE39; Some 0xE3A; None; None; None; None; Some 0xE3F;
  Some 0xE40; Some 0xE41; Some 0xE42; Some 0xE43; Some 0xE44; Some 0xE45; Some 0xE46; Some 0xE47;
  Some 0xE48; Some 0xE49; Some 0xE4A; Some 0xE4B; Some 0xE4C; Some 0xE4D; Some 0xE4E; Some 0xE4F;
  Some 0xE50; Some 0xE51; Some 0xE52; Some 0xE53; Some 0xE54; Some 0xE55; Some 0xE56; Some 0xE57;
  Some 0xE58; Some 0xE59; Some 0xE5A; Some 0xE5B; None; None; None; None].
