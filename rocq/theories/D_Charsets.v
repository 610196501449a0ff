(** Generated by tools/gen_charsets.py: tables of single byte charsets, verbatim: pattern and replacement of every line. *)
From Verif Require Import Base.
Local Open Scope N_scope.

(** modules/from/_CP1251.txt *)
Definition cp1251_from : list (list N * list N) := [([0x80], [0x01; 0x04; 0x02]); ([0x81], [0x01; 0x04; 0x03]); ([0x82], [0x01; 0x20; 0x1A]); ([0x83], [0x01; 0x04; 0x53]); ([0x84], [0x01; 0x20; 0x1E]); ([0x85], [0x01; 0x20; 0x26]);
  ([0x86], [0x01; 0x20; 0x20]); ([0x87], [0x01; 0x20; 0x21]); ([0x88], [0x01; 0x20; 0xAC]); ([0x89], [0x01; 0x20; 0x30]); ([0x8A], [0x01; 0x04; 0x09]); ([0x8B], [0x01; 0x20; 0x39]);
  ([0x8C], [0x01; 0x04; 0x0A]); ([0x8D], [0x01; 0x04; 0x0C]); ([0x8E], [0x01; 0x04; 0x0B]); ([0x8F], [0x01; 0x04; 0x0F]); ([0x90], [0x01; 0x04; 0x52]); ([0x91], [0x01; 0x20; 0x18]);
  ([0x92], [0x01; 0x20; 0x19]); ([0x93], [0x01; 0x20; 0x1C]); ([0x94], [0x01; 0x20; 0x1D]); ([0x95], [0x01; 0x20; 0x22]); ([0x96], [0x01; 0x20; 0x13]); ([0x97], [0x01; 0x20; 0x14]);
  ([0x99], [0x01; 0x21; 0x22]); ([0x9A], [0x01; 0x04; 0x59]); ([0x9B], [0x01; 0x20; 0x3A]); ([0x9C], [0x01; 0x04; 0x5A]); ([0x9D], [0x01; 0x04; 0x5C]); ([0x9E], [0x01; 0x04; 0x5B]);
  ([0x9F], [0x01; 0x04; 0x5F]); ([0xA0], [0x01; 0xA0]); ([0xA1], [0x01; 0x04; 0x0E]); ([0xA2], [0x01; 0x04; 0x5E]); ([0xA3], [0x01; 0x04; 0x08]); ([0xA4], [0x01; 0xA4]);
  ([0xA5], [0x01; 0x04; 0x90]); ([0xA6], [0x01; 0xA6]); ([0xA7], [0x01; 0xA7]); ([0xA8], [0x01; 0x04; 0x01]); ([0xA9], [0x01; 0xA9]); ([0xAA], [0x01; 0x04; 0x04]);
  ([0xAB], [0x01; 0xAB]); ([0xAC], [0x01; 0xAC]); ([0xAD], [0x01; 0xAD]); ([0xAE], [0x01; 0xAE]); ([0xAF], [0x01; 0x04; 0x07]); ([0xB0], [0x01; 0xB0]);
  ([0xB1], [0x01; 0xB1]); ([0xB2], [0x01; 0x04; 0x06]); ([0xB3], [0x01; 0x04; 0x56]); ([0xB4], [0x01; 0x04; 0x91]); ([0xB5], [0x01; 0xB5]); ([0xB6], [0x01; 0xB6]);
  ([0xB7], [0x01; 0xB7]); ([0xB8], [0x01; 0x04; 0x51]); ([0xB9], [0x01; 0x21; 0x16]); ([0xBA], [0x01; 0x04; 0x54]); ([0xBB], [0x01; 0xBB]); ([0xBC], [0x01; 0x04; 0x58]);
  ([0xBD], [0x01; 0x04; 0x05]); ([0xBE], [0x01; 0x04; 0x55]); ([0xBF], [0x01; 0x04; 0x57]); ([0xC0], [0x01; 0x04; 0x10]); ([0xC1], [0x01; 0x04; 0x11]); ([0xC2], [0x01; 0x04; 0x12]);
  ([0xC3], [0x01; 0x04; 0x13]); ([0xC4], [0x01; 0x04; 0x14]); ([0xC5], [0x01; 0x04; 0x15]); ([0xC6], [0x01; 0x04; 0x16]); ([0xC7], [0x01; 0x04; 0x17]); ([0xC8], [0x01; 0x04; 0x18]);
  ([0xC9], [0x01; 0x04; 0x19]); ([0xCA], [0x01; 0x04; 0x1A]); ([0xCB], [0x01; 0x04; 0x1B]); ([0xCC], [0x01; 0x04; 0x1C]); ([0xCD], [0x01; 0x04; 0x1D]); ([0xCE], [0x01; 0x04; 0x1E]);
  ([0xCF], [0x01; 0x04; 0x1F]); ([0xD0], [0x01; 0x04; 0x20]); ([0xD1], [0x01; 0x04; 0x21]); ([0xD2], [0x01; 0x04; 0x22]); ([0xD3], [0x01; 0x04; 0x23]); ([0xD4], [0x01; 0x04; 0x24]);
  ([0xD5], [0x01; 0x04; 0x25]); ([0xD6], [0x01; 0x04; 0x26]); ([0xD7], [0x01; 0x04; 0x27]); ([0xD8], [0x01; 0x04; 0x28]); ([0xD9], [0x01; 0x04; 0x29]); ([0xDA], [0x01; 0x04; 0x2A]);
  ([0xDB], [0x01; 0x04; 0x2B]); ([0xDC], [0x01; 0x04; 0x2C]); ([0xDD], [0x01; 0x04; 0x2D]); ([0xDE], [0x01; 0x04; 0x2E]); ([0xDF], [0x01; 0x04; 0x2F]); ([0xE0], [0x01; 0x04; 0x30]);
  ([0xE1], [0x01; 0x04; 0x31]); ([0xE2], [0x01; 0x04; 0x32]); ([0xE3], [0x01; 0x04; 0x33]); ([0xE4], [0x01; 0x04; 0x34]); ([0xE5], [0x01; 0x04; 0x35]); ([0xE6], [0x01; 0x04; 0x36]);
  ([0xE7], [0x01; 0x04; 0x37]); ([0xE8], [0x01; 0x04; 0x38]); ([0xE9], [0x01; 0x04; 0x39]); ([0xEA], [0x01; 0x04; 0x3A]); ([0xEB], [0x01; 0x04; 0x3B]); ([0xEC], [0x01; 0x04; 0x3C]);
  ([0xED], [0x01; 0x04; 0x3D]); ([0xEE], [0x01; 0x04; 0x3E]); ([0xEF], [0x01; 0x04; 0x3F]); ([0xF0], [0x01; 0x04; 0x40]); ([0xF1], [0x01; 0x04; 0x41]); ([0xF2], [0x01; 0x04; 0x42]);
  ([0xF3], [0x01; 0x04; 0x43]); ([0xF4], [0x01; 0x04; 0x44]); ([0xF5], [0x01; 0x04; 0x45]); ([0xF6], [0x01; 0x04; 0x46]); ([0xF7], [0x01; 0x04; 0x47]); ([0xF8], [0x01; 0x04; 0x48]);
  ([0xF9], [0x01; 0x04; 0x49]); ([0xFA], [0x01; 0x04; 0x4A]); ([0xFB], [0x01; 0x04; 0x4B]); ([0xFC], [0x01; 0x04; 0x4C]); ([0xFD], [0x01; 0x04; 0x4D]); ([0xFE], [0x01; 0x04; 0x4E]);
  ([0xFF], [0x01; 0x04; 0x4F])].
(** modules/from/_CP1252.txt *)
Definition cp1252_from : list (list N * list N) := [([0x80], [0x01; 0x20; 0xAC]); ([0x82], [0x01; 0x20; 0x1A]); ([0x83], [0x01; 0x01; 0x92]); ([0x84], [0x01; 0x20; 0x1E]); ([0x85], [0x01; 0x20; 0x26]); ([0x86], [0x01; 0x20; 0x20]);
  ([0x87], [0x01; 0x20; 0x21]); ([0x88], [0x01; 0x02; 0xC6]); ([0x89], [0x01; 0x20; 0x30]); ([0x8A], [0x01; 0x01; 0x60]); ([0x8B], [0x01; 0x20; 0x39]); ([0x8C], [0x01; 0x01; 0x52]);
  ([0x8E], [0x01; 0x01; 0x7D]); ([0x91], [0x01; 0x20; 0x18]); ([0x92], [0x01; 0x20; 0x19]); ([0x93], [0x01; 0x20; 0x1C]); ([0x94], [0x01; 0x20; 0x1D]); ([0x95], [0x01; 0x20; 0x22]);
  ([0x96], [0x01; 0x20; 0x13]); ([0x97], [0x01; 0x20; 0x14]); ([0x98], [0x01; 0x02; 0xDC]); ([0x99], [0x01; 0x21; 0x22]); ([0x9A], [0x01; 0x01; 0x61]); ([0x9B], [0x01; 0x20; 0x3A]);
  ([0x9C], [0x01; 0x01; 0x53]); ([0x9E], [0x01; 0x01; 0x7E]); ([0x9F], [0x01; 0x01; 0x78]); ([0xA0], [0x01; 0xA0]); ([0xA1], [0x01; 0xA1]); ([0xA2], [0x01; 0xA2]);
  ([0xA3], [0x01; 0xA3]); ([0xA4], [0x01; 0xA4]); ([0xA5], [0x01; 0xA5]); ([0xA6], [0x01; 0xA6]); ([0xA7], [0x01; 0xA7]); ([0xA8], [0x01; 0xA8]);
  ([0xA9], [0x01; 0xA9]); ([0xAA], [0x01; 0xAA]); ([0xAB], [0x01; 0xAB]); ([0xAC], [0x01; 0xAC]); ([0xAD], [0x01; 0xAD]); ([0xAE], [0x01; 0xAE]);
  ([0xAF], [0x01; 0xAF]); ([0xB0], [0x01; 0xB0]); ([0xB1], [0x01; 0xB1]); ([0xB2], [0x01; 0xB2]); ([0xB3], [0x01; 0xB3]); ([0xB4], [0x01; 0xB4]);
  ([0xB5], [0x01; 0xB5]); ([0xB6], [0x01; 0xB6]); ([0xB7], [0x01; 0xB7]); ([0xB8], [0x01; 0xB8]); ([0xB9], [0x01; 0xB9]); ([0xBA], [0x01; 0xBA]);
  ([0xBB], [0x01; 0xBB]); ([0xBC], [0x01; 0xBC]); ([0xBD], [0x01; 0xBD]); ([0xBE], [0x01; 0xBE]); ([0xBF], [0x01; 0xBF]); ([0xC0], [0x01; 0xC0]);
  ([0xC1], [0x01; 0xC1]); ([0xC2], [0x01; 0xC2]); ([0xC3], [0x01; 0xC3]); ([0xC4], [0x01; 0xC4]); ([0xC5], [0x01; 0xC5]); ([0xC6], [0x01; 0xC6]);
  ([0xC7], [0x01; 0xC7]); ([0xC8], [0x01; 0xC8]); ([0xC9], [0x01; 0xC9]); ([0xCA], [0x01; 0xCA]); ([0xCB], [0x01; 0xCB]); ([0xCC], [0x01; 0xCC]);
  ([0xCD], [0x01; 0xCD]); ([0xCE], [0x01; 0xCE]); ([0xCF], [0x01; 0xCF]); ([0xD0], [0x01; 0xD0]); ([0xD1], [0x01; 0xD1]); ([0xD2], [0x01; 0xD2]);
  ([0xD3], [0x01; 0xD3]); ([0xD4], [0x01; 0xD4]); ([0xD5], [0x01; 0xD5]); ([0xD6], [0x01; 0xD6]); ([0xD7], [0x01; 0xD7]); ([0xD8], [0x01; 0xD8]);
  ([0xD9], [0x01; 0xD9]); ([0xDA], [0x01; 0xDA]); ([0xDB], [0x01; 0xDB]); ([0xDC], [0x01; 0xDC]); ([0xDD], [0x01; 0xDD]); ([0xDE], [0x01; 0xDE]);
  ([0xDF], [0x01; 0xDF]); ([0xE0], [0x01; 0xE0]); ([0xE1], [0x01; 0xE1]); ([0xE2], [0x01; 0xE2]); ([0xE3], [0x01; 0xE3]); ([0xE4], [0x01; 0xE4]);
  ([0xE5], [0x01; 0xE5]); ([0xE6], [0x01; 0xE6]); ([0xE7], [0x01; 0xE7]); ([0xE8], [0x01; 0xE8]); ([0xE9], [0x01; 0xE9]); ([0xEA], [0x01; 0xEA]);
  ([0xEB], [0x01; 0xEB]); ([0xEC], [0x01; 0xEC]); ([0xED], [0x01; 0xED]); ([0xEE], [0x01; 0xEE]); ([0xEF], [0x01; 0xEF]); ([0xF0], [0x01; 0xF0]);
  ([0xF1], [0x01; 0xF1]); ([0xF2], [0x01; 0xF2]); ([0xF3], [0x01; 0xF3]); ([0xF4], [0x01; 0xF4]); ([0xF5], [0x01; 0xF5]); ([0xF6], [0x01; 0xF6]);
  ([0xF7], [0x01; 0xF7]); ([0xF8], [0x01; 0xF8]); ([0xF9], [0x01; 0xF9]); ([0xFA], [0x01; 0xFA]); ([0xFB], [0x01; 0xFB]); ([0xFC], [0x01; 0xFC]);
  ([0xFD], [0x01; 0xFD]); ([0xFE], [0x01; 0xFE]); ([0xFF], [0x01; 0xFF])].
(** modules/from/_CP1253.txt *)
Definition cp1253_from : list (list N * list N) := [([0x80], [0x01; 0x20; 0xAC]); ([0x82], [0x01; 0x20; 0x1A]); ([0x83], [0x01; 0x01; 0x92]); ([0x84], [0x01; 0x20; 0x1E]); ([0x85], [0x01; 0x20; 0x26]); ([0x86], [0x01; 0x20; 0x20]);
  ([0x87], [0x01; 0x20; 0x21]); ([0x89], [0x01; 0x20; 0x30]); ([0x8B], [0x01; 0x20; 0x39]); ([0x91], [0x01; 0x20; 0x18]); ([0x92], [0x01; 0x20; 0x19]); ([0x93], [0x01; 0x20; 0x1C]);
  ([0x94], [0x01; 0x20; 0x1D]); ([0x95], [0x01; 0x20; 0x22]); ([0x96], [0x01; 0x20; 0x13]); ([0x97], [0x01; 0x20; 0x14]); ([0x99], [0x01; 0x21; 0x22]); ([0x9B], [0x01; 0x20; 0x3A]);
  ([0xA0], [0x01; 0xA0]); ([0xA1], [0x01; 0x03; 0x85]); ([0xA2], [0x01; 0x03; 0x86]); ([0xA3], [0x01; 0xA3]); ([0xA4], [0x01; 0xA4]); ([0xA5], [0x01; 0xA5]);
  ([0xA6], [0x01; 0xA6]); ([0xA7], [0x01; 0xA7]); ([0xA8], [0x01; 0xA8]); ([0xA9], [0x01; 0xA9]); ([0xAB], [0x01; 0xAB]); ([0xAC], [0x01; 0xAC]);
  ([0xAD], [0x01; 0xAD]); ([0xAE], [0x01; 0xAE]); ([0xAF], [0x01; 0x20; 0x15]); ([0xB0], [0x01; 0xB0]); ([0xB1], [0x01; 0xB1]); ([0xB2], [0x01; 0xB2]);
  ([0xB3], [0x01; 0xB3]); ([0xB4], [0x01; 0x03; 0x84]); ([0xB5], [0x01; 0xB5]); ([0xB6], [0x01; 0xB6]); ([0xB7], [0x01; 0xB7]); ([0xB8], [0x01; 0x03; 0x88]);
  ([0xB9], [0x01; 0x03; 0x89]); ([0xBA], [0x01; 0x03; 0x8A]); ([0xBB], [0x01; 0xBB]); ([0xBC], [0x01; 0x03; 0x8C]); ([0xBD], [0x01; 0xBD]); ([0xBE], [0x01; 0x03; 0x8E]);
  ([0xBF], [0x01; 0x03; 0x8F]); ([0xC0], [0x01; 0x03; 0x90]); ([0xC1], [0x01; 0x03; 0x91]); ([0xC2], [0x01; 0x03; 0x92]); ([0xC3], [0x01; 0x03; 0x93]); ([0xC4], [0x01; 0x03; 0x94]);
  ([0xC5], [0x01; 0x03; 0x95]); ([0xC6], [0x01; 0x03; 0x96]); ([0xC7], [0x01; 0x03; 0x97]); ([0xC8], [0x01; 0x03; 0x98]); ([0xC9], [0x01; 0x03; 0x99]); ([0xCA], [0x01; 0x03; 0x9A]);
  ([0xCB], [0x01; 0x03; 0x9B]); ([0xCC], [0x01; 0x03; 0x9C]); ([0xCD], [0x01; 0x03; 0x9D]); ([0xCE], [0x01; 0x03; 0x9E]); ([0xCF], [0x01; 0x03; 0x9F]); ([0xD0], [0x01; 0x03; 0xA0]);
  ([0xD1], [0x01; 0x03; 0xA1]); ([0xD3], [0x01; 0x03; 0xA3]); ([0xD4], [0x01; 0x03; 0xA4]); ([0xD5], [0x01; 0x03; 0xA5]); ([0xD6], [0x01; 0x03; 0xA6]); ([0xD7], [0x01; 0x03; 0xA7]);
  ([0xD8], [0x01; 0x03; 0xA8]); ([0xD9], [0x01; 0x03; 0xA9]); ([0xDA], [0x01; 0x03; 0xAA]); ([0xDB], [0x01; 0x03; 0xAB]); ([0xDC], [0x01; 0x03; 0xAC]); ([0xDD], [0x01; 0x03; 0xAD]);
  ([0xDE], [0x01; 0x03; 0xAE]); ([0xDF], [0x01; 0x03; 0xAF]); ([0xE0], [0x01; 0x03; 0xB0]); ([0xE1], [0x01; 0x03; 0xB1]); ([0xE2], [0x01; 0x03; 0xB2]); ([0xE3], [0x01; 0x03; 0xB3]);
  ([0xE4], [0x01; 0x03; 0xB4]); ([0xE5], [0x01; 0x03; 0xB5]); ([0xE6], [0x01; 0x03; 0xB6]); ([0xE7], [0x01; 0x03; 0xB7]); ([0xE8], [0x01; 0x03; 0xB8]); ([0xE9], [0x01; 0x03; 0xB9]);
  ([0xEA], [0x01; 0x03; 0xBA]); ([0xEB], [0x01; 0x03; 0xBB]); ([0xEC], [0x01; 0x03; 0xBC]); ([0xED], [0x01; 0x03; 0xBD]); ([0xEE], [0x01; 0x03; 0xBE]); ([0xEF], [0x01; 0x03; 0xBF]);
  ([0xF0], [0x01; 0x03; 0xC0]); ([0xF1], [0x01; 0x03; 0xC1]); ([0xF2], [0x01; 0x03; 0xC2]); ([0xF3], [0x01; 0x03; 0xC3]); ([0xF4], [0x01; 0x03; 0xC4]); ([0xF5], [0x01; 0x03; 0xC5]);
  ([0xF6], [0x01; 0x03; 0xC6]); ([0xF7], [0x01; 0x03; 0xC7]); ([0xF8], [0x01; 0x03; 0xC8]); ([0xF9], [0x01; 0x03; 0xC9]); ([0xFA], [0x01; 0x03; 0xCA]); ([0xFB], [0x01; 0x03; 0xCB]);
  ([0xFC], [0x01; 0x03; 0xCC]); ([0xFD], [0x01; 0x03; 0xCD]); ([0xFE], [0x01; 0x03; 0xCE])].
(** modules/from/_CP1254.txt *)
Definition cp1254_from : list (list N * list N) := [([0x80], [0x01; 0x20; 0xAC]); ([0x82], [0x01; 0x20; 0x1A]); ([0x83], [0x01; 0x01; 0x92]); ([0x84], [0x01; 0x20; 0x1E]); ([0x85], [0x01; 0x20; 0x26]); ([0x86], [0x01; 0x20; 0x20]);
  ([0x87], [0x01; 0x20; 0x21]); ([0x88], [0x01; 0x02; 0xC6]); ([0x89], [0x01; 0x20; 0x30]); ([0x8A], [0x01; 0x01; 0x60]); ([0x8B], [0x01; 0x20; 0x39]); ([0x8C], [0x01; 0x01; 0x52]);
  ([0x91], [0x01; 0x20; 0x18]); ([0x92], [0x01; 0x20; 0x19]); ([0x93], [0x01; 0x20; 0x1C]); ([0x94], [0x01; 0x20; 0x1D]); ([0x95], [0x01; 0x20; 0x22]); ([0x96], [0x01; 0x20; 0x13]);
  ([0x97], [0x01; 0x20; 0x14]); ([0x98], [0x01; 0x02; 0xDC]); ([0x99], [0x01; 0x21; 0x22]); ([0x9A], [0x01; 0x01; 0x61]); ([0x9B], [0x01; 0x20; 0x3A]); ([0x9C], [0x01; 0x01; 0x53]);
  ([0x9F], [0x01; 0x01; 0x78]); ([0xA0], [0x01; 0xA0]); ([0xA1], [0x01; 0xA1]); ([0xA2], [0x01; 0xA2]); ([0xA3], [0x01; 0xA3]); ([0xA4], [0x01; 0xA4]);
  ([0xA5], [0x01; 0xA5]); ([0xA6], [0x01; 0xA6]); ([0xA7], [0x01; 0xA7]); ([0xA8], [0x01; 0xA8]); ([0xA9], [0x01; 0xA9]); ([0xAA], [0x01; 0xAA]);
  ([0xAB], [0x01; 0xAB]); ([0xAC], [0x01; 0xAC]); ([0xAD], [0x01; 0xAD]); ([0xAE], [0x01; 0xAE]); ([0xAF], [0x01; 0xAF]); ([0xB0], [0x01; 0xB0]);
  ([0xB1], [0x01; 0xB1]); ([0xB2], [0x01; 0xB2]); ([0xB3], [0x01; 0xB3]); ([0xB4], [0x01; 0xB4]); ([0xB5], [0x01; 0xB5]); ([0xB6], [0x01; 0xB6]);
  ([0xB7], [0x01; 0xB7]); ([0xB8], [0x01; 0xB8]); ([0xB9], [0x01; 0xB9]); ([0xBA], [0x01; 0xBA]); ([0xBB], [0x01; 0xBB]); ([0xBC], [0x01; 0xBC]);
  ([0xBD], [0x01; 0xBD]); ([0xBE], [0x01; 0xBE]); ([0xBF], [0x01; 0xBF]); ([0xC0], [0x01; 0xC0]); ([0xC1], [0x01; 0xC1]); ([0xC2], [0x01; 0xC2]);
  ([0xC3], [0x01; 0xC3]); ([0xC4], [0x01; 0xC4]); ([0xC5], [0x01; 0xC5]); ([0xC6], [0x01; 0xC6]); ([0xC7], [0x01; 0xC7]); ([0xC8], [0x01; 0xC8]);
  ([0xC9], [0x01; 0xC9]); ([0xCA], [0x01; 0xCA]); ([0xCB], [0x01; 0xCB]); ([0xCC], [0x01; 0xCC]); ([0xCD], [0x01; 0xCD]); ([0xCE], [0x01; 0xCE]);
  ([0xCF], [0x01; 0xCF]); ([0xD0], [0x01; 0x01; 0x1E]); ([0xD1], [0x01; 0xD1]); ([0xD2], [0x01; 0xD2]); ([0xD3], [0x01; 0xD3]); ([0xD4], [0x01; 0xD4]);
  ([0xD5], [0x01; 0xD5]); ([0xD6], [0x01; 0xD6]); ([0xD7], [0x01; 0xD7]); ([0xD8], [0x01; 0xD8]); ([0xD9], [0x01; 0xD9]); ([0xDA], [0x01; 0xDA]);
  ([0xDB], [0x01; 0xDB]); ([0xDC], [0x01; 0xDC]); ([0xDD], [0x01; 0x01; 0x30]); ([0xDE], [0x01; 0x01; 0x5E]); ([0xDF], [0x01; 0xDF]); ([0xE0], [0x01; 0xE0]);
  ([0xE1], [0x01; 0xE1]); ([0xE2], [0x01; 0xE2]); ([0xE3], [0x01; 0xE3]); ([0xE4], [0x01; 0xE4]); ([0xE5], [0x01; 0xE5]); ([0xE6], [0x01; 0xE6]);
  ([0xE7], [0x01; 0xE7]); ([0xE8], [0x01; 0xE8]); ([0xE9], [0x01; 0xE9]); ([0xEA], [0x01; 0xEA]); ([0xEB], [0x01; 0xEB]); ([0xEC], [0x01; 0xEC]);
  ([0xED], [0x01; 0xED]); ([0xEE], [0x01; 0xEE]); ([0xEF], [0x01; 0xEF]); ([0xF0], [0x01; 0x01; 0x1F]); ([0xF1], [0x01; 0xF1]); ([0xF2], [0x01; 0xF2]);
  ([0xF3], [0x01; 0xF3]); ([0xF4], [0x01; 0xF4]); ([0xF5], [0x01; 0xF5]); ([0xF6], [0x01; 0xF6]); ([0xF7], [0x01; 0xF7]); ([0xF8], [0x01; 0xF8]);
  ([0xF9], [0x01; 0xF9]); ([0xFA], [0x01; 0xFA]); ([0xFB], [0x01; 0xFB]); ([0xFC], [0x01; 0xFC]); ([0xFD], [0x01; 0x01; 0x31]); ([0xFE], [0x01; 0x01; 0x5F]);
  ([0xFF], [0x01; 0xFF])].
(** modules/from/_CP1255.txt *)
Definition cp1255_from : list (list N * list N) := [([0x80], [0x01; 0x20; 0xAC]); ([0x82], [0x01; 0x20; 0x1A]); ([0x83], [0x01; 0x01; 0x92]); ([0x84], [0x01; 0x20; 0x1E]); ([0x85], [0x01; 0x20; 0x26]); ([0x86], [0x01; 0x20; 0x20]);
  ([0x87], [0x01; 0x20; 0x21]); ([0x88], [0x01; 0x02; 0xC6]); ([0x89], [0x01; 0x20; 0x30]); ([0x8B], [0x01; 0x20; 0x39]); ([0x91], [0x01; 0x20; 0x18]); ([0x92], [0x01; 0x20; 0x19]);
  ([0x93], [0x01; 0x20; 0x1C]); ([0x94], [0x01; 0x20; 0x1D]); ([0x95], [0x01; 0x20; 0x22]); ([0x96], [0x01; 0x20; 0x13]); ([0x97], [0x01; 0x20; 0x14]); ([0x98], [0x01; 0x02; 0xDC]);
  ([0x99], [0x01; 0x21; 0x22]); ([0x9B], [0x01; 0x20; 0x3A]); ([0xA0], [0x01; 0xA0]); ([0xA1], [0x01; 0xA1]); ([0xA2], [0x01; 0xA2]); ([0xA3], [0x01; 0xA3]);
  ([0xA4], [0x01; 0x20; 0xAA]); ([0xA5], [0x01; 0xA5]); ([0xA6], [0x01; 0xA6]); ([0xA7], [0x01; 0xA7]); ([0xA8], [0x01; 0xA8]); ([0xA9], [0x01; 0xA9]);
  ([0xAA], [0x01; 0xD7]); ([0xAB], [0x01; 0xAB]); ([0xAC], [0x01; 0xAC]); ([0xAD], [0x01; 0xAD]); ([0xAE], [0x01; 0xAE]); ([0xAF], [0x01; 0xAF]);
  ([0xB0], [0x01; 0xB0]); ([0xB1], [0x01; 0xB1]); ([0xB2], [0x01; 0xB2]); ([0xB3], [0x01; 0xB3]); ([0xB4], [0x01; 0xB4]); ([0xB5], [0x01; 0xB5]);
  ([0xB6], [0x01; 0xB6]); ([0xB7], [0x01; 0xB7]); ([0xB8], [0x01; 0xB8]); ([0xB9], [0x01; 0xB9]); ([0xBA], [0x01; 0xF7]); ([0xBB], [0x01; 0xBB]);
  ([0xBC], [0x01; 0xBC]); ([0xBD], [0x01; 0xBD]); ([0xBE], [0x01; 0xBE]); ([0xBF], [0x01; 0xBF]); ([0xC0], [0x01; 0x05; 0xB0]); ([0xC1], [0x01; 0x05; 0xB1]);
  ([0xC2], [0x01; 0x05; 0xB2]); ([0xC3], [0x01; 0x05; 0xB3]); ([0xC4], [0x01; 0x05; 0xB4]); ([0xC5], [0x01; 0x05; 0xB5]); ([0xC6], [0x01; 0x05; 0xB6]); ([0xC7], [0x01; 0x05; 0xB7]);
  ([0xC8], [0x01; 0x05; 0xB8]); ([0xC9], [0x01; 0x05; 0xB9]); ([0xCB], [0x01; 0x05; 0xBB]); ([0xCC], [0x01; 0x05; 0xBC]); ([0xCD], [0x01; 0x05; 0xBD]); ([0xCE], [0x01; 0x05; 0xBE]);
  ([0xCF], [0x01; 0x05; 0xBF]); ([0xD0], [0x01; 0x05; 0xC0]); ([0xD1], [0x01; 0x05; 0xC1]); ([0xD2], [0x01; 0x05; 0xC2]); ([0xD3], [0x01; 0x05; 0xC3]); ([0xD4], [0x01; 0x05; 0xF0]);
  ([0xD5], [0x01; 0x05; 0xF1]); ([0xD6], [0x01; 0x05; 0xF2]); ([0xD7], [0x01; 0x05; 0xF3]); ([0xD8], [0x01; 0x05; 0xF4]); ([0xE0], [0x01; 0x05; 0xD0]); ([0xE1], [0x01; 0x05; 0xD1]);
  ([0xE2], [0x01; 0x05; 0xD2]); ([0xE3], [0x01; 0x05; 0xD3]); ([0xE4], [0x01; 0x05; 0xD4]); ([0xE5], [0x01; 0x05; 0xD5]); ([0xE6], [0x01; 0x05; 0xD6]); ([0xE7], [0x01; 0x05; 0xD7]);
  ([0xE8], [0x01; 0x05; 0xD8]); ([0xE9], [0x01; 0x05; 0xD9]); ([0xEA], [0x01; 0x05; 0xDA]); ([0xEB], [0x01; 0x05; 0xDB]); ([0xEC], [0x01; 0x05; 0xDC]); ([0xED], [0x01; 0x05; 0xDD]);
  ([0xEE], [0x01; 0x05; 0xDE]); ([0xEF], [0x01; 0x05; 0xDF]); ([0xF0], [0x01; 0x05; 0xE0]); ([0xF1], [0x01; 0x05; 0xE1]); ([0xF2], [0x01; 0x05; 0xE2]); ([0xF3], [0x01; 0x05; 0xE3]);
  ([0xF4], [0x01; 0x05; 0xE4]); ([0xF5], [0x01; 0x05; 0xE5]); ([0xF6], [0x01; 0x05; 0xE6]); ([0xF7], [0x01; 0x05; 0xE7]); ([0xF8], [0x01; 0x05; 0xE8]); ([0xF9], [0x01; 0x05; 0xE9]);
  ([0xFA], [0x01; 0x05; 0xEA]); ([0xFD], [0x01; 0x20; 0x0E]); ([0xFE], [0x01; 0x20; 0x0F])].
(** modules/from/_CP1256.txt *)
Definition cp1256_from : list (list N * list N) := [([0x80], [0x01; 0x20; 0xAC]); ([0x81], [0x01; 0x06; 0x7E]); ([0x82], [0x01; 0x20; 0x1A]); ([0x83], [0x01; 0x01; 0x92]); ([0x84], [0x01; 0x20; 0x1E]); ([0x85], [0x01; 0x20; 0x26]);
  ([0x86], [0x01; 0x20; 0x20]); ([0x87], [0x01; 0x20; 0x21]); ([0x88], [0x01; 0x02; 0xC6]); ([0x89], [0x01; 0x20; 0x30]); ([0x8A], [0x01; 0x06; 0x79]); ([0x8B], [0x01; 0x20; 0x39]);
  ([0x8C], [0x01; 0x01; 0x52]); ([0x8D], [0x01; 0x06; 0x86]); ([0x8E], [0x01; 0x06; 0x98]); ([0x8F], [0x01; 0x06; 0x88]); ([0x90], [0x01; 0x06; 0xAF]); ([0x91], [0x01; 0x20; 0x18]);
  ([0x92], [0x01; 0x20; 0x19]); ([0x93], [0x01; 0x20; 0x1C]); ([0x94], [0x01; 0x20; 0x1D]); ([0x95], [0x01; 0x20; 0x22]); ([0x96], [0x01; 0x20; 0x13]); ([0x97], [0x01; 0x20; 0x14]);
  ([0x98], [0x01; 0x06; 0xA9]); ([0x99], [0x01; 0x21; 0x22]); ([0x9A], [0x01; 0x06; 0x91]); ([0x9B], [0x01; 0x20; 0x3A]); ([0x9C], [0x01; 0x01; 0x53]); ([0x9D], [0x01; 0x20; 0x0C]);
  ([0x9E], [0x01; 0x20; 0x0D]); ([0x9F], [0x01; 0x06; 0xBA]); ([0xA0], [0x01; 0xA0]); ([0xA1], [0x01; 0x06; 0x0C]); ([0xA2], [0x01; 0xA2]); ([0xA3], [0x01; 0xA3]);
  ([0xA4], [0x01; 0xA4]); ([0xA5], [0x01; 0xA5]); ([0xA6], [0x01; 0xA6]); ([0xA7], [0x01; 0xA7]); ([0xA8], [0x01; 0xA8]); ([0xA9], [0x01; 0xA9]);
  ([0xAA], [0x01; 0x06; 0xBE]); ([0xAB], [0x01; 0xAB]); ([0xAC], [0x01; 0xAC]); ([0xAD], [0x01; 0xAD]); ([0xAE], [0x01; 0xAE]); ([0xAF], [0x01; 0xAF]);
  ([0xB0], [0x01; 0xB0]); ([0xB1], [0x01; 0xB1]); ([0xB2], [0x01; 0xB2]); ([0xB3], [0x01; 0xB3]); ([0xB4], [0x01; 0xB4]); ([0xB5], [0x01; 0xB5]);
  ([0xB6], [0x01; 0xB6]); ([0xB7], [0x01; 0xB7]); ([0xB8], [0x01; 0xB8]); ([0xB9], [0x01; 0xB9]); ([0xBA], [0x01; 0x06; 0x1B]); ([0xBB], [0x01; 0xBB]);
  ([0xBC], [0x01; 0xBC]); ([0xBD], [0x01; 0xBD]); ([0xBE], [0x01; 0xBE]); ([0xBF], [0x01; 0x06; 0x1F]); ([0xC0], [0x01; 0x06; 0xC1]); ([0xC1], [0x01; 0x06; 0x21]);
  ([0xC2], [0x01; 0x06; 0x22]); ([0xC3], [0x01; 0x06; 0x23]); ([0xC4], [0x01; 0x06; 0x24]); ([0xC5], [0x01; 0x06; 0x25]); ([0xC6], [0x01; 0x06; 0x26]); ([0xC7], [0x01; 0x06; 0x27]);
  ([0xC8], [0x01; 0x06; 0x28]); ([0xC9], [0x01; 0x06; 0x29]); ([0xCA], [0x01; 0x06; 0x2A]); ([0xCB], [0x01; 0x06; 0x2B]); ([0xCC], [0x01; 0x06; 0x2C]); ([0xCD], [0x01; 0x06; 0x2D]);
  ([0xCE], [0x01; 0x06; 0x2E]); ([0xCF], [0x01; 0x06; 0x2F]); ([0xD0], [0x01; 0x06; 0x30]); ([0xD1], [0x01; 0x06; 0x31]); ([0xD2], [0x01; 0x06; 0x32]); ([0xD3], [0x01; 0x06; 0x33]);
  ([0xD4], [0x01; 0x06; 0x34]); ([0xD5], [0x01; 0x06; 0x35]); ([0xD6], [0x01; 0x06; 0x36]); ([0xD7], [0x01; 0xD7]); ([0xD8], [0x01; 0x06; 0x37]); ([0xD9], [0x01; 0x06; 0x38]);
  ([0xDA], [0x01; 0x06; 0x39]); ([0xDB], [0x01; 0x06; 0x3A]); ([0xDC], [0x01; 0x06; 0x40]); ([0xDD], [0x01; 0x06; 0x41]); ([0xDE], [0x01; 0x06; 0x42]); ([0xDF], [0x01; 0x06; 0x43]);
  ([0xE0], [0x01; 0xE0]); ([0xE1], [0x01; 0x06; 0x44]); ([0xE2], [0x01; 0xE2]); ([0xE3], [0x01; 0x06; 0x45]); ([0xE4], [0x01; 0x06; 0x46]); ([0xE5], [0x01; 0x06; 0x47]);
  ([0xE6], [0x01; 0x06; 0x48]); ([0xE7], [0x01; 0xE7]); ([0xE8], [0x01; 0xE8]); ([0xE9], [0x01; 0xE9]); ([0xEA], [0x01; 0xEA]); ([0xEB], [0x01; 0xEB]);
  ([0xEC], [0x01; 0x06; 0x49]); ([0xED], [0x01; 0x06; 0x4A]); ([0xEE], [0x01; 0xEE]); ([0xEF], [0x01; 0xEF]); ([0xF0], [0x01; 0x06; 0x4B]); ([0xF1], [0x01; 0x06; 0x4C]);
  ([0xF2], [0x01; 0x06; 0x4D]); ([0xF3], [0x01; 0x06; 0x4E]); ([0xF4], [0x01; 0xF4]); ([0xF5], [0x01; 0x06; 0x4F]); ([0xF6], [0x01; 0x06; 0x50]); ([0xF7], [0x01; 0xF7]);
  ([0xF8], [0x01; 0x06; 0x51]); ([0xF9], [0x01; 0xF9]); ([0xFA], [0x01; 0x06; 0x52]); ([0xFB], [0x01; 0xFB]); ([0xFC], [0x01; 0xFC]); ([0xFD], [0x01; 0x20; 0x0E]);
  ([0xFE], [0x01; 0x20; 0x0F]); ([0xFF], [0x01; 0x06; 0xD2])].
(** modules/from/_CP1257.txt *)
Definition cp1257_from : list (list N * list N) := [([0x80], [0x01; 0x20; 0xAC]); ([0x82], [0x01; 0x20; 0x1A]); ([0x84], [0x01; 0x20; 0x1E]); ([0x85], [0x01; 0x20; 0x26]); ([0x86], [0x01; 0x20; 0x20]); ([0x87], [0x01; 0x20; 0x21]);
  ([0x89], [0x01; 0x20; 0x30]); ([0x8B], [0x01; 0x20; 0x39]); ([0x8D], [0x01; 0xA8]); ([0x8E], [0x01; 0x02; 0xC7]); ([0x8F], [0x01; 0xB8]); ([0x91], [0x01; 0x20; 0x18]);
  ([0x92], [0x01; 0x20; 0x19]); ([0x93], [0x01; 0x20; 0x1C]); ([0x94], [0x01; 0x20; 0x1D]); ([0x95], [0x01; 0x20; 0x22]); ([0x96], [0x01; 0x20; 0x13]); ([0x97], [0x01; 0x20; 0x14]);
  ([0x99], [0x01; 0x21; 0x22]); ([0x9B], [0x01; 0x20; 0x3A]); ([0x9D], [0x01; 0xAF]); ([0x9E], [0x01; 0x02; 0xDB]); ([0xA0], [0x01; 0xA0]); ([0xA2], [0x01; 0xA2]);
  ([0xA3], [0x01; 0xA3]); ([0xA4], [0x01; 0xA4]); ([0xA6], [0x01; 0xA6]); ([0xA7], [0x01; 0xA7]); ([0xA8], [0x01; 0xD8]); ([0xA9], [0x01; 0xA9]);
  ([0xAA], [0x01; 0x01; 0x56]); ([0xAB], [0x01; 0xAB]); ([0xAC], [0x01; 0xAC]); ([0xAD], [0x01; 0xAD]); ([0xAE], [0x01; 0xAE]); ([0xAF], [0x01; 0xC6]);
  ([0xB0], [0x01; 0xB0]); ([0xB1], [0x01; 0xB1]); ([0xB2], [0x01; 0xB2]); ([0xB3], [0x01; 0xB3]); ([0xB4], [0x01; 0xB4]); ([0xB5], [0x01; 0xB5]);
  ([0xB6], [0x01; 0xB6]); ([0xB7], [0x01; 0xB7]); ([0xB8], [0x01; 0xF8]); ([0xB9], [0x01; 0xB9]); ([0xBA], [0x01; 0x01; 0x57]); ([0xBB], [0x01; 0xBB]);
  ([0xBC], [0x01; 0xBC]); ([0xBD], [0x01; 0xBD]); ([0xBE], [0x01; 0xBE]); ([0xBF], [0x01; 0xE6]); ([0xC0], [0x01; 0x01; 0x04]); ([0xC1], [0x01; 0x01; 0x2E]);
  ([0xC2], [0x01; 0x01; 0x00]); ([0xC3], [0x01; 0x01; 0x06]); ([0xC4], [0x01; 0xC4]); ([0xC5], [0x01; 0xC5]); ([0xC6], [0x01; 0x01; 0x18]); ([0xC7], [0x01; 0x01; 0x12]);
  ([0xC8], [0x01; 0x01; 0x0C]); ([0xC9], [0x01; 0xC9]); ([0xCA], [0x01; 0x01; 0x79]); ([0xCB], [0x01; 0x01; 0x16]); ([0xCC], [0x01; 0x01; 0x22]); ([0xCD], [0x01; 0x01; 0x36]);
  ([0xCE], [0x01; 0x01; 0x2A]); ([0xCF], [0x01; 0x01; 0x3B]); ([0xD0], [0x01; 0x01; 0x60]); ([0xD1], [0x01; 0x01; 0x43]); ([0xD2], [0x01; 0x01; 0x45]); ([0xD3], [0x01; 0xD3]);
  ([0xD4], [0x01; 0x01; 0x4C]); ([0xD5], [0x01; 0xD5]); ([0xD6], [0x01; 0xD6]); ([0xD7], [0x01; 0xD7]); ([0xD8], [0x01; 0x01; 0x72]); ([0xD9], [0x01; 0x01; 0x41]);
  ([0xDA], [0x01; 0x01; 0x5A]); ([0xDB], [0x01; 0x01; 0x6A]); ([0xDC], [0x01; 0xDC]); ([0xDD], [0x01; 0x01; 0x7B]); ([0xDE], [0x01; 0x01; 0x7D]); ([0xDF], [0x01; 0xDF]);
  ([0xE0], [0x01; 0x01; 0x05]); ([0xE1], [0x01; 0x01; 0x2F]); ([0xE2], [0x01; 0x01; 0x01]); ([0xE3], [0x01; 0x01; 0x07]); ([0xE4], [0x01; 0xE4]); ([0xE5], [0x01; 0xE5]);
  ([0xE6], [0x01; 0x01; 0x19]); ([0xE7], [0x01; 0x01; 0x13]); ([0xE8], [0x01; 0x01; 0x0D]); ([0xE9], [0x01; 0xE9]); ([0xEA], [0x01; 0x01; 0x7A]); ([0xEB], [0x01; 0x01; 0x17]);
  ([0xEC], [0x01; 0x01; 0x23]); ([0xED], [0x01; 0x01; 0x37]); ([0xEE], [0x01; 0x01; 0x2B]); ([0xEF], [0x01; 0x01; 0x3C]); ([0xF0], [0x01; 0x01; 0x61]); ([0xF1], [0x01; 0x01; 0x44]);
  ([0xF2], [0x01; 0x01; 0x46]); ([0xF3], [0x01; 0xF3]); ([0xF4], [0x01; 0x01; 0x4D]); ([0xF5], [0x01; 0xF5]); ([0xF6], [0x01; 0xF6]); ([0xF7], [0x01; 0xF7]);
  ([0xF8], [0x01; 0x01; 0x73]); ([0xF9], [0x01; 0x01; 0x42]); ([0xFA], [0x01; 0x01; 0x5B]); ([0xFB], [0x01; 0x01; 0x6B]); ([0xFC], [0x01; 0xFC]); ([0xFD], [0x01; 0x01; 0x7C]);
  ([0xFE], [0x01; 0x01; 0x7E]); ([0xFF], [0x01; 0x02; 0xD9])].
(** modules/from/_CP1258.txt *)
Definition cp1258_from : list (list N * list N) := [([0x80], [0x01; 0x20; 0xAC]); ([0x82], [0x01; 0x20; 0x1A]); ([0x83], [0x01; 0x01; 0x92]); ([0x84], [0x01; 0x20; 0x1E]); ([0x85], [0x01; 0x20; 0x26]); ([0x86], [0x01; 0x20; 0x20]);
  ([0x87], [0x01; 0x20; 0x21]); ([0x88], [0x01; 0x02; 0xC6]); ([0x89], [0x01; 0x20; 0x30]); ([0x8B], [0x01; 0x20; 0x39]); ([0x8C], [0x01; 0x01; 0x52]); ([0x91], [0x01; 0x20; 0x18]);
  ([0x92], [0x01; 0x20; 0x19]); ([0x93], [0x01; 0x20; 0x1C]); ([0x94], [0x01; 0x20; 0x1D]); ([0x95], [0x01; 0x20; 0x22]); ([0x96], [0x01; 0x20; 0x13]); ([0x97], [0x01; 0x20; 0x14]);
  ([0x98], [0x01; 0x02; 0xDC]); ([0x99], [0x01; 0x21; 0x22]); ([0x9B], [0x01; 0x20; 0x3A]); ([0x9C], [0x01; 0x01; 0x53]); ([0x9F], [0x01; 0x01; 0x78]); ([0xA0], [0x01; 0xA0]);
  ([0xA1], [0x01; 0xA1]); ([0xA2], [0x01; 0xA2]); ([0xA3], [0x01; 0xA3]); ([0xA4], [0x01; 0xA4]); ([0xA5], [0x01; 0xA5]); ([0xA6], [0x01; 0xA6]);
  ([0xA7], [0x01; 0xA7]); ([0xA8], [0x01; 0xA8]); ([0xA9], [0x01; 0xA9]); ([0xAA], [0x01; 0xAA]); ([0xAB], [0x01; 0xAB]); ([0xAC], [0x01; 0xAC]);
  ([0xAD], [0x01; 0xAD]); ([0xAE], [0x01; 0xAE]); ([0xAF], [0x01; 0xAF]); ([0xB0], [0x01; 0xB0]); ([0xB1], [0x01; 0xB1]); ([0xB2], [0x01; 0xB2]);
  ([0xB3], [0x01; 0xB3]); ([0xB4], [0x01; 0xB4]); ([0xB5], [0x01; 0xB5]); ([0xB6], [0x01; 0xB6]); ([0xB7], [0x01; 0xB7]); ([0xB8], [0x01; 0xB8]);
  ([0xB9], [0x01; 0xB9]); ([0xBA], [0x01; 0xBA]); ([0xBB], [0x01; 0xBB]); ([0xBC], [0x01; 0xBC]); ([0xBD], [0x01; 0xBD]); ([0xBE], [0x01; 0xBE]);
  ([0xBF], [0x01; 0xBF]); ([0xC0], [0x01; 0xC0]); ([0xC1], [0x01; 0xC1]); ([0xC2], [0x01; 0xC2]); ([0xC3], [0x01; 0x01; 0x02]); ([0xC4], [0x01; 0xC4]);
  ([0xC5], [0x01; 0xC5]); ([0xC6], [0x01; 0xC6]); ([0xC7], [0x01; 0xC7]); ([0xC8], [0x01; 0xC8]); ([0xC9], [0x01; 0xC9]); ([0xCA], [0x01; 0xCA]);
  ([0xCB], [0x01; 0xCB]); ([0xCC], [0x01; 0x03; 0x00]); ([0xCD], [0x01; 0xCD]); ([0xCE], [0x01; 0xCE]); ([0xCF], [0x01; 0xCF]); ([0xD0], [0x01; 0x01; 0x10]);
  ([0xD1], [0x01; 0xD1]); ([0xD2], [0x01; 0x03; 0x09]); ([0xD3], [0x01; 0xD3]); ([0xD4], [0x01; 0xD4]); ([0xD5], [0x01; 0x01; 0xA0]); ([0xD6], [0x01; 0xD6]);
  ([0xD7], [0x01; 0xD7]); ([0xD8], [0x01; 0xD8]); ([0xD9], [0x01; 0xD9]); ([0xDA], [0x01; 0xDA]); ([0xDB], [0x01; 0xDB]); ([0xDC], [0x01; 0xDC]);
  ([0xDD], [0x01; 0x01; 0xAF]); ([0xDE], [0x01; 0x03; 0x03]); ([0xDF], [0x01; 0xDF]); ([0xE0], [0x01; 0xE0]); ([0xE1], [0x01; 0xE1]); ([0xE2], [0x01; 0xE2]);
  ([0xE3], [0x01; 0x01; 0x03]); ([0xE4], [0x01; 0xE4]); ([0xE5], [0x01; 0xE5]); ([0xE6], [0x01; 0xE6]); ([0xE7], [0x01; 0xE7]); ([0xE8], [0x01; 0xE8]);
  ([0xE9], [0x01; 0xE9]); ([0xEA], [0x01; 0xEA]); ([0xEB], [0x01; 0xEB]); ([0xEC], [0x01; 0x03; 0x01]); ([0xED], [0x01; 0xED]); ([0xEE], [0x01; 0xEE]);
  ([0xEF], [0x01; 0xEF]); ([0xF0], [0x01; 0x01; 0x11]); ([0xF1], [0x01; 0xF1]); ([0xF2], [0x01; 0x03; 0x23]); ([0xF3], [0x01; 0xF3]); ([0xF4], [0x01; 0xF4]);
  ([0xF5], [0x01; 0x01; 0xA1]); ([0xF6], [0x01; 0xF6]); ([0xF7], [0x01; 0xF7]); ([0xF8], [0x01; 0xF8]); ([0xF9], [0x01; 0xF9]); ([0xFA], [0x01; 0xFA]);
  ([0xFB], [0x01; 0xFB]); ([0xFC], [0x01; 0xFC]); ([0xFD], [0x01; 0x01; 0xB0]); ([0xFE], [0x01; 0x20; 0xAB]); ([0xFF], [0x01; 0xFF])].
(** modules/from/_CP874.txt *)
Definition cp874_from : list (list N * list N) := [([0x80], [0x01; 0x20; 0xAC]); ([0x85], [0x01; 0x20; 0x26]); ([0x91], [0x01; 0x20; 0x18]); ([0x92], [0x01; 0x20; 0x19]); ([0x93], [0x01; 0x20; 0x1C]); ([0x94], [0x01; 0x20; 0x1D]);
  ([0x95], [0x01; 0x20; 0x22]); ([0x96], [0x01; 0x20; 0x13]); ([0x97], [0x01; 0x20; 0x14]); ([0xA0], [0x01; 0xA0]); ([0xA1], [0x01; 0x0E; 0x01]); ([0xA2], [0x01; 0x0E; 0x02]);
  ([0xA3], [0x01; 0x0E; 0x03]); ([0xA4], [0x01; 0x0E; 0x04]); ([0xA5], [0x01; 0x0E; 0x05]); ([0xA6], [0x01; 0x0E; 0x06]); ([0xA7], [0x01; 0x0E; 0x07]); ([0xA8], [0x01; 0x0E; 0x08]);
  ([0xA9], [0x01; 0x0E; 0x09]); ([0xAA], [0x01; 0x0E; 0x0A]); ([0xAB], [0x01; 0x0E; 0x0B]); ([0xAC], [0x01; 0x0E; 0x0C]); ([0xAD], [0x01; 0x0E; 0x0D]); ([0xAE], [0x01; 0x0E; 0x0E]);
  ([0xAF], [0x01; 0x0E; 0x0F]); ([0xB0], [0x01; 0x0E; 0x10]); ([0xB1], [0x01; 0x0E; 0x11]); ([0xB2], [0x01; 0x0E; 0x12]); ([0xB3], [0x01; 0x0E; 0x13]); ([0xB4], [0x01; 0x0E; 0x14]);
  ([0xB5], [0x01; 0x0E; 0x15]); ([0xB6], [0x01; 0x0E; 0x16]); ([0xB7], [0x01; 0x0E; 0x17]); ([0xB8], [0x01; 0x0E; 0x18]); ([0xB9], [0x01; 0x0E; 0x19]); ([0xBA], [0x01; 0x0E; 0x1A]);
  ([0xBB], [0x01; 0x0E; 0x1B]); ([0xBC], [0x01; 0x0E; 0x1C]); ([0xBD], [0x01; 0x0E; 0x1D]); ([0xBE], [0x01; 0x0E; 0x1E]); ([0xBF], [0x01; 0x0E; 0x1F]); ([0xC0], [0x01; 0x0E; 0x20]);
  ([0xC1], [0x01; 0x0E; 0x21]); ([0xC2], [0x01; 0x0E; 0x22]); ([0xC3], [0x01; 0x0E; 0x23]); ([0xC4], [0x01; 0x0E; 0x24]); ([0xC5], [0x01; 0x0E; 0x25]); ([0xC6], [0x01; 0x0E; 0x26]);
  ([0xC7], [0x01; 0x0E; 0x27]); ([0xC8], [0x01; 0x0E; 0x28]); ([0xC9], [0x01; 0x0E; 0x29]); ([0xCA], [0x01; 0x0E; 0x2A]); ([0xCB], [0x01; 0x0E; 0x2B]); ([0xCC], [0x01; 0x0E; 0x2C]);
  ([0xCD], [0x01; 0x0E; 0x2D]); ([0xCE], [0x01; 0x0E; 0x2E]); ([0xCF], [0x01; 0x0E; 0x2F]); ([0xD0], [0x01; 0x0E; 0x30]); ([0xD1], [0x01; 0x0E; 0x31]); ([0xD2], [0x01; 0x0E; 0x32]);
  ([0xD3], [0x01; 0x0E; 0x33]); ([0xD4], [0x01; 0x0E; 0x34]); ([0xD5], [0x01; 0x0E; 0x35]); ([0xD6], [0x01; 0x0E; 0x36]); ([0xD7], [0x01; 0x0E; 0x37]); ([0xD8], [0x01; 0x0E; 0x38]);
  ([0xD9], [0x01; 0x0E; 0x39]); ([0xDA], [0x01; 0x0E; 0x3A]); ([0xDF], [0x01; 0x0E; 0x3F]); ([0xE0], [0x01; 0x0E; 0x40]); ([0xE1], [0x01; 0x0E; 0x41]); ([0xE2], [0x01; 0x0E; 0x42]);
  ([0xE3], [0x01; 0x0E; 0x43]); ([0xE4], [0x01; 0x0E; 0x44]); ([0xE5], [0x01; 0x0E; 0x45]); ([0xE6], [0x01; 0x0E; 0x46]); ([0xE7], [0x01; 0x0E; 0x47]); ([0xE8], [0x01; 0x0E; 0x48]);
  ([0xE9], [0x01; 0x0E; 0x49]); ([0xEA], [0x01; 0x0E; 0x4A]); ([0xEB], [0x01; 0x0E; 0x4B]); ([0xEC], [0x01; 0x0E; 0x4C]); ([0xED], [0x01; 0x0E; 0x4D]); ([0xEE], [0x01; 0x0E; 0x4E]);
  ([0xEF], [0x01; 0x0E; 0x4F]); ([0xF0], [0x01; 0x0E; 0x50]); ([0xF1], [0x01; 0x0E; 0x51]); ([0xF2], [0x01; 0x0E; 0x52]); ([0xF3], [0x01; 0x0E; 0x53]); ([0xF4], [0x01; 0x0E; 0x54]);
  ([0xF5], [0x01; 0x0E; 0x55]); ([0xF6], [0x01; 0x0E; 0x56]); ([0xF7], [0x01; 0x0E; 0x57]); ([0xF8], [0x01; 0x0E; 0x58]); ([0xF9], [0x01; 0x0E; 0x59]); ([0xFA], [0x01; 0x0E; 0x5A]);
  ([0xFB], [0x01; 0x0E; 0x5B])].
(** modules/from/_ISO-8859-1.txt *)
Definition iso_8859_1_from : list (list N * list N) := [([0xA0], [0x01; 0xA0]); ([0xA1], [0x01; 0xA1]); ([0xA2], [0x01; 0xA2]); ([0xA3], [0x01; 0xA3]); ([0xA4], [0x01; 0xA4]); ([0xA5], [0x01; 0xA5]);
  ([0xA6], [0x01; 0xA6]); ([0xA7], [0x01; 0xA7]); ([0xA8], [0x01; 0xA8]); ([0xA9], [0x01; 0xA9]); ([0xAA], [0x01; 0xAA]); ([0xAB], [0x01; 0xAB]);
  ([0xAC], [0x01; 0xAC]); ([0xAD], [0x01; 0xAD]); ([0xAE], [0x01; 0xAE]); ([0xAF], [0x01; 0xAF]); ([0xB0], [0x01; 0xB0]); ([0xB1], [0x01; 0xB1]);
  ([0xB2], [0x01; 0xB2]); ([0xB3], [0x01; 0xB3]); ([0xB4], [0x01; 0xB4]); ([0xB5], [0x01; 0xB5]); ([0xB6], [0x01; 0xB6]); ([0xB7], [0x01; 0xB7]);
  ([0xB8], [0x01; 0xB8]); ([0xB9], [0x01; 0xB9]); ([0xBA], [0x01; 0xBA]); ([0xBB], [0x01; 0xBB]); ([0xBC], [0x01; 0xBC]); ([0xBD], [0x01; 0xBD]);
  ([0xBE], [0x01; 0xBE]); ([0xBF], [0x01; 0xBF]); ([0xC0], [0x01; 0xC0]); ([0xC1], [0x01; 0xC1]); ([0xC2], [0x01; 0xC2]); ([0xC3], [0x01; 0xC3]);
  ([0xC4], [0x01; 0xC4]); ([0xC5], [0x01; 0xC5]); ([0xC6], [0x01; 0xC6]); ([0xC7], [0x01; 0xC7]); ([0xC8], [0x01; 0xC8]); ([0xC9], [0x01; 0xC9]);
  ([0xCA], [0x01; 0xCA]); ([0xCB], [0x01; 0xCB]); ([0xCC], [0x01; 0xCC]); ([0xCD], [0x01; 0xCD]); ([0xCE], [0x01; 0xCE]); ([0xCF], [0x01; 0xCF]);
  ([0xD0], [0x01; 0xD0]); ([0xD1], [0x01; 0xD1]); ([0xD2], [0x01; 0xD2]); ([0xD3], [0x01; 0xD3]); ([0xD4], [0x01; 0xD4]); ([0xD5], [0x01; 0xD5]);
  ([0xD6], [0x01; 0xD6]); ([0xD7], [0x01; 0xD7]); ([0xD8], [0x01; 0xD8]); ([0xD9], [0x01; 0xD9]); ([0xDA], [0x01; 0xDA]); ([0xDB], [0x01; 0xDB]);
  ([0xDC], [0x01; 0xDC]); ([0xDD], [0x01; 0xDD]); ([0xDE], [0x01; 0xDE]); ([0xDF], [0x01; 0xDF]); ([0xE0], [0x01; 0xE0]); ([0xE1], [0x01; 0xE1]);
  ([0xE2], [0x01; 0xE2]); ([0xE3], [0x01; 0xE3]); ([0xE4], [0x01; 0xE4]); ([0xE5], [0x01; 0xE5]); ([0xE6], [0x01; 0xE6]); ([0xE7], [0x01; 0xE7]);
  ([0xE8], [0x01; 0xE8]); ([0xE9], [0x01; 0xE9]); ([0xEA], [0x01; 0xEA]); ([0xEB], [0x01; 0xEB]); ([0xEC], [0x01; 0xEC]); ([0xED], [0x01; 0xED]);
  ([0xEE], [0x01; 0xEE]); ([0xEF], [0x01; 0xEF]); ([0xF0], [0x01; 0xF0]); ([0xF1], [0x01; 0xF1]); ([0xF2], [0x01; 0xF2]); ([0xF3], [0x01; 0xF3]);
  ([0xF4], [0x01; 0xF4]); ([0xF5], [0x01; 0xF5]); ([0xF6], [0x01; 0xF6]); ([0xF7], [0x01; 0xF7]); ([0xF8], [0x01; 0xF8]); ([0xF9], [0x01; 0xF9]);
  ([0xFA], [0x01; 0xFA]); ([0xFB], [0x01; 0xFB]); ([0xFC], [0x01; 0xFC]); ([0xFD], [0x01; 0xFD]); ([0xFE], [0x01; 0xFE]); ([0xFF], [0x01; 0xFF])].
(** modules/to/_CP1251.txt *)
Definition cp1251_to : list (list N * list N) := [([0x01; 0x04; 0x02], [0x80]); ([0x01; 0x04; 0x03], [0x81]); ([0x01; 0x20; 0x1A], [0x82]); ([0x01; 0x04; 0x53], [0x83]); ([0x01; 0x20; 0x1E], [0x84]); ([0x01; 0x20; 0x26], [0x85]);
  ([0x01; 0x20; 0x20], [0x86]); ([0x01; 0x20; 0x21], [0x87]); ([0x01; 0x20; 0xAC], [0x88]); ([0x01; 0x20; 0x30], [0x89]); ([0x01; 0x04; 0x09], [0x8A]); ([0x01; 0x20; 0x39], [0x8B]);
  ([0x01; 0x04; 0x0A], [0x8C]); ([0x01; 0x04; 0x0C], [0x8D]); ([0x01; 0x04; 0x0B], [0x8E]); ([0x01; 0x04; 0x0F], [0x8F]); ([0x01; 0x04; 0x52], [0x90]); ([0x01; 0x20; 0x18], [0x91]);
  ([0x01; 0x20; 0x19], [0x92]); ([0x01; 0x20; 0x1C], [0x93]); ([0x01; 0x20; 0x1D], [0x94]); ([0x01; 0x20; 0x22], [0x95]); ([0x01; 0x20; 0x13], [0x96]); ([0x01; 0x20; 0x14], [0x97]);
  ([0x01; 0x21; 0x22], [0x99]); ([0x01; 0x04; 0x59], [0x9A]); ([0x01; 0x20; 0x3A], [0x9B]); ([0x01; 0x04; 0x5A], [0x9C]); ([0x01; 0x04; 0x5C], [0x9D]); ([0x01; 0x04; 0x5B], [0x9E]);
  ([0x01; 0x04; 0x5F], [0x9F]); ([0x01; 0xA0], [0xA0]); ([0x01; 0x04; 0x0E], [0xA1]); ([0x01; 0x04; 0x5E], [0xA2]); ([0x01; 0x04; 0x08], [0xA3]); ([0x01; 0xA4], [0xA4]);
  ([0x01; 0x04; 0x90], [0xA5]); ([0x01; 0xA6], [0xA6]); ([0x01; 0xA7], [0xA7]); ([0x01; 0x04; 0x01], [0xA8]); ([0x01; 0xA9], [0xA9]); ([0x01; 0x04; 0x04], [0xAA]);
  ([0x01; 0xAB], [0xAB]); ([0x01; 0xAC], [0xAC]); ([0x01; 0xAD], [0xAD]); ([0x01; 0xAE], [0xAE]); ([0x01; 0x04; 0x07], [0xAF]); ([0x01; 0xB0], [0xB0]);
  ([0x01; 0xB1], [0xB1]); ([0x01; 0x04; 0x06], [0xB2]); ([0x01; 0x04; 0x56], [0xB3]); ([0x01; 0x04; 0x91], [0xB4]); ([0x01; 0xB5], [0xB5]); ([0x01; 0xB6], [0xB6]);
  ([0x01; 0xB7], [0xB7]); ([0x01; 0x04; 0x51], [0xB8]); ([0x01; 0x21; 0x16], [0xB9]); ([0x01; 0x04; 0x54], [0xBA]); ([0x01; 0xBB], [0xBB]); ([0x01; 0x04; 0x58], [0xBC]);
  ([0x01; 0x04; 0x05], [0xBD]); ([0x01; 0x04; 0x55], [0xBE]); ([0x01; 0x04; 0x57], [0xBF]); ([0x01; 0x04; 0x10], [0xC0]); ([0x01; 0x04; 0x11], [0xC1]); ([0x01; 0x04; 0x12], [0xC2]);
  ([0x01; 0x04; 0x13], [0xC3]); ([0x01; 0x04; 0x14], [0xC4]); ([0x01; 0x04; 0x15], [0xC5]); ([0x01; 0x04; 0x16], [0xC6]); ([0x01; 0x04; 0x17], [0xC7]); ([0x01; 0x04; 0x18], [0xC8]);
  ([0x01; 0x04; 0x19], [0xC9]); ([0x01; 0x04; 0x1A], [0xCA]); ([0x01; 0x04; 0x1B], [0xCB]); ([0x01; 0x04; 0x1C], [0xCC]); ([0x01; 0x04; 0x1D], [0xCD]); ([0x01; 0x04; 0x1E], [0xCE]);
  ([0x01; 0x04; 0x1F], [0xCF]); ([0x01; 0x04; 0x20], [0xD0]); ([0x01; 0x04; 0x21], [0xD1]); ([0x01; 0x04; 0x22], [0xD2]); ([0x01; 0x04; 0x23], [0xD3]); ([0x01; 0x04; 0x24], [0xD4]);
  ([0x01; 0x04; 0x25], [0xD5]); ([0x01; 0x04; 0x26], [0xD6]); ([0x01; 0x04; 0x27], [0xD7]); ([0x01; 0x04; 0x28], [0xD8]); ([0x01; 0x04; 0x29], [0xD9]); ([0x01; 0x04; 0x2A], [0xDA]);
  ([0x01; 0x04; 0x2B], [0xDB]); ([0x01; 0x04; 0x2C], [0xDC]); ([0x01; 0x04; 0x2D], [0xDD]); ([0x01; 0x04; 0x2E], [0xDE]); ([0x01; 0x04; 0x2F], [0xDF]); ([0x01; 0x04; 0x30], [0xE0]);
  ([0x01; 0x04; 0x31], [0xE1]); ([0x01; 0x04; 0x32], [0xE2]); ([0x01; 0x04; 0x33], [0xE3]); ([0x01; 0x04; 0x34], [0xE4]); ([0x01; 0x04; 0x35], [0xE5]); ([0x01; 0x04; 0x36], [0xE6]);
  ([0x01; 0x04; 0x37], [0xE7]); ([0x01; 0x04; 0x38], [0xE8]); ([0x01; 0x04; 0x39], [0xE9]); ([0x01; 0x04; 0x3A], [0xEA]); ([0x01; 0x04; 0x3B], [0xEB]); ([0x01; 0x04; 0x3C], [0xEC]);
  ([0x01; 0x04; 0x3D], [0xED]); ([0x01; 0x04; 0x3E], [0xEE]); ([0x01; 0x04; 0x3F], [0xEF]); ([0x01; 0x04; 0x40], [0xF0]); ([0x01; 0x04; 0x41], [0xF1]); ([0x01; 0x04; 0x42], [0xF2]);
  ([0x01; 0x04; 0x43], [0xF3]); ([0x01; 0x04; 0x44], [0xF4]); ([0x01; 0x04; 0x45], [0xF5]); ([0x01; 0x04; 0x46], [0xF6]); ([0x01; 0x04; 0x47], [0xF7]); ([0x01; 0x04; 0x48], [0xF8]);
  ([0x01; 0x04; 0x49], [0xF9]); ([0x01; 0x04; 0x4A], [0xFA]); ([0x01; 0x04; 0x4B], [0xFB]); ([0x01; 0x04; 0x4C], [0xFC]); ([0x01; 0x04; 0x4D], [0xFD]); ([0x01; 0x04; 0x4E], [0xFE]);
  ([0x01; 0x04; 0x4F], [0xFF])].
(** modules/to/_CP1252.txt *)
Definition cp1252_to : list (list N * list N) := [([0x01; 0x20; 0xAC], [0x80]); ([0x01; 0x20; 0x1A], [0x82]); ([0x01; 0x01; 0x92], [0x83]); ([0x01; 0x20; 0x1E], [0x84]); ([0x01; 0x20; 0x26], [0x85]); ([0x01; 0x20; 0x20], [0x86]);
  ([0x01; 0x20; 0x21], [0x87]); ([0x01; 0x02; 0xC6], [0x88]); ([0x01; 0x20; 0x30], [0x89]); ([0x01; 0x01; 0x60], [0x8A]); ([0x01; 0x20; 0x39], [0x8B]); ([0x01; 0x01; 0x52], [0x8C]);
  ([0x01; 0x01; 0x7D], [0x8E]); ([0x01; 0x20; 0x18], [0x91]); ([0x01; 0x20; 0x19], [0x92]); ([0x01; 0x20; 0x1C], [0x93]); ([0x01; 0x20; 0x1D], [0x94]); ([0x01; 0x20; 0x22], [0x95]);
  ([0x01; 0x20; 0x13], [0x96]); ([0x01; 0x20; 0x14], [0x97]); ([0x01; 0x02; 0xDC], [0x98]); ([0x01; 0x21; 0x22], [0x99]); ([0x01; 0x01; 0x61], [0x9A]); ([0x01; 0x20; 0x3A], [0x9B]);
  ([0x01; 0x01; 0x53], [0x9C]); ([0x01; 0x01; 0x7E], [0x9E]); ([0x01; 0x01; 0x78], [0x9F]); ([0x01; 0xA0], [0xA0]); ([0x01; 0xA1], [0xA1]); ([0x01; 0xA2], [0xA2]);
  ([0x01; 0xA3], [0xA3]); ([0x01; 0xA4], [0xA4]); ([0x01; 0xA5], [0xA5]); ([0x01; 0xA6], [0xA6]); ([0x01; 0xA7], [0xA7]); ([0x01; 0xA8], [0xA8]);
  ([0x01; 0xA9], [0xA9]); ([0x01; 0xAA], [0xAA]); ([0x01; 0xAB], [0xAB]); ([0x01; 0xAC], [0xAC]); ([0x01; 0xAD], [0xAD]); ([0x01; 0xAE], [0xAE]);
  ([0x01; 0xAF], [0xAF]); ([0x01; 0xB0], [0xB0]); ([0x01; 0xB1], [0xB1]); ([0x01; 0xB2], [0xB2]); ([0x01; 0xB3], [0xB3]); ([0x01; 0xB4], [0xB4]);
  ([0x01; 0xB5], [0xB5]); ([0x01; 0xB6], [0xB6]); ([0x01; 0xB7], [0xB7]); ([0x01; 0xB8], [0xB8]); ([0x01; 0xB9], [0xB9]); ([0x01; 0xBA], [0xBA]);
  ([0x01; 0xBB], [0xBB]); ([0x01; 0xBC], [0xBC]); ([0x01; 0xBD], [0xBD]); ([0x01; 0xBE], [0xBE]); ([0x01; 0xBF], [0xBF]); ([0x01; 0xC0], [0xC0]);
  ([0x01; 0xC1], [0xC1]); ([0x01; 0xC2], [0xC2]); ([0x01; 0xC3], [0xC3]); ([0x01; 0xC4], [0xC4]); ([0x01; 0xC5], [0xC5]); ([0x01; 0xC6], [0xC6]);
  ([0x01; 0xC7], [0xC7]); ([0x01; 0xC8], [0xC8]); ([0x01; 0xC9], [0xC9]); ([0x01; 0xCA], [0xCA]); ([0x01; 0xCB], [0xCB]); ([0x01; 0xCC], [0xCC]);
  ([0x01; 0xCD], [0xCD]); ([0x01; 0xCE], [0xCE]); ([0x01; 0xCF], [0xCF]); ([0x01; 0xD0], [0xD0]); ([0x01; 0xD1], [0xD1]); ([0x01; 0xD2], [0xD2]);
  ([0x01; 0xD3], [0xD3]); ([0x01; 0xD4], [0xD4]); ([0x01; 0xD5], [0xD5]); ([0x01; 0xD6], [0xD6]); ([0x01; 0xD7], [0xD7]); ([0x01; 0xD8], [0xD8]);
  ([0x01; 0xD9], [0xD9]); ([0x01; 0xDA], [0xDA]); ([0x01; 0xDB], [0xDB]); ([0x01; 0xDC], [0xDC]); ([0x01; 0xDD], [0xDD]); ([0x01; 0xDE], [0xDE]);
  ([0x01; 0xDF], [0xDF]); ([0x01; 0xE0], [0xE0]); ([0x01; 0xE1], [0xE1]); ([0x01; 0xE2], [0xE2]); ([0x01; 0xE3], [0xE3]); ([0x01; 0xE4], [0xE4]);
  ([0x01; 0xE5], [0xE5]); ([0x01; 0xE6], [0xE6]); ([0x01; 0xE7], [0xE7]); ([0x01; 0xE8], [0xE8]); ([0x01; 0xE9], [0xE9]); ([0x01; 0xEA], [0xEA]);
  ([0x01; 0xEB], [0xEB]); ([0x01; 0xEC], [0xEC]); ([0x01; 0xED], [0xED]); ([0x01; 0xEE], [0xEE]); ([0x01; 0xEF], [0xEF]); ([0x01; 0xF0], [0xF0]);
  ([0x01; 0xF1], [0xF1]); ([0x01; 0xF2], [0xF2]); ([0x01; 0xF3], [0xF3]); ([0x01; 0xF4], [0xF4]); ([0x01; 0xF5], [0xF5]); ([0x01; 0xF6], [0xF6]);
  ([0x01; 0xF7], [0xF7]); ([0x01; 0xF8], [0xF8]); ([0x01; 0xF9], [0xF9]); ([0x01; 0xFA], [0xFA]); ([0x01; 0xFB], [0xFB]); ([0x01; 0xFC], [0xFC]);
  ([0x01; 0xFD], [0xFD]); ([0x01; 0xFE], [0xFE]); ([0x01; 0xFF], [0xFF])].
(** modules/to/_CP1253.txt *)
Definition cp1253_to : list (list N * list N) := [([0x01; 0x20; 0xAC], [0x80]); ([0x01; 0x20; 0x1A], [0x82]); ([0x01; 0x01; 0x92], [0x83]); ([0x01; 0x20; 0x1E], [0x84]); ([0x01; 0x20; 0x26], [0x85]); ([0x01; 0x20; 0x20], [0x86]);
  ([0x01; 0x20; 0x21], [0x87]); ([0x01; 0x20; 0x30], [0x89]); ([0x01; 0x20; 0x39], [0x8B]); ([0x01; 0x20; 0x18], [0x91]); ([0x01; 0x20; 0x19], [0x92]); ([0x01; 0x20; 0x1C], [0x93]);
  ([0x01; 0x20; 0x1D], [0x94]); ([0x01; 0x20; 0x22], [0x95]); ([0x01; 0x20; 0x13], [0x96]); ([0x01; 0x20; 0x14], [0x97]); ([0x01; 0x21; 0x22], [0x99]); ([0x01; 0x20; 0x3A], [0x9B]);
  ([0x01; 0x00; 0xA0], [0xA0]); ([0x01; 0x03; 0x85], [0xA1]); ([0x01; 0x03; 0x86], [0xA2]); ([0x01; 0x00; 0xA3], [0xA3]); ([0x01; 0x00; 0xA4], [0xA4]); ([0x01; 0x00; 0xA5], [0xA5]);
  ([0x01; 0x00; 0xA6], [0xA6]); ([0x01; 0x00; 0xA7], [0xA7]); ([0x01; 0x00; 0xA8], [0xA8]); ([0x01; 0x00; 0xA9], [0xA9]); ([0x01; 0x00; 0xAB], [0xAB]); ([0x01; 0x00; 0xAC], [0xAC]);
  ([0x01; 0x00; 0xAD], [0xAD]); ([0x01; 0x00; 0xAE], [0xAE]); ([0x01; 0x20; 0x15], [0xAF]); ([0x01; 0x00; 0xB0], [0xB0]); ([0x01; 0x00; 0xB1], [0xB1]); ([0x01; 0x00; 0xB2], [0xB2]);
  ([0x01; 0x00; 0xB3], [0xB3]); ([0x01; 0x03; 0x84], [0xB4]); ([0x01; 0x00; 0xB5], [0xB5]); ([0x01; 0x00; 0xB6], [0xB6]); ([0x01; 0x00; 0xB7], [0xB7]); ([0x01; 0x03; 0x88], [0xB8]);
  ([0x01; 0x03; 0x89], [0xB9]); ([0x01; 0x03; 0x8A], [0xBA]); ([0x01; 0x00; 0xBB], [0xBB]); ([0x01; 0x03; 0x8C], [0xBC]); ([0x01; 0x00; 0xBD], [0xBD]); ([0x01; 0x03; 0x8E], [0xBE]);
  ([0x01; 0x03; 0x8F], [0xBF]); ([0x01; 0x03; 0x90], [0xC0]); ([0x01; 0x03; 0x91], [0xC1]); ([0x01; 0x03; 0x92], [0xC2]); ([0x01; 0x03; 0x93], [0xC3]); ([0x01; 0x03; 0x94], [0xC4]);
  ([0x01; 0x03; 0x95], [0xC5]); ([0x01; 0x03; 0x96], [0xC6]); ([0x01; 0x03; 0x97], [0xC7]); ([0x01; 0x03; 0x98], [0xC8]); ([0x01; 0x03; 0x99], [0xC9]); ([0x01; 0x03; 0x9A], [0xCA]);
  ([0x01; 0x03; 0x9B], [0xCB]); ([0x01; 0x03; 0x9C], [0xCC]); ([0x01; 0x03; 0x9D], [0xCD]); ([0x01; 0x03; 0x9E], [0xCE]); ([0x01; 0x03; 0x9F], [0xCF]); ([0x01; 0x03; 0xA0], [0xD0]);
  ([0x01; 0x03; 0xA1], [0xD1]); ([0x01; 0x03; 0xA3], [0xD3]); ([0x01; 0x03; 0xA4], [0xD4]); ([0x01; 0x03; 0xA5], [0xD5]); ([0x01; 0x03; 0xA6], [0xD6]); ([0x01; 0x03; 0xA7], [0xD7]);
  ([0x01; 0x03; 0xA8], [0xD8]); ([0x01; 0x03; 0xA9], [0xD9]); ([0x01; 0x03; 0xAA], [0xDA]); ([0x01; 0x03; 0xAB], [0xDB]); ([0x01; 0x03; 0xAC], [0xDC]); ([0x01; 0x03; 0xAD], [0xDD]);
  ([0x01; 0x03; 0xAE], [0xDE]); ([0x01; 0x03; 0xAF], [0xDF]); ([0x01; 0x03; 0xB0], [0xE0]); ([0x01; 0x03; 0xB1], [0xE1]); ([0x01; 0x03; 0xB2], [0xE2]); ([0x01; 0x03; 0xB3], [0xE3]);
  ([0x01; 0x03; 0xB4], [0xE4]); ([0x01; 0x03; 0xB5], [0xE5]); ([0x01; 0x03; 0xB6], [0xE6]); ([0x01; 0x03; 0xB7], [0xE7]); ([0x01; 0x03; 0xB8], [0xE8]); ([0x01; 0x03; 0xB9], [0xE9]);
  ([0x01; 0x03; 0xBA], [0xEA]); ([0x01; 0x03; 0xBB], [0xEB]); ([0x01; 0x03; 0xBC], [0xEC]); ([0x01; 0x03; 0xBD], [0xED]); ([0x01; 0x03; 0xBE], [0xEE]); ([0x01; 0x03; 0xBF], [0xEF]);
  ([0x01; 0x03; 0xC0], [0xF0]); ([0x01; 0x03; 0xC1], [0xF1]); ([0x01; 0x03; 0xC2], [0xF2]); ([0x01; 0x03; 0xC3], [0xF3]); ([0x01; 0x03; 0xC4], [0xF4]); ([0x01; 0x03; 0xC5], [0xF5]);
  ([0x01; 0x03; 0xC6], [0xF6]); ([0x01; 0x03; 0xC7], [0xF7]); ([0x01; 0x03; 0xC8], [0xF8]); ([0x01; 0x03; 0xC9], [0xF9]); ([0x01; 0x03; 0xCA], [0xFA]); ([0x01; 0x03; 0xCB], [0xFB]);
  ([0x01; 0x03; 0xCC], [0xFC]); ([0x01; 0x03; 0xCD], [0xFD]); ([0x01; 0x03; 0xCE], [0xFE])].
(** modules/to/_CP874.txt *)
Definition cp874_to : list (list N * list N) := [([0x01; 0x20; 0xAC], [0x80]); ([0x01; 0x20; 0x26], [0x85]); ([0x01; 0x20; 0x18], [0x91]); ([0x01; 0x20; 0x19], [0x92]); ([0x01; 0x20; 0x1C], [0x93]); ([0x01; 0x20; 0x1D], [0x94]);
  ([0x01; 0x20; 0x22], [0x95]); ([0x01; 0x20; 0x13], [0x96]); ([0x01; 0x20; 0x14], [0x97]); ([0x01; 0x00; 0xA0], [0xA0]); ([0x01; 0x0E; 0x01], [0xA1]); ([0x01; 0x0E; 0x02], [0xA2]);
  ([0x01; 0x0E; 0x03], [0xA3]); ([0x01; 0x0E; 0x04], [0xA4]); ([0x01; 0x0E; 0x05], [0xA5]); ([0x01; 0x0E; 0x06], [0xA6]); ([0x01; 0x0E; 0x07], [0xA7]); ([0x01; 0x0E; 0x08], [0xA8]);
  ([0x01; 0x0E; 0x09], [0xA9]); ([0x01; 0x0E; 0x0A], [0xAA]); ([0x01; 0x0E; 0x0B], [0xAB]); ([0x01; 0x0E; 0x0C], [0xAC]); ([0x01; 0x0E; 0x0D], [0xAD]); ([0x01; 0x0E; 0x0E], [0xAE]);
  ([0x01; 0x0E; 0x0F], [0xAF]); ([0x01; 0x0E; 0x10], [0xB0]); ([0x01; 0x0E; 0x11], [0xB1]); ([0x01; 0x0E; 0x12], [0xB2]); ([0x01; 0x0E; 0x13], [0xB3]); ([0x01; 0x0E; 0x14], [0xB4]);
  ([0x01; 0x0E; 0x15], [0xB5]); ([0x01; 0x0E; 0x16], [0xB6]); ([0x01; 0x0E; 0x17], [0xB7]); ([0x01; 0x0E; 0x18], [0xB8]); ([0x01; 0x0E; 0x19], [0xB9]); ([0x01; 0x0E; 0x1A], [0xBA]);
  ([0x01; 0x0E; 0x1B], [0xBB]); ([0x01; 0x0E; 0x1C], [0xBC]); ([0x01; 0x0E; 0x1D], [0xBD]); ([0x01; 0x0E; 0x1E], [0xBE]); ([0x01; 0x0E; 0x1F], [0xBF]); ([0x01; 0x0E; 0x20], [0xC0]);
  ([0x01; 0x0E; 0x21], [0xC1]); ([0x01; 0x0E; 0x22], [0xC2]); ([0x01; 0x0E; 0x23], [0xC3]); ([0x01; 0x0E; 0x24], [0xC4]); ([0x01; 0x0E; 0x25], [0xC5]); ([0x01; 0x0E; 0x26], [0xC6]);
  ([0x01; 0x0E; 0x27], [0xC7]); ([0x01; 0x0E; 0x28], [0xC8]); ([0x01; 0x0E; 0x29], [0xC9]); ([0x01; 0x0E; 0x2A], [0xCA]); ([0x01; 0x0E; 0x2B], [0xCB]); ([0x01; 0x0E; 0x2C], [0xCC]);
  ([0x01; 0x0E; 0x2D], [0xCD]); ([0x01; 0x0E; 0x2E], [0xCE]); ([0x01; 0x0E; 0x2F], [0xCF]); ([0x01; 0x0E; 0x30], [0xD0]); ([0x01; 0x0E; 0x31], [0xD1]); ([0x01; 0x0E; 0x32], [0xD2]);
  ([0x01; 0x0E; 0x33], [0xD3]); ([0x01; 0x0E; 0x34], [0xD4]); ([0x01; 0x0E; 0x35], [0xD5]); ([0x01; 0x0E; 0x36], [0xD6]); ([0x01; 0x0E; 0x37], [0xD7]); ([0x01; 0x0E; 0x38], [0xD8]);
  ([0x01; 0x0E; 0x39], [0xD9]); ([0x01; 0x0E; 0x3A], [0xDA]); ([0x01; 0x0E; 0x3F], [0xDF]); ([0x01; 0x0E; 0x40], [0xE0]); ([0x01; 0x0E; 0x41], [0xE1]); ([0x01; 0x0E; 0x42], [0xE2]);
  ([0x01; 0x0E; 0x43], [0xE3]); ([0x01; 0x0E; 0x44], [0xE4]); ([0x01; 0x0E; 0x45], [0xE5]); ([0x01; 0x0E; 0x46], [0xE6]); ([0x01; 0x0E; 0x47], [0xE7]); ([0x01; 0x0E; 0x48], [0xE8]);
  ([0x01; 0x0E; 0x49], [0xE9]); ([0x01; 0x0E; 0x4A], [0xEA]); ([0x01; 0x0E; 0x4B], [0xEB]); ([0x01; 0x0E; 0x4C], [0xEC]); ([0x01; 0x0E; 0x4D], [0xED]); ([0x01; 0x0E; 0x4E], [0xEE]);
  ([0x01; 0x0E; 0x4F], [0xEF]); ([0x01; 0x0E; 0x50], [0xF0]); ([0x01; 0x0E; 0x51], [0xF1]); ([0x01; 0x0E; 0x52], [0xF2]); ([0x01; 0x0E; 0x53], [0xF3]); ([0x01; 0x0E; 0x54], [0xF4]);
  ([0x01; 0x0E; 0x55], [0xF5]); ([0x01; 0x0E; 0x56], [0xF6]); ([0x01; 0x0E; 0x57], [0xF7]); ([0x01; 0x0E; 0x58], [0xF8]); ([0x01; 0x0E; 0x59], [0xF9]); ([0x01; 0x0E; 0x5A], [0xFA]);
  ([0x01; 0x0E; 0x5B], [0xFB])].
(** modules/to/_ISO-8859-1.txt *)
Definition iso_8859_1_to : list (list N * list N) := [([0x01; 0xA0], [0xA0]); ([0x01; 0xA1], [0xA1]); ([0x01; 0xA2], [0xA2]); ([0x01; 0xA3], [0xA3]); ([0x01; 0xA4], [0xA4]); ([0x01; 0xA5], [0xA5]);
  ([0x01; 0xA6], [0xA6]); ([0x01; 0xA7], [0xA7]); ([0x01; 0xA8], [0xA8]); ([0x01; 0xA9], [0xA9]); ([0x01; 0xAA], [0xAA]); ([0x01; 0xAB], [0xAB]);
  ([0x01; 0xAC], [0xAC]); ([0x01; 0xAD], [0xAD]); ([0x01; 0xAE], [0xAE]); ([0x01; 0xAF], [0xAF]); ([0x01; 0xB0], [0xB0]); ([0x01; 0xB1], [0xB1]);
  ([0x01; 0xB2], [0xB2]); ([0x01; 0xB3], [0xB3]); ([0x01; 0xB4], [0xB4]); ([0x01; 0xB5], [0xB5]); ([0x01; 0xB6], [0xB6]); ([0x01; 0xB7], [0xB7]);
  ([0x01; 0xB8], [0xB8]); ([0x01; 0xB9], [0xB9]); ([0x01; 0xBA], [0xBA]); ([0x01; 0xBB], [0xBB]); ([0x01; 0xBC], [0xBC]); ([0x01; 0xBD], [0xBD]);
  ([0x01; 0xBE], [0xBE]); ([0x01; 0xBF], [0xBF]); ([0x01; 0xC0], [0xC0]); ([0x01; 0xC1], [0xC1]); ([0x01; 0xC2], [0xC2]); ([0x01; 0xC3], [0xC3]);
  ([0x01; 0xC4], [0xC4]); ([0x01; 0xC5], [0xC5]); ([0x01; 0xC6], [0xC6]); ([0x01; 0xC7], [0xC7]); ([0x01; 0xC8], [0xC8]); ([0x01; 0xC9], [0xC9]);
  ([0x01; 0xCA], [0xCA]); ([0x01; 0xCB], [0xCB]); ([0x01; 0xCC], [0xCC]); ([0x01; 0xCD], [0xCD]); ([0x01; 0xCE], [0xCE]); ([0x01; 0xCF], [0xCF]);
  ([0x01; 0xD0], [0xD0]); ([0x01; 0xD1], [0xD1]); ([0x01; 0xD2], [0xD2]); ([0x01; 0xD3], [0xD3]); ([0x01; 0xD4], [0xD4]); ([0x01; 0xD5], [0xD5]);
  ([0x01; 0xD6], [0xD6]); ([0x01; 0xD7], [0xD7]); ([0x01; 0xD8], [0xD8]); ([0x01; 0xD9], [0xD9]); ([0x01; 0xDA], [0xDA]); ([0x01; 0xDB], [0xDB]);
  ([0x01; 0xDC], [0xDC]); ([0x01; 0xDD], [0xDD]); ([0x01; 0xDE], [0xDE]); ([0x01; 0xDF], [0xDF]); ([0x01; 0xE0], [0xE0]); ([0x01; 0xE1], [0xE1]);
  ([0x01; 0xE2], [0xE2]); ([0x01; 0xE3], [0xE3]); ([0x01; 0xE4], [0xE4]); ([0x01; 0xE5], [0xE5]); ([0x01; 0xE6], [0xE6]); ([0x01; 0xE7], [0xE7]);
  ([0x01; 0xE8], [0xE8]); ([0x01; 0xE9], [0xE9]); ([0x01; 0xEA], [0xEA]); ([0x01; 0xEB], [0xEB]); ([0x01; 0xEC], [0xEC]); ([0x01; 0xED], [0xED]);
  ([0x01; 0xEE], [0xEE]); ([0x01; 0xEF], [0xEF]); ([0x01; 0xF0], [0xF0]); ([0x01; 0xF1], [0xF1]); ([0x01; 0xF2], [0xF2]); ([0x01; 0xF3], [0xF3]);
  ([0x01; 0xF4], [0xF4]); ([0x01; 0xF5], [0xF5]); ([0x01; 0xF6], [0xF6]); ([0x01; 0xF7], [0xF7]); ([0x01; 0xF8], [0xF8]); ([0x01; 0xF9], [0xF9]);
  ([0x01; 0xFA], [0xFA]); ([0x01; 0xFB], [0xFB]); ([0x01; 0xFC], [0xFC]); ([0x01; 0xFD], [0xFD]); ([0x01; 0xFE], [0xFE]); ([0x01; 0xFF], [0xFF])].
(** modules/from/FALLBACK-UNICODE.txt *)
Definition fallback_from : list (list N * list N) := [([0x00], [0x01; 0x00]); ([0x01], [0x01; 0x01]); ([0x02], [0x01; 0x02]); ([0x03], [0x01; 0x03]); ([0x04], [0x01; 0x04]); ([0x05], [0x01; 0x05]);
  ([0x06], [0x01; 0x06]); ([0x07], [0x01; 0x07]); ([0x08], [0x01; 0x08]); ([0x09], [0x01; 0x09]); ([0x0A], [0x01; 0x0A]); ([0x0B], [0x01; 0x0B]);
  ([0x0C], [0x01; 0x0C]); ([0x0D], [0x01; 0x0D]); ([0x0E], [0x01; 0x0E]); ([0x0F], [0x01; 0x0F]); ([0x10], [0x01; 0x10]); ([0x11], [0x01; 0x11]);
  ([0x12], [0x01; 0x12]); ([0x13], [0x01; 0x13]); ([0x14], [0x01; 0x14]); ([0x15], [0x01; 0x15]); ([0x16], [0x01; 0x16]); ([0x17], [0x01; 0x17]);
  ([0x18], [0x01; 0x18]); ([0x19], [0x01; 0x19]); ([0x1A], [0x01; 0x1A]); ([0x1B], [0x01; 0x1B]); ([0x1C], [0x01; 0x1C]); ([0x1D], [0x01; 0x1D]);
  ([0x1E], [0x01; 0x1E]); ([0x1F], [0x01; 0x1F]); ([0x20], [0x01; 0x20]); ([0x21], [0x01; 0x21]); ([0x22], [0x01; 0x22]); ([0x23], [0x01; 0x23]);
  ([0x24], [0x01; 0x24]); ([0x25], [0x01; 0x25]); ([0x26], [0x01; 0x26]); ([0x27], [0x01; 0x27]); ([0x28], [0x01; 0x28]); ([0x29], [0x01; 0x29]);
  ([0x2A], [0x01; 0x2A]); ([0x2B], [0x01; 0x2B]); ([0x2C], [0x01; 0x2C]); ([0x2D], [0x01; 0x2D]); ([0x2E], [0x01; 0x2E]); ([0x2F], [0x01; 0x2F]);
  ([0x30], [0x01; 0x30]); ([0x31], [0x01; 0x31]); ([0x32], [0x01; 0x32]); ([0x33], [0x01; 0x33]); ([0x34], [0x01; 0x34]); ([0x35], [0x01; 0x35]);
  ([0x36], [0x01; 0x36]); ([0x37], [0x01; 0x37]); ([0x38], [0x01; 0x38]); ([0x39], [0x01; 0x39]); ([0x3A], [0x01; 0x3A]); ([0x3B], [0x01; 0x3B]);
  ([0x3C], [0x01; 0x3C]); ([0x3D], [0x01; 0x3D]); ([0x3E], [0x01; 0x3E]); ([0x3F], [0x01; 0x3F]); ([0x40], [0x01; 0x40]); ([0x41], [0x01; 0x41]);
  ([0x42], [0x01; 0x42]); ([0x43], [0x01; 0x43]); ([0x44], [0x01; 0x44]); ([0x45], [0x01; 0x45]); ([0x46], [0x01; 0x46]); ([0x47], [0x01; 0x47]);
  ([0x48], [0x01; 0x48]); ([0x49], [0x01; 0x49]); ([0x4A], [0x01; 0x4A]); ([0x4B], [0x01; 0x4B]); ([0x4C], [0x01; 0x4C]); ([0x4D], [0x01; 0x4D]);
  ([0x4E], [0x01; 0x4E]); ([0x4F], [0x01; 0x4F]); ([0x50], [0x01; 0x50]); ([0x51], [0x01; 0x51]); ([0x52], [0x01; 0x52]); ([0x53], [0x01; 0x53]);
  ([0x54], [0x01; 0x54]); ([0x55], [0x01; 0x55]); ([0x56], [0x01; 0x56]); ([0x57], [0x01; 0x57]); ([0x58], [0x01; 0x58]); ([0x59], [0x01; 0x59]);
  ([0x5A], [0x01; 0x5A]); ([0x5B], [0x01; 0x5B]); ([0x5C], [0x01; 0x5C]); ([0x5D], [0x01; 0x5D]); ([0x5E], [0x01; 0x5E]); ([0x5F], [0x01; 0x5F]);
  ([0x60], [0x01; 0x60]); ([0x61], [0x01; 0x61]); ([0x62], [0x01; 0x62]); ([0x63], [0x01; 0x63]); ([0x64], [0x01; 0x64]); ([0x65], [0x01; 0x65]);
  ([0x66], [0x01; 0x66]); ([0x67], [0x01; 0x67]); ([0x68], [0x01; 0x68]); ([0x69], [0x01; 0x69]); ([0x6A], [0x01; 0x6A]); ([0x6B], [0x01; 0x6B]);
  ([0x6C], [0x01; 0x6C]); ([0x6D], [0x01; 0x6D]); ([0x6E], [0x01; 0x6E]); ([0x6F], [0x01; 0x6F]); ([0x70], [0x01; 0x70]); ([0x71], [0x01; 0x71]);
  ([0x72], [0x01; 0x72]); ([0x73], [0x01; 0x73]); ([0x74], [0x01; 0x74]); ([0x75], [0x01; 0x75]); ([0x76], [0x01; 0x76]); ([0x77], [0x01; 0x77]);
  ([0x78], [0x01; 0x78]); ([0x79], [0x01; 0x79]); ([0x7A], [0x01; 0x7A]); ([0x7B], [0x01; 0x7B]); ([0x7C], [0x01; 0x7C]); ([0x7D], [0x01; 0x7D]);
  ([0x7E], [0x01; 0x7E]); ([0x7F], [0x01; 0x7F]); ([0x80], [0x01; 0x80]); ([0x81], [0x01; 0x81]); ([0x82], [0x01; 0x82]); ([0x83], [0x01; 0x83]);
  ([0x84], [0x01; 0x84]); ([0x85], [0x01; 0x85]); ([0x86], [0x01; 0x86]); ([0x87], [0x01; 0x87]); ([0x88], [0x01; 0x88]); ([0x89], [0x01; 0x89]);
  ([0x8A], [0x01; 0x8A]); ([0x8B], [0x01; 0x8B]); ([0x8C], [0x01; 0x8C]); ([0x8D], [0x01; 0x8D]); ([0x8E], [0x01; 0x8E]); ([0x8F], [0x01; 0x8F]);
  ([0x90], [0x01; 0x90]); ([0x91], [0x01; 0x91]); ([0x92], [0x01; 0x92]); ([0x93], [0x01; 0x93]); ([0x94], [0x01; 0x94]); ([0x95], [0x01; 0x95]);
  ([0x96], [0x01; 0x96]); ([0x97], [0x01; 0x97]); ([0x98], [0x01; 0x98]); ([0x99], [0x01; 0x99]); ([0x9A], [0x01; 0x9A]); ([0x9B], [0x01; 0x9B]);
  ([0x9C], [0x01; 0x9C]); ([0x9D], [0x01; 0x9D]); ([0x9E], [0x01; 0x9E]); ([0x9F], [0x01; 0x9F]); ([0xA0], [0x01; 0xA0]); ([0xA1], [0x01; 0xA1]);
  ([0xA2], [0x01; 0xA2]); ([0xA3], [0x01; 0xA3]); ([0xA4], [0x01; 0xA4]); ([0xA5], [0x01; 0xA5]); ([0xA6], [0x01; 0xA6]); ([0xA7], [0x01; 0xA7]);
  ([0xA8], [0x01; 0xA8]); ([0xA9], [0x01; 0xA9]); ([0xAA], [0x01; 0xAA]); ([0xAB], [0x01; 0xAB]); ([0xAC], [0x01; 0xAC]); ([0xAD], [0x01; 0xAD]);
  ([0xAE], [0x01; 0xAE]); ([0xAF], [0x01; 0xAF]); ([0xB0], [0x01; 0xB0]); ([0xB1], [0x01; 0xB1]); ([0xB2], [0x01; 0xB2]); ([0xB3], [0x01; 0xB3]);
  ([0xB4], [0x01; 0xB4]); ([0xB5], [0x01; 0xB5]); ([0xB6], [0x01; 0xB6]); ([0xB7], [0x01; 0xB7]); ([0xB8], [0x01; 0xB8]); ([0xB9], [0x01; 0xB9]);
  ([0xBA], [0x01; 0xBA]); ([0xBB], [0x01; 0xBB]); ([0xBC], [0x01; 0xBC]); ([0xBD], [0x01; 0xBD]); ([0xBE], [0x01; 0xBE]); ([0xBF], [0x01; 0xBF]);
  ([0xC0], [0x01; 0xC0]); ([0xC1], [0x01; 0xC1]); ([0xC2], [0x01; 0xC2]); ([0xC3], [0x01; 0xC3]); ([0xC4], [0x01; 0xC4]); ([0xC5], [0x01; 0xC5]);
  ([0xC6], [0x01; 0xC6]); ([0xC7], [0x01; 0xC7]); ([0xC8], [0x01; 0xC8]); ([0xC9], [0x01; 0xC9]); ([0xCA], [0x01; 0xCA]); ([0xCB], [0x01; 0xCB]);
  ([0xCC], [0x01; 0xCC]); ([0xCD], [0x01; 0xCD]); ([0xCE], [0x01; 0xCE]); ([0xCF], [0x01; 0xCF]); ([0xD0], [0x01; 0xD0]); ([0xD1], [0x01; 0xD1]);
  ([0xD2], [0x01; 0xD2]); ([0xD3], [0x01; 0xD3]); ([0xD4], [0x01; 0xD4]); ([0xD5], [0x01; 0xD5]); ([0xD6], [0x01; 0xD6]); ([0xD7], [0x01; 0xD7]);
  ([0xD8], [0x01; 0xD8]); ([0xD9], [0x01; 0xD9]); ([0xDA], [0x01; 0xDA]); ([0xDB], [0x01; 0xDB]); ([0xDC], [0x01; 0xDC]); ([0xDD], [0x01; 0xDD]);
  ([0xDE], [0x01; 0xDE]); ([0xDF], [0x01; 0xDF]); ([0xE0], [0x01; 0xE0]); ([0xE1], [0x01; 0xE1]); ([0xE2], [0x01; 0xE2]); ([0xE3], [0x01; 0xE3]);
  ([0xE4], [0x01; 0xE4]); ([0xE5], [0x01; 0xE5]); ([0xE6], [0x01; 0xE6]); ([0xE7], [0x01; 0xE7]); ([0xE8], [0x01; 0xE8]); ([0xE9], [0x01; 0xE9]);
  ([0xEA], [0x01; 0xEA]); ([0xEB], [0x01; 0xEB]); ([0xEC], [0x01; 0xEC]); ([0xED], [0x01; 0xED]); ([0xEE], [0x01; 0xEE]); ([0xEF], [0x01; 0xEF]);
  ([0xF0], [0x01; 0xF0]); ([0xF1], [0x01; 0xF1]); ([0xF2], [0x01; 0xF2]); ([0xF3], [0x01; 0xF3]); ([0xF4], [0x01; 0xF4]); ([0xF5], [0x01; 0xF5]);
  ([0xF6], [0x01; 0xF6]); ([0xF7], [0x01; 0xF7]); ([0xF8], [0x01; 0xF8]); ([0xF9], [0x01; 0xF9]); ([0xFA], [0x01; 0xFA]); ([0xFB], [0x01; 0xFB]);
  ([0xFC], [0x01; 0xFC]); ([0xFD], [0x01; 0xFD]); ([0xFE], [0x01; 0xFE]); ([0xFF], [0x01; 0xFF])].
