(** Generated by tools/gen_bonus.py from modules/inter/ZH-BONUS.txt and ZH-BONUS-PHRASE.txt: the lines "key TAB ?bonus,replacement"; the bonus is the
    first datum of the output. *)
From Verif Require Import Base Types S_Source.
Local Open Scope N_scope.
Definition zh_bonus : list sentry := [
  mkEntry [PByte 0x01; PByte 0x23] [[0x01]; [0x01; 0x23]];
  mkEntry [PByte 0x01; PByte 0x36; PByte 0x39] [[0x02]; [0x01; 0x36; 0x39]];
  mkEntry [PByte 0x01; PByte 0x02; PByte 0x33; PByte 0xB4] [[0x04]; [0x01; 0x02; 0x33; 0xB4]];
  mkEntry [PByte 0x01; PByte 0xC5] [[0x05]; [0x01; 0xC5]];
  mkEntry [PByte 0x01; PByte 0xFC] [[0x05]; [0x01; 0xFC]];
  mkEntry [PByte 0x01; PByte 0x4E; PByte 0x24] [[0x01]; [0x01; 0x4E; 0x24]];
  mkEntry [PByte 0x01; PByte 0x51; PByte 0x79] [[0x01]; [0x01; 0x51; 0x79]];
  mkEntry [PByte 0x01; PByte 0x52; PByte 0xB9] [[0x01]; [0x01; 0x52; 0xB9]];
  mkEntry [PByte 0x01; PByte 0x53; PByte 0xF7] [[0x01]; [0x01; 0x53; 0xF7]];
  mkEntry [PByte 0x01; PByte 0x55; PByte 0x53] [[0x01]; [0x01; 0x55; 0x53]];
  mkEntry [PByte 0x01; PByte 0x63; PByte 0xF8] [[0x01]; [0x01; 0x63; 0xF8]];
  mkEntry [PByte 0x01; PByte 0x6B; PByte 0x74] [[0x01]; [0x01; 0x6B; 0x74]];
  mkEntry [PByte 0x01; PByte 0x70; PByte 0xDF] [[0x01]; [0x01; 0x70; 0xDF]];
  mkEntry [PByte 0x01; PByte 0x71; PByte 0x4A] [[0x01]; [0x01; 0x71; 0x4A]];
  mkEntry [PByte 0x01; PByte 0x71; PByte 0xDF] [[0x01]; [0x01; 0x71; 0xDF]];
  mkEntry [PByte 0x01; PByte 0x73; PByte 0x71] [[0x01]; [0x01; 0x73; 0x71]];
  mkEntry [PByte 0x01; PByte 0x74; PByte 0x3C] [[0x01]; [0x01; 0x74; 0x3C]];
  mkEntry [PByte 0x01; PByte 0x74; PByte 0x68] [[0x01]; [0x01; 0x74; 0x68]];
  mkEntry [PByte 0x01; PByte 0x77; PByte 0x40] [[0x01]; [0x01; 0x77; 0x40]];
  mkEntry [PByte 0x01; PByte 0x77; PByte 0x93] [[0x01]; [0x01; 0x77; 0x93]];
  mkEntry [PByte 0x01; PByte 0x78; PByte 0x1C] [[0x01]; [0x01; 0x78; 0x1C]];
  mkEntry [PByte 0x01; PByte 0x78; PByte 0xB1] [[0x01]; [0x01; 0x78; 0xB1]];
  mkEntry [PByte 0x01; PByte 0x79; PByte 0x3C] [[0x01]; [0x01; 0x79; 0x3C]];
  mkEntry [PByte 0x01; PByte 0x79; PByte 0x62] [[0x01]; [0x01; 0x79; 0x62]];
  mkEntry [PByte 0x01; PByte 0x7A; PByte 0xEA] [[0x02]; [0x01; 0x7A; 0xEA]];
  mkEntry [PByte 0x01; PByte 0x7D; PByte 0xAB] [[0x01]; [0x01; 0x7D; 0xAB]];
  mkEntry [PByte 0x01; PByte 0x7E; PByte 0xDF] [[0x01]; [0x01; 0x7E; 0xDF]];
  mkEntry [PByte 0x01; PByte 0x83; PByte 0xD3] [[0x01]; [0x01; 0x83; 0xD3]];
  mkEntry [PByte 0x01; PByte 0x84; PByte 0xAD] [[0x01]; [0x01; 0x84; 0xAD]];
  mkEntry [PByte 0x01; PByte 0x88; PByte 0x5E] [[0x01]; [0x01; 0x88; 0x5E]];
  mkEntry [PByte 0x01; PByte 0x89; PByte 0xA7] [[0x01]; [0x01; 0x89; 0xA7]];
  mkEntry [PByte 0x01; PByte 0x89; PByte 0xC6] [[0x01]; [0x01; 0x89; 0xC6]];
  mkEntry [PByte 0x01; PByte 0x8D; PByte 0x4E] [[0x01]; [0x01; 0x8D; 0x4E]];
  mkEntry [PByte 0x01; PByte 0x8D; PByte 0x77] [[0x01]; [0x01; 0x8D; 0x77]];
  mkEntry [PByte 0x01; PByte 0x8E; PByte 0x2A] [[0x01]; [0x01; 0x8E; 0x2A]];
  mkEntry [PByte 0x01; PByte 0x8E; PByte 0x46] [[0x01]; [0x01; 0x8E; 0x46]];
  mkEntry [PByte 0x01; PByte 0x8E; PByte 0xAD] [[0x01]; [0x01; 0x8E; 0xAD]];
  mkEntry [PByte 0x01; PByte 0x8F; PByte 0xF9] [[0x01]; [0x01; 0x8F; 0xF9]];
  mkEntry [PByte 0x01; PByte 0x90; PByte 0xA8] [[0x02]; [0x01; 0x90; 0xA8]];
  mkEntry [PByte 0x01; PByte 0x90; PByte 0xD1] [[0x02]; [0x01; 0x90; 0xD1]];
  mkEntry [PByte 0x01; PByte 0x90; PByte 0xFD] [[0x01]; [0x01; 0x90; 0xFD]];
  mkEntry [PByte 0x01; PByte 0x91; PByte 0x76] [[0x03]; [0x01; 0x91; 0x76]];
  mkEntry [PByte 0x01; PByte 0x94; PByte 0xC3] [[0x01]; [0x01; 0x94; 0xC3]];
  mkEntry [PByte 0x01; PByte 0x94; PByte 0xCA] [[0x01]; [0x01; 0x94; 0xCA]];
  mkEntry [PByte 0x01; PByte 0x97; PByte 0x6D] [[0x01]; [0x01; 0x97; 0x6D]];
  mkEntry [PByte 0x01; PByte 0x99; PByte 0x38] [[0x02]; [0x01; 0x99; 0x38]];
  mkEntry [PByte 0x01; PByte 0x9A; PByte 0x90] [[0x01]; [0x01; 0x9A; 0x90]];
  mkEntry [PByte 0x01; PByte 0x9D; PByte 0xC4] [[0x01]; [0x01; 0x9D; 0xC4]];
  mkEntry [PByte 0x01; PByte 0x9E; PByte 0x37] [[0x01]; [0x01; 0x9E; 0x37]];
  mkEntry [PByte 0x01; PByte 0x9F; PByte 0xA5] [[0x01]; [0x01; 0x9F; 0xA5]]
].
Definition zh_bonus_phrase : list sentry := [
  mkEntry [PByte 0x01; PByte 0x63; PSep; PByte 0x01; PByte 0xFA] [[0x06]; [0x01; 0x63]; [0x01; 0xFA]];
  mkEntry [PByte 0x01; PByte 0xE9; PSep; PByte 0x01; PByte 0x63] [[0x06]; [0x01; 0xE9]; [0x01; 0x63]];
  mkEntry [PByte 0x01; PByte 0xC9; PSep; PByte 0x01; PByte 0x63] [[0x06]; [0x01; 0xC9]; [0x01; 0x63]];
  mkEntry [PByte 0x01; PByte 0xE9; PSep; PByte 0x01; PByte 0x64] [[0x06]; [0x01; 0xE9]; [0x01; 0x64]];
  mkEntry [PByte 0x01; PByte 0xC9; PSep; PByte 0x01; PByte 0x64] [[0x06]; [0x01; 0xC9]; [0x01; 0x64]];
  mkEntry [PByte 0x01; PByte 0xE9; PSep; PByte 0x01; PByte 0x72] [[0x06]; [0x01; 0xE9]; [0x01; 0x72]];
  mkEntry [PByte 0x01; PByte 0xC9; PSep; PByte 0x01; PByte 0x72] [[0x06]; [0x01; 0xC9]; [0x01; 0x72]];
  mkEntry [PByte 0x01; PByte 0x70; PSep; PByte 0x01; PByte 0xE9] [[0x06]; [0x01; 0x70]; [0x01; 0xE9]];
  mkEntry [PByte 0x01; PByte 0x73; PSep; PByte 0x01; PByte 0xE9] [[0x06]; [0x01; 0x73]; [0x01; 0xE9]];
  mkEntry [PByte 0x01; PByte 0x4E; PByte 0x00; PSep; PByte 0x01; PByte 0x96; PByte 0xD9] [[0x06]; [0x01; 0x4E; 0x00]; [0x01; 0x96; 0xD9]];
  mkEntry [PByte 0x01; PByte 0x4E; PByte 0x00; PSep; PByte 0x01; PByte 0x56; PByte 0x87] [[0x06]; [0x01; 0x4E; 0x00]; [0x01; 0x56; 0x87]];
  mkEntry [PByte 0x01; PByte 0x4E; PByte 0x00; PSep; PByte 0x01; PByte 0x67; PByte 0x35] [[0x06]; [0x01; 0x4E; 0x00]; [0x01; 0x67; 0x35]];
  mkEntry [PByte 0x01; PByte 0x4E; PByte 0x00; PSep; PByte 0x01; PByte 0x7D; PByte 0x71] [[0x06]; [0x01; 0x4E; 0x00]; [0x01; 0x7D; 0x71]];
  mkEntry [PByte 0x01; PByte 0x4E; PByte 0x0B; PSep; PByte 0x01; PByte 0x5E; PByte 0xDA] [[0x06]; [0x01; 0x4E; 0x0B]; [0x01; 0x5E; 0xDA]];
  mkEntry [PByte 0x01; PByte 0x51; PByte 0x69; PSep; PByte 0x01; PByte 0x76; PByte 0x84] [[0x06]; [0x01; 0x51; 0x69]; [0x01; 0x76; 0x84]];
  mkEntry [PByte 0x01; PByte 0x51; PByte 0x69; PSep; PByte 0x01; PByte 0x4E; PByte 0xBA] [[0x06]; [0x01; 0x51; 0x69]; [0x01; 0x4E; 0xBA]];
  mkEntry [PByte 0x01; PByte 0x51; PByte 0x69; PSep; PByte 0x01; PByte 0x50; PByte 0x0B] [[0x06]; [0x01; 0x51; 0x69]; [0x01; 0x50; 0x0B]];
  mkEntry [PByte 0x01; PByte 0x51; PByte 0x69; PSep; PByte 0x01; PByte 0x53; PByte 0xE5] [[0x06]; [0x01; 0x51; 0x69]; [0x01; 0x53; 0xE5]];
  mkEntry [PByte 0x01; PByte 0x4E; PByte 0x2D; PSep; PByte 0x01; PByte 0x9A; PByte 0x5B] [[0x06]; [0x01; 0x4E; 0x2D]; [0x01; 0x9A; 0x5B]];
  mkEntry [PByte 0x01; PByte 0x82; PByte 0x09; PSep; PByte 0x01; PByte 0x5D; PByte 0xF5] [[0x06]; [0x01; 0x82; 0x09]; [0x01; 0x5D; 0xF5]];
  mkEntry [PByte 0x01; PByte 0x4E; PByte 0x59; PSep; PByte 0x01; PByte 0x91; PByte 0x70] [[0x06]; [0x01; 0x4E; 0x59]; [0x01; 0x91; 0x70]];
  mkEntry [PByte 0x01; PByte 0x4F; PByte 0x55; PSep; PByte 0x01; PByte 0x6C; PByte 0xC1] [[0x06]; [0x01; 0x4F; 0x55]; [0x01; 0x6C; 0xC1]];
  mkEntry [PByte 0x01; PByte 0x4F; PByte 0x60; PSep; PByte 0x01; PByte 0x54; PByte 0xCB] [[0x06]; [0x01; 0x4F; 0x60]; [0x01; 0x54; 0xCB]];
  mkEntry [PByte 0x01; PByte 0x50; PByte 0x88; PSep; PByte 0x01; PByte 0x50; PByte 0x88] [[0x06]; [0x01; 0x50; 0x88]; [0x01; 0x50; 0x88]];
  mkEntry [PByte 0x01; PByte 0x51; PByte 0x65; PSep; PByte 0x01; PByte 0x5E; PByte 0xDA] [[0x06]; [0x01; 0x51; 0x65]; [0x01; 0x5E; 0xDA]];
  mkEntry [PByte 0x01; PByte 0x51; PByte 0x68; PSep; PByte 0x01; PByte 0x6E; PByte 0x2F] [[0x06]; [0x01; 0x51; 0x68]; [0x01; 0x6E; 0x2F]];
  mkEntry [PByte 0x01; PByte 0x51; PByte 0x92; PSep; PByte 0x01; PByte 0x71; PByte 0x59] [[0x06]; [0x01; 0x51; 0x92]; [0x01; 0x71; 0x59]];
  mkEntry [PByte 0x01; PByte 0x6C; PByte 0xC1; PSep; PByte 0x01; PByte 0x4E; PByte 0x14] [[0x06]; [0x01; 0x6C; 0xC1]; [0x01; 0x4E; 0x14]];
  mkEntry [PByte 0x01; PByte 0x51; PByte 0xB7; PSep; PByte 0x01; PByte 0x97; PByte 0x5C] [[0x06]; [0x01; 0x51; 0xB7]; [0x01; 0x97; 0x5C]];
  mkEntry [PByte 0x01; PByte 0x51; PByte 0xD3; PSep; PByte 0x01; PByte 0x6D; PByte 0xBC] [[0x06]; [0x01; 0x51; 0xD3]; [0x01; 0x6D; 0xBC]];
  mkEntry [PByte 0x01; PByte 0x52; PByte 0xAB; PSep; PByte 0x01; PByte 0x6A; PByte 0x5F] [[0x06]; [0x01; 0x52; 0xAB]; [0x01; 0x6A; 0x5F]];
  mkEntry [PByte 0x01; PByte 0x52; PByte 0xAB; PSep; PByte 0x01; PByte 0x96; PByte 0xE3] [[0x06]; [0x01; 0x52; 0xAB]; [0x01; 0x96; 0xE3]];
  mkEntry [PByte 0x01; PByte 0x52; PByte 0x87; PSep; PByte 0x01; PByte 0x58; PByte 0x34] [[0x06]; [0x01; 0x52; 0x87]; [0x01; 0x58; 0x34]];
  mkEntry [PByte 0x01; PByte 0x52; PByte 0xD5; PSep; PByte 0x01; PByte 0x4F; PByte 0x5C] [[0x06]; [0x01; 0x52; 0xD5]; [0x01; 0x4F; 0x5C]];
  mkEntry [PByte 0x01; PByte 0x65; PByte 0x48; PSep; PByte 0x01; PByte 0x67; PByte 0x9C] [[0x06]; [0x01; 0x65; 0x48]; [0x01; 0x67; 0x9C]];
  mkEntry [PByte 0x01; PByte 0x65; PByte 0x48; PSep; PByte 0x01; PByte 0x75; PByte 0x28] [[0x06]; [0x01; 0x65; 0x48]; [0x01; 0x75; 0x28]];
  mkEntry [PByte 0x01; PByte 0x52; PByte 0xD5; PSep; PByte 0x01; PByte 0x58; PByte 0x34] [[0x06]; [0x01; 0x52; 0xD5]; [0x01; 0x58; 0x34]];
  mkEntry [PByte 0x01; PByte 0x52; PByte 0xDE; PSep; PByte 0x01; PByte 0x5D; PByte 0xE5; PSep; PByte 0x01; PByte 0x68; PByte 0x98] [[0x06]; [0x01; 0x52; 0xDE]; [0x01; 0x5D; 0xE5]; [0x01; 0x68; 0x98]];
  mkEntry [PByte 0x01; PByte 0x53; PByte 0x48; PSep; PByte 0x01; PByte 0x99; PByte 0x4D] [[0x06]; [0x01; 0x53; 0x48]; [0x01; 0x99; 0x4D]];
  mkEntry [PByte 0x01; PByte 0x5E; PByte 0xDA; PSep; PByte 0x01; PByte 0x5E; PByte 0x2B] [[0x06]; [0x01; 0x5E; 0xDA]; [0x01; 0x5E; 0x2B]];
  mkEntry [PByte 0x01; PByte 0x5E; PByte 0xDA; PSep; PByte 0x01; PByte 0x62; PByte 0x3F] [[0x06]; [0x01; 0x5E; 0xDA]; [0x01; 0x62; 0x3F]];
  mkEntry [PByte 0x01; PByte 0x53; PByte 0xC3; PSep; PByte 0x01; PByte 0x52; PByte 0xA0] [[0x06]; [0x01; 0x53; 0xC3]; [0x01; 0x52; 0xA0]];
  mkEntry [PByte 0x01; PByte 0x53; PByte 0xC3; PSep; PByte 0x01; PByte 0x71; PByte 0x67] [[0x06]; [0x01; 0x53; 0xC3]; [0x01; 0x71; 0x67]];
  mkEntry [PByte 0x01; PByte 0x53; PByte 0xC3; PSep; PByte 0x01; PByte 0x80; PByte 0x03] [[0x06]; [0x01; 0x53; 0xC3]; [0x01; 0x80; 0x03]];
  mkEntry [PByte 0x01; PByte 0x53; PByte 0xC3; PSep; PByte 0x01; PByte 0x82; PByte 0x07] [[0x06]; [0x01; 0x53; 0xC3]; [0x01; 0x82; 0x07]];
  mkEntry [PByte 0x01; PByte 0x53; PByte 0xC3; PSep; PByte 0x01; PByte 0x8C; PByte 0xFD] [[0x06]; [0x01; 0x53; 0xC3]; [0x01; 0x8C; 0xFD]];
  mkEntry [PByte 0x01; PByte 0x96; PByte 0xD9; PSep; PByte 0x01; PByte 0x5C; PByte 0x0D] [[0x06]; [0x01; 0x96; 0xD9]; [0x01; 0x5C; 0x0D]];
  mkEntry [PByte 0x01; PByte 0x96; PByte 0xD9; PSep; PByte 0x01; PByte 0x62; PByte 0x4B] [[0x06]; [0x01; 0x96; 0xD9]; [0x01; 0x62; 0x4B]];
  mkEntry [PByte 0x01; PByte 0x65; PByte 0x58; PSep; PByte 0x01; PByte 0x52; PByte 0x29] [[0x06]; [0x01; 0x65; 0x58]; [0x01; 0x52; 0x29]];
  mkEntry [PByte 0x01; PByte 0x53; PByte 0xF1; PSep; PByte 0x01; PByte 0x54; PByte 0xA4] [[0x06]; [0x01; 0x53; 0xF1]; [0x01; 0x54; 0xA4]];
  mkEntry [PByte 0x01; PByte 0x54; PByte 0x38; PSep; PByte 0x01; PByte 0x71; PByte 0x59] [[0x06]; [0x01; 0x54; 0x38]; [0x01; 0x71; 0x59]];
  mkEntry [PByte 0x01; PByte 0x02; PByte 0x94; PByte 0x33; PSep; PByte 0x01; PByte 0x54; PByte 0x73] [[0x06]; [0x01; 0x02; 0x94; 0x33]; [0x01; 0x54; 0x73]];
  mkEntry [PByte 0x01; PByte 0x54; PByte 0x7C; PSep; PByte 0x01; PByte 0x9F; PByte 0xA5] [[0x06]; [0x01; 0x54; 0x7C]; [0x01; 0x9F; 0xA5]];
  mkEntry [PByte 0x01; PByte 0x97; PByte 0xFF; PSep; PByte 0x01; PByte 0x61; PByte 0xC9] [[0x06]; [0x01; 0x97; 0xFF]; [0x01; 0x61; 0xC9]];
  mkEntry [PByte 0x01; PByte 0x55; PByte 0x47; PSep; PByte 0x01; PByte 0x58; PByte 0x34] [[0x06]; [0x01; 0x55; 0x47]; [0x01; 0x58; 0x34]];
  mkEntry [PByte 0x01; PByte 0x55; PByte 0x5F; PSep; PByte 0x01; PByte 0x7A; PByte 0x0B] [[0x06]; [0x01; 0x55; 0x5F]; [0x01; 0x7A; 0x0B]];
  mkEntry [PByte 0x01; PByte 0x55; PByte 0x6B; PSep; PByte 0x01; PByte 0x55; PByte 0xB1] [[0x06]; [0x01; 0x55; 0x6B]; [0x01; 0x55; 0xB1]];
  mkEntry [PByte 0x01; PByte 0x55; PByte 0xBA; PSep; PByte 0x01; PByte 0x55; PByte 0x14] [[0x06]; [0x01; 0x55; 0xBA]; [0x01; 0x55; 0x14]];
  mkEntry [PByte 0x01; PByte 0x55; PByte 0xBA; PSep; PByte 0x01; PByte 0x67; PByte 0x09] [[0x06]; [0x01; 0x55; 0xBA]; [0x01; 0x67; 0x09]];
  mkEntry [PByte 0x01; PByte 0x56; PByte 0x05; PSep; PByte 0x01; PByte 0x4F; PByte 0x62] [[0x06]; [0x01; 0x56; 0x05]; [0x01; 0x4F; 0x62]];
  mkEntry [PByte 0x01; PByte 0x56; PByte 0x68; PSep; PByte 0x01; PByte 0x67; PByte 0x50] [[0x06]; [0x01; 0x56; 0x68]; [0x01; 0x67; 0x50]];
  mkEntry [PByte 0x01; PByte 0x56; PByte 0xDE; PSep; PByte 0x01; PByte 0x97; PByte 0xFF] [[0x06]; [0x01; 0x56; 0xDE]; [0x01; 0x97; 0xFF]];
  mkEntry [PByte 0x01; PByte 0x57; PByte 0x0B; PSep; PByte 0x01; PByte 0x5C; PByte 0xF0] [[0x06]; [0x01; 0x57; 0x0B]; [0x01; 0x5C; 0xF0]];
  mkEntry [PByte 0x01; PByte 0x57; PByte 0x0D; PSep; PByte 0x01; PByte 0x78; PByte 0x81] [[0x06]; [0x01; 0x57; 0x0D]; [0x01; 0x78; 0x81]];
  mkEntry [PByte 0x01; PByte 0x57; PByte 0xFA; PSep; PByte 0x01; PByte 0x59; PByte 0x32] [[0x06]; [0x01; 0x57; 0xFA]; [0x01; 0x59; 0x32]];
  mkEntry [PByte 0x01; PByte 0x57; PByte 0xFA; PSep; PByte 0x01; PByte 0x91; PByte 0x76] [[0x06]; [0x01; 0x57; 0xFA]; [0x01; 0x91; 0x76]];
  mkEntry [PByte 0x01; PByte 0x58; PByte 0x75; PSep; PByte 0x01; PByte 0x87; PByte 0xCE] [[0x06]; [0x01; 0x58; 0x75]; [0x01; 0x87; 0xCE]];
  mkEntry [PByte 0x01; PByte 0x02; PByte 0x12; PByte 0xFE; PSep; PByte 0x01; PByte 0x58; PByte 0x85] [[0x06]; [0x01; 0x02; 0x12; 0xFE]; [0x01; 0x58; 0x85]];
  mkEntry [PByte 0x01; PByte 0x59; PByte 0x0F; PSep; PByte 0x01; PByte 0x61; PByte 0x28] [[0x06]; [0x01; 0x59; 0x0F]; [0x01; 0x61; 0x28]];
  mkEntry [PByte 0x01; PByte 0x59; PByte 0x27; PSep; PByte 0x01; PByte 0x5E; PByte 0xDA] [[0x06]; [0x01; 0x59; 0x27]; [0x01; 0x5E; 0xDA]];
  mkEntry [PByte 0x01; PByte 0x59; PByte 0x27; PSep; PByte 0x01; PByte 0x71; PByte 0x59] [[0x06]; [0x01; 0x59; 0x27]; [0x01; 0x71; 0x59]];
  mkEntry [PByte 0x01; PByte 0x59; PByte 0x27; PSep; PByte 0x01; PByte 0x81; PByte 0xBD] [[0x06]; [0x01; 0x59; 0x27]; [0x01; 0x81; 0xBD]];
  mkEntry [PByte 0x01; PByte 0x59; PByte 0x32; PSep; PByte 0x01; PByte 0x97; PByte 0x62] [[0x06]; [0x01; 0x59; 0x32]; [0x01; 0x97; 0x62]];
  mkEntry [PByte 0x01; PByte 0x59; PByte 0x67; PSep; PByte 0x01; PByte 0x79; PByte 0x55] [[0x06]; [0x01; 0x59; 0x67]; [0x01; 0x79; 0x55]];
  mkEntry [PByte 0x01; PByte 0x59; PByte 0x67; PSep; PByte 0x01; PByte 0x7F; PByte 0xA9] [[0x06]; [0x01; 0x59; 0x67]; [0x01; 0x7F; 0xA9]];
  mkEntry [PByte 0x01; PByte 0x59; PByte 0x67; PSep; PByte 0x01; PByte 0x90; PByte 0x4B] [[0x06]; [0x01; 0x59; 0x67]; [0x01; 0x90; 0x4B]];
  mkEntry [PByte 0x01; PByte 0x59; PByte 0x7D; PSep; PByte 0x01; PByte 0x56; PByte 0x22] [[0x06]; [0x01; 0x59; 0x7D]; [0x01; 0x56; 0x22]];
  mkEntry [PByte 0x01; PByte 0x5B; PByte 0x8F; PSep; PByte 0x01; PByte 0x78; PByte 0x81] [[0x06]; [0x01; 0x5B; 0x8F]; [0x01; 0x78; 0x81]];
  mkEntry [PByte 0x01; PByte 0x5C; PByte 0x4B; PSep; PByte 0x01; PByte 0x7E; PByte 0x3D] [[0x06]; [0x01; 0x5C; 0x4B]; [0x01; 0x7E; 0x3D]];
  mkEntry [PByte 0x01; PByte 0x5C; PByte 0x4B; PSep; PByte 0x01; PByte 0x67; PByte 0x51] [[0x06]; [0x01; 0x5C; 0x4B]; [0x01; 0x67; 0x51]];
  mkEntry [PByte 0x01; PByte 0x5C; PByte 0x55; PSep; PByte 0x01; PByte 0x78; PByte 0x81] [[0x06]; [0x01; 0x5C; 0x55]; [0x01; 0x78; 0x81]];
  mkEntry [PByte 0x01; PByte 0x5C; PByte 0xD1; PSep; PByte 0x01; PByte 0x70; PByte 0x63] [[0x06]; [0x01; 0x5C; 0xD1]; [0x01; 0x70; 0x63]];
  mkEntry [PByte 0x01; PByte 0x5E; PByte 0x1D; PSep; PByte 0x01; PByte 0x5C; PByte 0xF0] [[0x06]; [0x01; 0x5E; 0x1D]; [0x01; 0x5C; 0xF0]];
  mkEntry [PByte 0x01; PByte 0x5E; PByte 0x73; PSep; PByte 0x01; PByte 0x02; PByte 0x75; PByte 0xFD] [[0x06]; [0x01; 0x5E; 0x73]; [0x01; 0x02; 0x75; 0xFD]];
  mkEntry [PByte 0x01; PByte 0x5E; PByte 0xE3; PSep; PByte 0x01; PByte 0x58; PByte 0x34] [[0x06]; [0x01; 0x5E; 0xE3]; [0x01; 0x58; 0x34]];
  mkEntry [PByte 0x01; PByte 0x5E; PByte 0xFA; PSep; PByte 0x01; PByte 0x71; PByte 0x4A] [[0x06]; [0x01; 0x5E; 0xFA]; [0x01; 0x71; 0x4A]];
  mkEntry [PByte 0x01; PByte 0x5E; PByte 0xFA; PSep; PByte 0x01; PByte 0x78; PByte 0x81] [[0x06]; [0x01; 0x5E; 0xFA]; [0x01; 0x78; 0x81]];
  mkEntry [PByte 0x01; PByte 0x60; PByte 0xA3; PSep; PByte 0x01; PByte 0x80; PByte 0x05] [[0x06]; [0x01; 0x60; 0xA3]; [0x01; 0x80; 0x05]];
  mkEntry [PByte 0x01; PByte 0x60; PByte 0xC5; PSep; PByte 0x01; PByte 0x6C; PByte 0xC1] [[0x06]; [0x01; 0x60; 0xC5]; [0x01; 0x6C; 0xC1]];
  mkEntry [PByte 0x01; PByte 0x62; PByte 0x10; PSep; PByte 0x01; PByte 0x65; PByte 0x48] [[0x06]; [0x01; 0x62; 0x10]; [0x01; 0x65; 0x48]];
  mkEntry [PByte 0x01; PByte 0x62; PByte 0x10; PSep; PByte 0x01; PByte 0x96; PByte 0xD9] [[0x06]; [0x01; 0x62; 0x10]; [0x01; 0x96; 0xD9]];
  mkEntry [PByte 0x01; PByte 0x62; PByte 0x47; PSep; PByte 0x01; PByte 0x68; PByte 0x98] [[0x06]; [0x01; 0x62; 0x47]; [0x01; 0x68; 0x98]];
  mkEntry [PByte 0x01; PByte 0x62; PByte 0x53; PSep; PByte 0x01; PByte 0x52; PByte 0xAB] [[0x06]; [0x01; 0x62; 0x53]; [0x01; 0x52; 0xAB]];
  mkEntry [PByte 0x01; PByte 0x62; PByte 0xBD; PSep; PByte 0x01; PByte 0x71; PByte 0x59] [[0x06]; [0x01; 0x62; 0xBD]; [0x01; 0x71; 0x59]];
  mkEntry [PByte 0x01; PByte 0x64; PByte 0xD4; PSep; PByte 0x01; PByte 0x4E; PByte 0xFB] [[0x06]; [0x01; 0x64; 0xD4]; [0x01; 0x4E; 0xFB]];
  mkEntry [PByte 0x01; PByte 0x62; PByte 0xC9; PSep; PByte 0x01; PByte 0x80; PByte 0xA7] [[0x06]; [0x01; 0x62; 0xC9]; [0x01; 0x80; 0xA7]];
  mkEntry [PByte 0x01; PByte 0x62; PByte 0xCD; PSep; PByte 0x01; PByte 0x56; PByte 0x87] [[0x06]; [0x01; 0x62; 0xCD]; [0x01; 0x56; 0x87]];
  mkEntry [PByte 0x01; PByte 0x63; PByte 0x9B; PSep; PByte 0x01; PByte 0x92; PByte 0x64] [[0x06]; [0x01; 0x63; 0x9B]; [0x01; 0x92; 0x64]];
  mkEntry [PByte 0x01; PByte 0x63; PByte 0xA1; PSep; PByte 0x01; PByte 0x94; PByte 0x5B] [[0x06]; [0x01; 0x63; 0xA1]; [0x01; 0x94; 0x5B]];
  mkEntry [PByte 0x01; PByte 0x63; PByte 0xFE; PSep; PByte 0x01; PByte 0x52; PByte 0x30] [[0x06]; [0x01; 0x63; 0xFE]; [0x01; 0x52; 0x30]];
  mkEntry [PByte 0x01; PByte 0x64; PByte 0x36; PSep; PByte 0x01; PByte 0x52; PByte 0xAB] [[0x06]; [0x01; 0x64; 0x36]; [0x01; 0x52; 0xAB]];
  mkEntry [PByte 0x01; PByte 0x64; PByte 0xCD; PSep; PByte 0x01; PByte 0x58; PByte 0x34] [[0x06]; [0x01; 0x64; 0xCD]; [0x01; 0x58; 0x34]];
  mkEntry [PByte 0x01; PByte 0x65; PByte 0x3F; PSep; PByte 0x01; PByte 0x02; PByte 0x19; PByte 0xDB] [[0x06]; [0x01; 0x65; 0x3F]; [0x01; 0x02; 0x19; 0xDB]];
  mkEntry [PByte 0x01; PByte 0x65; PByte 0x58; PSep; PByte 0x01; PByte 0x8F; PByte 0xF0] [[0x06]; [0x01; 0x65; 0x58]; [0x01; 0x8F; 0xF0]];
  mkEntry [PByte 0x01; PByte 0x65; PByte 0x78; PSep; PByte 0x01; PByte 0x9F; PByte 0xAB] [[0x06]; [0x01; 0x65; 0x78]; [0x01; 0x9F; 0xAB]];
  mkEntry [PByte 0x01; PByte 0x65; PByte 0xE9; PSep; PByte 0x01; PByte 0x99; PByte 0x4D] [[0x06]; [0x01; 0x65; 0xE9]; [0x01; 0x99; 0x4D]];
  mkEntry [PByte 0x01; PByte 0x66; PByte 0x5A; PSep; PByte 0x01; PByte 0x99; PByte 0x4D] [[0x06]; [0x01; 0x66; 0x5A]; [0x01; 0x99; 0x4D]];
  mkEntry [PByte 0x01; PByte 0x66; PByte 0xF8; PSep; PByte 0x01; PByte 0x52; PByte 0xB5] [[0x06]; [0x01; 0x66; 0xF8]; [0x01; 0x52; 0xB5]];
  mkEntry [PByte 0x01; PByte 0x67; PByte 0x08; PSep; PByte 0x01; PByte 0x52; PByte 0x0B] [[0x06]; [0x01; 0x67; 0x08]; [0x01; 0x52; 0x0B]];
  mkEntry [PByte 0x01; PByte 0x67; PByte 0x35; PSep; PByte 0x01; PByte 0x82; PByte 0xB1] [[0x06]; [0x01; 0x67; 0x35]; [0x01; 0x82; 0xB1]];
  mkEntry [PByte 0x01; PByte 0x67; PByte 0xA1; PSep; PByte 0x01; PByte 0x75; PByte 0x30] [[0x06]; [0x01; 0x67; 0xA1]; [0x01; 0x75; 0x30]];
  mkEntry [PByte 0x01; PByte 0x67; PByte 0xA1; PSep; PByte 0x01; PByte 0x91; PByte 0xCE] [[0x06]; [0x01; 0x67; 0xA1]; [0x01; 0x91; 0xCE]];
  mkEntry [PByte 0x01; PByte 0x68; PByte 0x21; PSep; PByte 0x01; PByte 0x8B; PByte 0x8E] [[0x06]; [0x01; 0x68; 0x21]; [0x01; 0x8B; 0x8E]];
  mkEntry [PByte 0x01; PByte 0x68; PByte 0x98; PSep; PByte 0x01; PByte 0x6D; PByte 0xB2] [[0x06]; [0x01; 0x68; 0x98]; [0x01; 0x6D; 0xB2]];
  mkEntry [PByte 0x01; PByte 0x69; PByte 0x6D; PSep; PByte 0x01; PByte 0x67; PByte 0x51] [[0x06]; [0x01; 0x69; 0x6D]; [0x01; 0x67; 0x51]];
  mkEntry [PByte 0x01; PByte 0x6B; PByte 0x67; PSep; PByte 0x01; PByte 0x89; PByte 0x96] [[0x06]; [0x01; 0x6B; 0x67]; [0x01; 0x89; 0x96]];
  mkEntry [PByte 0x01; PByte 0x6B; PByte 0x77; PSep; PByte 0x01; PByte 0x7D; PByte 0xF4] [[0x06]; [0x01; 0x6B; 0x77]; [0x01; 0x7D; 0xF4]];
  mkEntry [PByte 0x01; PByte 0x6B; PByte 0xD2; PSep; PByte 0x01; PByte 0x75; PByte 0xB1] [[0x06]; [0x01; 0x6B; 0xD2]; [0x01; 0x75; 0xB1]];
  mkEntry [PByte 0x01; PByte 0x6C; PByte 0x34; PSep; PByte 0x01; PByte 0x57; PByte 0xD7] [[0x06]; [0x01; 0x6C; 0x34]; [0x01; 0x57; 0xD7]];
  mkEntry [PByte 0x01; PByte 0x6C; PByte 0x34; PSep; PByte 0x01; PByte 0x71; PByte 0x59] [[0x06]; [0x01; 0x6C; 0x34]; [0x01; 0x71; 0x59]];
  mkEntry [PByte 0x01; PByte 0x6C; PByte 0x39; PSep; PByte 0x01; PByte 0x4E; PByte 0xD4] [[0x06]; [0x01; 0x6C; 0x39]; [0x01; 0x4E; 0xD4]];
  mkEntry [PByte 0x01; PByte 0x6C; PByte 0xB9; PSep; PByte 0x01; PByte 0x85; PByte 0x34] [[0x06]; [0x01; 0x6C; 0xB9]; [0x01; 0x85; 0x34]];
  mkEntry [PByte 0x01; PByte 0x6C; PByte 0xE5; PSep; PByte 0x01; PByte 0x68; PByte 0x98] [[0x06]; [0x01; 0x6C; 0xE5]; [0x01; 0x68; 0x98]];
  mkEntry [PByte 0x01; PByte 0x6D; PByte 0x77; PSep; PByte 0x01; PByte 0x73; PByte 0xA8] [[0x06]; [0x01; 0x6D; 0x77]; [0x01; 0x73; 0xA8]];
  mkEntry [PByte 0x01; PByte 0x6D; PByte 0xF7; PSep; PByte 0x01; PByte 0x97; PByte 0xF3; PSep; PByte 0x01; PByte 0x56; PByte 0x68] [[0x06]; [0x01; 0x6D; 0xF7]; [0x01; 0x97; 0xF3]; [0x01; 0x56; 0x68]];
  mkEntry [PByte 0x01; PByte 0x53; PByte 0x2F; PSep; PByte 0x01; PByte 0x8C; PByte 0x50] [[0x06]; [0x01; 0x53; 0x2F]; [0x01; 0x8C; 0x50]];
  mkEntry [PByte 0x01; PByte 0x6E; PByte 0xFE; PSep; PByte 0x01; PByte 0x52; PByte 0xD5] [[0x06]; [0x01; 0x6E; 0xFE]; [0x01; 0x52; 0xD5]];
  mkEntry [PByte 0x01; PByte 0x30; PByte 0x6E; PSep; PByte 0x01; PByte 0x70; PByte 0x27] [[0x06]; [0x01; 0x30; 0x6E]; [0x01; 0x70; 0x27]];
  mkEntry [PByte 0x01; PByte 0x70; PByte 0x27; PSep; PByte 0x01; PByte 0x30; PByte 0x6E] [[0x06]; [0x01; 0x70; 0x27]; [0x01; 0x30; 0x6E]];
  mkEntry [PByte 0x01; PByte 0x70; PByte 0x0F; PSep; PByte 0x01; PByte 0x89; PByte 0xBD] [[0x06]; [0x01; 0x70; 0x0F]; [0x01; 0x89; 0xBD]];
  mkEntry [PByte 0x01; PByte 0x70; PByte 0x6B; PSep; PByte 0x01; PByte 0x72; PByte 0x10] [[0x06]; [0x01; 0x70; 0x6B]; [0x01; 0x72; 0x10]];
  mkEntry [PByte 0x01; PByte 0x70; PByte 0x6B; PSep; PByte 0x01; PByte 0x80; PByte 0xCC; PSep; PByte 0x01; PByte 0x9D; PByte 0xF4] [[0x06]; [0x01; 0x70; 0x6B]; [0x01; 0x80; 0xCC]; [0x01; 0x9D; 0xF4]];
  mkEntry [PByte 0x01; PByte 0x72; PByte 0x10; PSep; PByte 0x01; PByte 0x5F; PByte 0xC3] [[0x06]; [0x01; 0x72; 0x10]; [0x01; 0x5F; 0xC3]];
  mkEntry [PByte 0x01; PByte 0x71; PByte 0x59; PSep; PByte 0x01; PByte 0x70; PByte 0x6B] [[0x06]; [0x01; 0x71; 0x59]; [0x01; 0x70; 0x6B]];
  mkEntry [PByte 0x01; PByte 0x71; PByte 0x59; PSep; PByte 0x01; PByte 0x82; PByte 0xB1] [[0x06]; [0x01; 0x71; 0x59]; [0x01; 0x82; 0xB1]];
  mkEntry [PByte 0x01; PByte 0x71; PByte 0x59; PSep; PByte 0x01; PByte 0x97; PByte 0x27] [[0x06]; [0x01; 0x71; 0x59]; [0x01; 0x97; 0x27]];
  mkEntry [PByte 0x01; PByte 0x72; PByte 0xC0; PSep; PByte 0x01; PByte 0x6C; PByte 0xC1] [[0x06]; [0x01; 0x72; 0xC0]; [0x01; 0x6C; 0xC1]];
  mkEntry [PByte 0x01; PByte 0x72; PByte 0xC2; PSep; PByte 0x01; PByte 0x98; PByte 0xC6] [[0x06]; [0x01; 0x72; 0xC2]; [0x01; 0x98; 0xC6]];
  mkEntry [PByte 0x01; PByte 0x73; PByte 0x4E; PSep; PByte 0x01; PByte 0x52; PByte 0xB5] [[0x06]; [0x01; 0x73; 0x4E]; [0x01; 0x52; 0xB5]];
  mkEntry [PByte 0x01; PByte 0x73; PByte 0x89; PSep; PByte 0x01; PByte 0x5D; PByte 0xF5] [[0x06]; [0x01; 0x73; 0x89]; [0x01; 0x5D; 0xF5]];
  mkEntry [PByte 0x01; PByte 0x74; PByte 0x03; PSep; PByte 0x01; PByte 0x58; PByte 0x34] [[0x06]; [0x01; 0x74; 0x03]; [0x01; 0x58; 0x34]];
  mkEntry [PByte 0x01; PByte 0x74; PByte 0xE6; PSep; PByte 0x01; PByte 0x7A; PByte 0xB0] [[0x06]; [0x01; 0x74; 0xE6]; [0x01; 0x7A; 0xB0]];
  mkEntry [PByte 0x01; PByte 0x75; PByte 0x1A; PSep; PByte 0x01; PByte 0x9E; PByte 0xBD] [[0x06]; [0x01; 0x75; 0x1A]; [0x01; 0x9E; 0xBD]];
  mkEntry [PByte 0x01; PByte 0x75; PByte 0x28; PSep; PByte 0x01; PByte 0x99; PByte 0x4D] [[0x06]; [0x01; 0x75; 0x28]; [0x01; 0x99; 0x4D]];
  mkEntry [PByte 0x01; PByte 0x75; PByte 0x67; PSep; PByte 0x01; PByte 0x4F; PByte 0x5C] [[0x06]; [0x01; 0x75; 0x67]; [0x01; 0x4F; 0x5C]];
  mkEntry [PByte 0x01; PByte 0x75; PByte 0xB1; PSep; PByte 0x01; PByte 0x75; PByte 0xB9] [[0x06]; [0x01; 0x75; 0xB1]; [0x01; 0x75; 0xB9]];
  mkEntry [PByte 0x01; PByte 0x76; PByte 0x72; PSep; PByte 0x01; PByte 0x76; PByte 0x4E] [[0x06]; [0x01; 0x76; 0x72]; [0x01; 0x76; 0x4E]];
  mkEntry [PByte 0x01; PByte 0x76; PByte 0x7D; PSep; PByte 0x01; PByte 0x71; PByte 0x59] [[0x06]; [0x01; 0x76; 0x7D]; [0x01; 0x71; 0x59]];
  mkEntry [PByte 0x01; PByte 0x76; PByte 0x82; PSep; PByte 0x01; PByte 0x68; PByte 0x98] [[0x06]; [0x01; 0x76; 0x82]; [0x01; 0x68; 0x98]];
  mkEntry [PByte 0x01; PByte 0x76; PByte 0xEE; PSep; PByte 0x01; PByte 0x6A; PByte 0x19; PSep; PByte 0x01; PByte 0x91; PByte 0x76] [[0x06]; [0x01; 0x76; 0xEE]; [0x01; 0x6A; 0x19]; [0x01; 0x91; 0x76]];
  mkEntry [PByte 0x01; PByte 0x77; PByte 0x1F; PSep; PByte 0x01; PByte 0x8A; PByte 0xE6] [[0x06]; [0x01; 0x77; 0x1F]; [0x01; 0x8A; 0xE6]];
  mkEntry [PByte 0x01; PByte 0x77; PByte 0x93; PSep; PByte 0x01; PByte 0x5E; PByte 0x73] [[0x06]; [0x01; 0x77; 0x93]; [0x01; 0x5E; 0x73]];
  mkEntry [PByte 0x01; PByte 0x78; PByte 0x81; PSep; PByte 0x01; PByte 0x5C; PByte 0xF0] [[0x06]; [0x01; 0x78; 0x81]; [0x01; 0x5C; 0xF0]];
  mkEntry [PByte 0x01; PByte 0x78; PByte 0xDA; PSep; PByte 0x01; PByte 0x7A; PByte 0xB0] [[0x06]; [0x01; 0x78; 0xDA]; [0x01; 0x7A; 0xB0]];
  mkEntry [PByte 0x01; PByte 0x79; PByte 0x81; PSep; PByte 0x01; PByte 0x71; PByte 0x59] [[0x06]; [0x01; 0x79; 0x81]; [0x01; 0x71; 0x59]];
  mkEntry [PByte 0x01; PByte 0x79; PByte 0xAE; PSep; PByte 0x01; PByte 0x52; PByte 0xB5] [[0x06]; [0x01; 0x79; 0xAE]; [0x01; 0x52; 0xB5]];
  mkEntry [PByte 0x01; PByte 0x79; PByte 0xFB; PSep; PByte 0x01; PByte 0x52; PByte 0xD5] [[0x06]; [0x01; 0x79; 0xFB]; [0x01; 0x52; 0xD5]];
  mkEntry [PByte 0x01; PByte 0x7A; PByte 0xB0; PSep; PByte 0x01; PByte 0x71; PByte 0xD2] [[0x06]; [0x01; 0x7A; 0xB0]; [0x01; 0x71; 0xD2]];
  mkEntry [PByte 0x01; PByte 0x7A; PByte 0xCB; PSep; PByte 0x01; PByte 0x78; PByte 0x81] [[0x06]; [0x01; 0x7A; 0xCB]; [0x01; 0x78; 0x81]];
  mkEntry [PByte 0x01; PByte 0x7B; PByte 0x62; PSep; PByte 0x01; PByte 0x5B; PByte 0x50] [[0x06]; [0x01; 0x7B; 0x62]; [0x01; 0x5B; 0x50]];
  mkEntry [PByte 0x01; PByte 0x7C; PByte 0x97; PSep; PByte 0x01; PByte 0x80; PByte 0xA7] [[0x06]; [0x01; 0x7C; 0x97]; [0x01; 0x80; 0xA7]];
  mkEntry [PByte 0x01; PByte 0x7C; PByte 0xD6; PSep; PByte 0x01; PByte 0x82; PByte 0xF7] [[0x06]; [0x01; 0x7C; 0xD6]; [0x01; 0x82; 0xF7]];
  mkEntry [PByte 0x01; PByte 0x7C; PByte 0xFB; PSep; PByte 0x01; PByte 0x7D; PByte 0x71] [[0x06]; [0x01; 0x7C; 0xFB]; [0x01; 0x7D; 0x71]];
  mkEntry [PByte 0x01; PByte 0x7D; PByte 0x20; PSep; PByte 0x01; PByte 0x82; PByte 0xF7] [[0x06]; [0x01; 0x7D; 0x20]; [0x01; 0x82; 0xF7]];
  mkEntry [PByte 0x01; PByte 0x9F; PByte 0xAB; PSep; PByte 0x01; PByte 0x7D; PByte 0x30; PSep; PByte 0x01; PByte 0x80; PByte 0xDE] [[0x06]; [0x01; 0x9F; 0xAB]; [0x01; 0x7D; 0x30]; [0x01; 0x80; 0xDE]];
  mkEntry [PByte 0x01; PByte 0x7D; PByte 0x89; PSep; PByte 0x01; PByte 0x82; PByte 0xB1] [[0x06]; [0x01; 0x7D; 0x89]; [0x01; 0x82; 0xB1]];
  mkEntry [PByte 0x01; PByte 0x7D; PByte 0x93; PSep; PByte 0x01; PByte 0x6B; PByte 0x77] [[0x06]; [0x01; 0x7D; 0x93]; [0x01; 0x6B; 0x77]];
  mkEntry [PByte 0x01; PByte 0x9F; PByte 0xAB; PSep; PByte 0x01; PByte 0x7D; PByte 0xDA] [[0x06]; [0x01; 0x9F; 0xAB]; [0x01; 0x7D; 0xDA]];
  mkEntry [PByte 0x01; PByte 0x7D; PByte 0x93; PSep; PByte 0x01; PByte 0x6F; PByte 0xDF] [[0x06]; [0x01; 0x7D; 0x93]; [0x01; 0x6F; 0xDF]];
  mkEntry [PByte 0x01; PByte 0x7D; PByte 0x93; PSep; PByte 0x01; PByte 0x6F; PByte 0xDF; PSep; PByte 0x01; PByte 0x5B; PByte 0x78] [[0x06]; [0x01; 0x7D; 0x93]; [0x01; 0x6F; 0xDF]; [0x01; 0x5B; 0x78]];
  mkEntry [PByte 0x01; PByte 0x7D; PByte 0x71; PSep; PByte 0x01; PByte 0x4E; PByte 0x00] [[0x06]; [0x01; 0x7D; 0x71]; [0x01; 0x4E; 0x00]];
  mkEntry [PByte 0x01; PByte 0x7F; PByte 0xFB; PSep; PByte 0x01; PByte 0x98; PByte 0x01] [[0x06]; [0x01; 0x7F; 0xFB]; [0x01; 0x98; 0x01]];
  mkEntry [PByte 0x01; PByte 0x80; PByte 0x01; PSep; PByte 0x01; PByte 0x80; PByte 0x05] [[0x06]; [0x01; 0x80; 0x01]; [0x01; 0x80; 0x05]];
  mkEntry [PByte 0x01; PByte 0x80; PByte 0x72; PSep; PByte 0x01; PByte 0x97; PByte 0xFF] [[0x06]; [0x01; 0x80; 0x72]; [0x01; 0x97; 0xFF]];
  mkEntry [PByte 0x01; PByte 0x80; PByte 0xA7; PSep; PByte 0x01; PByte 0x80; PByte 0xCE] [[0x06]; [0x01; 0x80; 0xA7]; [0x01; 0x80; 0xCE]];
  mkEntry [PByte 0x01; PByte 0x80; PByte 0xA7; PSep; PByte 0x01; PByte 0x82; PByte 0xBD] [[0x06]; [0x01; 0x80; 0xA7]; [0x01; 0x82; 0xBD]];
  mkEntry [PByte 0x01; PByte 0x81; PByte 0xBD; PSep; PByte 0x01; PByte 0x65; PByte 0x62] [[0x06]; [0x01; 0x81; 0xBD]; [0x01; 0x65; 0x62]];
  mkEntry [PByte 0x01; PByte 0x81; PByte 0xBD; PSep; PByte 0x01; PByte 0x6A; PByte 0x5F] [[0x06]; [0x01; 0x81; 0xBD]; [0x01; 0x6A; 0x5F]];
  mkEntry [PByte 0x01; PByte 0x81; PByte 0x02; PSep; PByte 0x01; PByte 0x91; PByte 0x76] [[0x06]; [0x01; 0x81; 0x02]; [0x01; 0x91; 0x76]];
  mkEntry [PByte 0x01; PByte 0x81; PByte 0x2B; PSep; PByte 0x01; PByte 0x92; PByte 0x64] [[0x06]; [0x01; 0x81; 0x2B]; [0x01; 0x92; 0x64]];
  mkEntry [PByte 0x01; PByte 0x81; PByte 0x50; PSep; PByte 0x01; PByte 0x81; PByte 0xB6] [[0x06]; [0x01; 0x81; 0x50]; [0x01; 0x81; 0xB6]];
  mkEntry [PByte 0x01; PByte 0x81; PByte 0x7A; PSep; PByte 0x01; PByte 0x82; PByte 0xF7] [[0x06]; [0x01; 0x81; 0x7A]; [0x01; 0x82; 0xF7]];
  mkEntry [PByte 0x01; PByte 0x81; PByte 0xB6; PSep; PByte 0x01; PByte 0x81; PByte 0x78] [[0x06]; [0x01; 0x81; 0xB6]; [0x01; 0x81; 0x78]];
  mkEntry [PByte 0x01; PByte 0x81; PByte 0xC1; PSep; PByte 0x01; PByte 0x76; PByte 0x21] [[0x06]; [0x01; 0x81; 0xC1]; [0x01; 0x76; 0x21]];
  mkEntry [PByte 0x01; PByte 0x81; PByte 0xC1; PSep; PByte 0x01; PByte 0x80; PByte 0x95] [[0x06]; [0x01; 0x81; 0xC1]; [0x01; 0x80; 0x95]];
  mkEntry [PByte 0x01; PByte 0x81; PByte 0xC1; PSep; PByte 0x01; PByte 0x9A; PByte 0xA8] [[0x06]; [0x01; 0x81; 0xC1]; [0x01; 0x9A; 0xA8]];
  mkEntry [PByte 0x01; PByte 0x81; PByte 0xEA; PSep; PByte 0x01; PByte 0x52; PByte 0xD5] [[0x06]; [0x01; 0x81; 0xEA]; [0x01; 0x52; 0xD5]];
  mkEntry [PByte 0x01; PByte 0x82; PByte 0xB1; PSep; PByte 0x01; PByte 0x67; PByte 0x35] [[0x06]; [0x01; 0x82; 0xB1]; [0x01; 0x67; 0x35]];
  mkEntry [PByte 0x01; PByte 0x82; PByte 0xF7; PSep; PByte 0x01; PByte 0x91; PByte 0x78] [[0x06]; [0x01; 0x82; 0xF7]; [0x01; 0x91; 0x78]];
  mkEntry [PByte 0x01; PByte 0x85; PByte 0xE5; PSep; PByte 0x01; PByte 0x92; PByte 0x9A] [[0x06]; [0x01; 0x85; 0xE5]; [0x01; 0x92; 0x9A]];
  mkEntry [PByte 0x01; PByte 0x84; PByte 0x71; PSep; PByte 0x01; PByte 0x71; PByte 0xD2] [[0x06]; [0x01; 0x84; 0x71]; [0x01; 0x71; 0xD2]];
  mkEntry [PByte 0x01; PByte 0x84; PByte 0x80; PSep; PByte 0x01; PByte 0x83; PByte 0x49] [[0x06]; [0x01; 0x84; 0x80]; [0x01; 0x83; 0x49]];
  mkEntry [PByte 0x01; PByte 0x85; PByte 0xCD; PSep; PByte 0x01; PByte 0x81; PByte 0x79; PSep; PByte 0x01; PByte 0x9D; PByte 0xF3] [[0x06]; [0x01; 0x85; 0xCD]; [0x01; 0x81; 0x79]; [0x01; 0x9D; 0xF3]];
  mkEntry [PByte 0x01; PByte 0x85; PByte 0xCD; PSep; PByte 0x01; PByte 0x75; PByte 0x30; PSep; PByte 0x01; PByte 0x53; PByte 0x2F] [[0x06]; [0x01; 0x85; 0xCD]; [0x01; 0x75; 0x30]; [0x01; 0x53; 0x2F]];
  mkEntry [PByte 0x01; PByte 0x86; PByte 0x6F; PSep; PByte 0x01; PByte 0x9A; PByte 0xEF] [[0x06]; [0x01; 0x86; 0x6F]; [0x01; 0x9A; 0xEF]];
  mkEntry [PByte 0x01; PByte 0x88; PByte 0x5B; PSep; PByte 0x01; PByte 0x75; PByte 0x1F] [[0x06]; [0x01; 0x88; 0x5B]; [0x01; 0x75; 0x1F]];
  mkEntry [PByte 0x01; PByte 0x88; PByte 0x63; PSep; PByte 0x01; PByte 0x68; PByte 0x98] [[0x06]; [0x01; 0x88; 0x63]; [0x01; 0x68; 0x98]];
  mkEntry [PByte 0x01; PByte 0x8B; PByte 0x49; PSep; PByte 0x01; PByte 0x52; PByte 0xB5] [[0x06]; [0x01; 0x8B; 0x49]; [0x01; 0x52; 0xB5]];
  mkEntry [PByte 0x01; PByte 0x8C; PByte 0x6C; PSep; PByte 0x01; PByte 0x81; PByte 0xB6] [[0x06]; [0x01; 0x8C; 0x6C]; [0x01; 0x81; 0xB6]];
  mkEntry [PByte 0x01; PByte 0x8D; PByte 0x64; PSep; PByte 0x01; PByte 0x9C; PByte 0x72] [[0x06]; [0x01; 0x8D; 0x64]; [0x01; 0x9C; 0x72]];
  mkEntry [PByte 0x01; PByte 0x8D; PByte 0x6C; PSep; PByte 0x01; PByte 0x5C; PByte 0x3E] [[0x06]; [0x01; 0x8D; 0x6C]; [0x01; 0x5C; 0x3E]];
  mkEntry [PByte 0x01; PByte 0x8F; PByte 0x14; PSep; PByte 0x01; PByte 0x91; PByte 0x76] [[0x06]; [0x01; 0x8F; 0x14]; [0x01; 0x91; 0x76]];
  mkEntry [PByte 0x01; PByte 0x8F; PByte 0x15; PSep; PByte 0x01; PByte 0x63; PByte 0xF8] [[0x06]; [0x01; 0x8F; 0x15]; [0x01; 0x63; 0xF8]];
  mkEntry [PByte 0x01; PByte 0x8F; PByte 0x33; PSep; PByte 0x01; PByte 0x8F; PByte 0x33] [[0x06]; [0x01; 0x8F; 0x33]; [0x01; 0x8F; 0x33]];
  mkEntry [PByte 0x01; PByte 0x8F; PByte 0xB2; PSep; PByte 0x01; PByte 0x58; PByte 0x34] [[0x06]; [0x01; 0x8F; 0xB2]; [0x01; 0x58; 0x34]];
  mkEntry [PByte 0x01; PByte 0x90; PByte 0x31; PSep; PByte 0x01; PByte 0x52; PByte 0x0B] [[0x06]; [0x01; 0x90; 0x31]; [0x01; 0x52; 0x0B]];
  mkEntry [PByte 0x01; PByte 0x90; PByte 0x4A; PSep; PByte 0x01; PByte 0x89; PByte 0xBD] [[0x06]; [0x01; 0x90; 0x4A]; [0x01; 0x89; 0xBD]];
  mkEntry [PByte 0x01; PByte 0x91; PByte 0x70; PSep; PByte 0x01; PByte 0x80; PByte 0xFA] [[0x06]; [0x01; 0x91; 0x70]; [0x01; 0x80; 0xFA]];
  mkEntry [PByte 0x01; PByte 0x91; PByte 0x78; PSep; PByte 0x01; PByte 0x91; PByte 0x76] [[0x06]; [0x01; 0x91; 0x78]; [0x01; 0x91; 0x76]];
  mkEntry [PByte 0x01; PByte 0x91; PByte 0xD1; PSep; PByte 0x01; PByte 0x94; PByte 0x5B] [[0x06]; [0x01; 0x91; 0xD1]; [0x01; 0x94; 0x5B]];
  mkEntry [PByte 0x01; PByte 0x91; PByte 0xE3; PSep; PByte 0x01; PByte 0x92; PByte 0x64] [[0x06]; [0x01; 0x91; 0xE3]; [0x01; 0x92; 0x64]];
  mkEntry [PByte 0x01; PByte 0x92; PByte 0x64; PSep; PByte 0x01; PByte 0x53; PByte 0x77] [[0x06]; [0x01; 0x92; 0x64]; [0x01; 0x53; 0x77]];
  mkEntry [PByte 0x01; PByte 0x92; PByte 0x64; PSep; PByte 0x01; PByte 0x5B; PByte 0x50] [[0x06]; [0x01; 0x92; 0x64]; [0x01; 0x5B; 0x50]];
  mkEntry [PByte 0x01; PByte 0x92; PByte 0xB9; PSep; PByte 0x01; PByte 0x83; PByte 0xCC] [[0x06]; [0x01; 0x92; 0xB9]; [0x01; 0x83; 0xCC]];
  mkEntry [PByte 0x01; PByte 0x93; PByte 0x26; PSep; PByte 0x01; PByte 0x7D; PByte 0x89] [[0x06]; [0x01; 0x93; 0x26]; [0x01; 0x7D; 0x89]];
  mkEntry [PByte 0x01; PByte 0x93; PByte 0x2B; PSep; PByte 0x01; PByte 0x58; PByte 0x03] [[0x06]; [0x01; 0x93; 0x2B]; [0x01; 0x58; 0x03]];
  mkEntry [PByte 0x01; PByte 0x94; PByte 0x5B; PSep; PByte 0x01; PByte 0x57; PByte 0x51] [[0x06]; [0x01; 0x94; 0x5B]; [0x01; 0x57; 0x51]];
  mkEntry [PByte 0x01; PByte 0x94; PByte 0x5B; PSep; PByte 0x01; PByte 0x58; PByte 0x34] [[0x06]; [0x01; 0x94; 0x5B]; [0x01; 0x58; 0x34]];
  mkEntry [PByte 0x01; PByte 0x94; PByte 0x5B; PSep; PByte 0x01; PByte 0x5D; PByte 0xE5] [[0x06]; [0x01; 0x94; 0x5B]; [0x01; 0x5D; 0xE5]];
  mkEntry [PByte 0x01; PByte 0x94; PByte 0x5B; PSep; PByte 0x01; PByte 0x69; PByte 0x6D] [[0x06]; [0x01; 0x94; 0x5B]; [0x01; 0x69; 0x6D]];
  mkEntry [PByte 0x01; PByte 0x92; PByte 0x9A; PSep; PByte 0x01; PByte 0x5B; PByte 0x50] [[0x06]; [0x01; 0x92; 0x9A]; [0x01; 0x5B; 0x50]];
  mkEntry [PByte 0x01; PByte 0x92; PByte 0x9A; PSep; PByte 0x01; PByte 0x67; PByte 0x1F] [[0x06]; [0x01; 0x92; 0x9A]; [0x01; 0x67; 0x1F]];
  mkEntry [PByte 0x01; PByte 0x95; PByte 0x77; PSep; PByte 0x01; PByte 0x80; PByte 0x05] [[0x06]; [0x01; 0x95; 0x77]; [0x01; 0x80; 0x05]];
  mkEntry [PByte 0x01; PByte 0x95; PByte 0x93; PSep; PByte 0x01; PByte 0x96; PByte 0x94] [[0x06]; [0x01; 0x95; 0x93]; [0x01; 0x96; 0x94]];
  mkEntry [PByte 0x01; PByte 0x96; PByte 0x76; PSep; PByte 0x01; PByte 0x55; PByte 0x86] [[0x06]; [0x01; 0x96; 0x76]; [0x01; 0x55; 0x86]];
  mkEntry [PByte 0x01; PByte 0x96; PByte 0x76; PSep; PByte 0x01; PByte 0x7A; PByte 0xB0] [[0x06]; [0x01; 0x96; 0x76]; [0x01; 0x7A; 0xB0]];
  mkEntry [PByte 0x01; PByte 0x96; PByte 0x94; PSep; PByte 0x01; PByte 0x95; PByte 0x93] [[0x06]; [0x01; 0x96; 0x94]; [0x01; 0x95; 0x93]];
  mkEntry [PByte 0x01; PByte 0x91; PByte 0x30; PSep; PByte 0x01; PByte 0x8F; PByte 0xD1] [[0x06]; [0x01; 0x91; 0x30]; [0x01; 0x8F; 0xD1]];
  mkEntry [PByte 0x01; PByte 0x8B; PByte 0x8E; PSep; PByte 0x01; PByte 0x5B; PByte 0x9A] [[0x06]; [0x01; 0x8B; 0x8E]; [0x01; 0x5B; 0x9A]];
  mkEntry [PByte 0x01; PByte 0x8B; PByte 0x8E; PSep; PByte 0x01; PByte 0x68; PByte 0x21] [[0x06]; [0x01; 0x8B; 0x8E]; [0x01; 0x68; 0x21]];
  mkEntry [PByte 0x01; PByte 0x8B; PByte 0x8E; PSep; PByte 0x01; PByte 0x55; PByte 0x4F] [[0x06]; [0x01; 0x8B; 0x8E]; [0x01; 0x55; 0x4F]];
  mkEntry [PByte 0x01; PByte 0x97; PByte 0x52; PSep; PByte 0x01; PByte 0x5E; PByte 0x74] [[0x06]; [0x01; 0x97; 0x52]; [0x01; 0x5E; 0x74]];
  mkEntry [PByte 0x01; PByte 0x97; PByte 0x52; PSep; PByte 0x01; PByte 0x66; PByte 0x25] [[0x06]; [0x01; 0x97; 0x52]; [0x01; 0x66; 0x25]];
  mkEntry [PByte 0x01; PByte 0x97; PByte 0xF3; PSep; PByte 0x01; PByte 0x97; PByte 0xFF] [[0x06]; [0x01; 0x97; 0xF3]; [0x01; 0x97; 0xFF]];
  mkEntry [PByte 0x01; PByte 0x98; PByte 0xC6; PSep; PByte 0x01; PByte 0x53; PByte 0x47] [[0x06]; [0x01; 0x98; 0xC6]; [0x01; 0x53; 0x47]];
  mkEntry [PByte 0x01; PByte 0x98; PByte 0xC6; PSep; PByte 0x01; PByte 0x8E; PByte 0xCA] [[0x06]; [0x01; 0x98; 0xC6]; [0x01; 0x8E; 0xCA]];
  mkEntry [PByte 0x01; PByte 0x98; PByte 0xC6; PSep; PByte 0x01; PByte 0x98; PByte 0xA8] [[0x06]; [0x01; 0x98; 0xC6]; [0x01; 0x98; 0xA8]];
  mkEntry [PByte 0x01; PByte 0x99; PByte 0x52; PSep; PByte 0x01; PByte 0x5D; PByte 0xF5] [[0x06]; [0x01; 0x99; 0x52]; [0x01; 0x5D; 0xF5]];
  mkEntry [PByte 0x01; PByte 0x99; PByte 0x99; PSep; PByte 0x01; PByte 0x6E; PByte 0x2F] [[0x06]; [0x01; 0x99; 0x99]; [0x01; 0x6E; 0x2F]];
  mkEntry [PByte 0x01; PByte 0x9B; PByte 0x8B; PSep; PByte 0x01; PByte 0x5F; PByte 0x62; PSep; PByte 0x01; PByte 0x76; PByte 0xEE] [[0x06]; [0x01; 0x9B; 0x8B]; [0x01; 0x5F; 0x62]; [0x01; 0x76; 0xEE]];
  mkEntry [PByte 0x01; PByte 0x9B; PByte 0x8B; PSep; PByte 0x01; PByte 0x9B; PByte 0x5A] [[0x06]; [0x01; 0x9B; 0x8B]; [0x01; 0x9B; 0x5A]];
  mkEntry [PByte 0x01; PByte 0x9C; PByte 0x02; PSep; PByte 0x01; PByte 0x9B; PByte 0x5A] [[0x06]; [0x01; 0x9C; 0x02]; [0x01; 0x9B; 0x5A]];
  mkEntry [PByte 0x01; PByte 0x9C; PByte 0x1F; PSep; PByte 0x01; PByte 0x9B; PByte 0x8D] [[0x06]; [0x01; 0x9C; 0x1F]; [0x01; 0x9B; 0x8D]];
  mkEntry [PByte 0x01; PByte 0x9C; PByte 0x20; PSep; PByte 0x01; PByte 0x9B; PByte 0x5A] [[0x06]; [0x01; 0x9C; 0x20]; [0x01; 0x9B; 0x5A]];
  mkEntry [PByte 0x01; PByte 0x9D; PByte 0x28; PSep; PByte 0x01; PByte 0x81; PByte 0x37] [[0x06]; [0x01; 0x9D; 0x28]; [0x01; 0x81; 0x37]];
  mkEntry [PByte 0x01; PByte 0x9D; PByte 0x7E; PSep; PByte 0x01; PByte 0x9C; PByte 0xE5] [[0x06]; [0x01; 0x9D; 0x7E]; [0x01; 0x9C; 0xE5]];
  mkEntry [PByte 0x01; PByte 0x96; PByte 0xDE; PSep; PByte 0x01; PByte 0x81; PByte 0xB6] [[0x06]; [0x01; 0x96; 0xDE]; [0x01; 0x81; 0xB6]];
  mkEntry [PByte 0x01; PByte 0x9D; PByte 0xF3; PSep; PByte 0x01; PByte 0x9D; PByte 0x06] [[0x06]; [0x01; 0x9D; 0xF3]; [0x01; 0x9D; 0x06]]
].
