(** Keycode matrices and messages, transcribed mechanically from the C text
    (character constants, ASCII_*/ACTION_* names and key defines resolved to
    their values).  Row 8 of every matrix is ASDF_KEYMAP_DIP_SWITCHES
    (Keymaps/asdf_keymap_defs_dipswitch.h 28-37), whose element [4] has no
    initialiser and is therefore 0.  Stored flat, row-major, 8 columns. *)
From Coq Require Import List NArith.
Import ListNotations.
Local Open Scope N_scope.

(** Keymaps/asdf_keymap_classic_add_map.c 71-83: classic_plain_matrix[9][8] *)
Definition classic_plain : list N := [
  0xa0; 0xa1; 0xa1; 0xa0; 0x1b; 0x09; 0xa5; 0x5c;
  0x7f; 0x70; 0x3b; 0x2f; 0x20; 0x7a; 0x61; 0x71;
  0xa0; 0x2c; 0x6d; 0x6e; 0x62; 0x76; 0x63; 0x78;
  0xa0; 0x6b; 0x6a; 0x68; 0x67; 0x66; 0x64; 0x73;
  0xa0; 0x69; 0x75; 0x79; 0x74; 0x72; 0x65; 0x77;
  0xa0; 0xa6; 0xa4; 0x0d; 0x0a; 0x6f; 0x6c; 0x2e;
  0x7e; 0x5d; 0x5b; 0x2d; 0x3a; 0x30; 0x39; 0x38;
  0x40; 0x37; 0x36; 0x35; 0x34; 0x33; 0x32; 0x31;
  0xa8; 0xa9; 0xaa; 0xab; 0x00; 0xc1; 0xad; 0xac].

(** Keymaps/asdf_keymap_classic_add_map.c 85-97: classic_shift_matrix[9][8] *)
Definition classic_shift : list N := [
  0xa0; 0xa1; 0xa1; 0xa0; 0x1b; 0x09; 0xa5; 0x7c;
  0x7f; 0x50; 0x2b; 0x3f; 0x20; 0x5a; 0x41; 0x51;
  0xb2; 0x3c; 0x4d; 0x4e; 0x42; 0x56; 0x43; 0x58;
  0xa0; 0x4b; 0x4a; 0x48; 0x47; 0x46; 0x44; 0x53;
  0xa0; 0x49; 0x55; 0x59; 0x54; 0x52; 0x45; 0x57;
  0xa0; 0xa6; 0xa4; 0x0d; 0x0a; 0x4f; 0x4c; 0x3e;
  0x7e; 0x7d; 0x7b; 0x3d; 0x2a; 0x30; 0x29; 0x28;
  0x60; 0x27; 0x26; 0x25; 0x24; 0x23; 0x22; 0x21;
  0xa8; 0xa9; 0xaa; 0xab; 0x00; 0xc1; 0xad; 0xac].

(** Keymaps/asdf_keymap_classic_add_map.c 99-111: classic_caps_matrix[9][8] *)
Definition classic_caps : list N := [
  0xa0; 0xa1; 0xa1; 0xa0; 0x1b; 0x09; 0xa5; 0x5c;
  0x7f; 0x50; 0x3b; 0x2f; 0x20; 0x5a; 0x41; 0x51;
  0xa0; 0x2c; 0x4d; 0x4e; 0x42; 0x56; 0x43; 0x58;
  0xa0; 0x4b; 0x4a; 0x48; 0x47; 0x46; 0x44; 0x53;
  0xa0; 0x49; 0x55; 0x59; 0x54; 0x52; 0x45; 0x57;
  0xa0; 0xa6; 0xa4; 0x0d; 0x0a; 0x4f; 0x4c; 0x2e;
  0x7e; 0x5d; 0x5b; 0x2d; 0x3a; 0x30; 0x39; 0x38;
  0x40; 0x37; 0x36; 0x35; 0x34; 0x33; 0x32; 0x31;
  0xa8; 0xa9; 0xaa; 0xab; 0x00; 0xc1; 0xad; 0xac].

(** Keymaps/asdf_keymap_classic_add_map.c 113-131: classic_ctrl_matrix[9][8] *)
Definition classic_ctrl : list N := [
  0xa0; 0xa1; 0xa1; 0xa0; 0x1b; 0x09; 0xa5; 0x1c;
  0xa0; 0x10; 0xa0; 0xa0; 0x20; 0x1a; 0x01; 0x11;
  0xb1; 0x2c; 0x0d; 0x0e; 0x02; 0x16; 0x03; 0x18;
  0xa0; 0x0b; 0x0a; 0x08; 0x07; 0x06; 0x04; 0x13;
  0xa0; 0x09; 0x15; 0x19; 0x14; 0x12; 0x05; 0x17;
  0xa0; 0xa6; 0xa4; 0x0d; 0x0a; 0x0f; 0x0c; 0xa0;
  0xa0; 0x1d; 0x1b; 0xa0; 0xa0; 0xc0; 0xbf; 0xbe;
  0x00; 0xbd; 0xbc; 0xbb; 0xba; 0xb9; 0xb8; 0xb7;
  0xa8; 0xa9; 0xaa; 0xab; 0x00; 0xc1; 0xad; 0xac].

(** Keymaps/asdf_keymap_apple2_add_map.c 69-80: apple_plain_matrix[9][8] *)
Definition apple_plain : list N := [
  0xa4; 0xa1; 0xa1; 0xa0; 0xa0; 0x1b; 0xa5; 0x15;
  0x7f; 0x70; 0x3b; 0x2f; 0x20; 0x7a; 0x61; 0x71;
  0xa0; 0x2c; 0x6d; 0x6e; 0x62; 0x76; 0x63; 0x78;
  0xa0; 0x6b; 0x6a; 0x68; 0x67; 0x66; 0x64; 0x73;
  0xa0; 0x69; 0x75; 0x79; 0x74; 0x72; 0x65; 0x77;
  0xa0; 0xa0; 0xa0; 0x0d; 0x5e; 0x6f; 0x6c; 0x2e;
  0xa0; 0xa0; 0xa0; 0x2d; 0x3a; 0x30; 0x39; 0x38;
  0x08; 0x37; 0x36; 0x35; 0x34; 0x33; 0x32; 0x31;
  0xa8; 0xa9; 0xaa; 0xab; 0x00; 0xc1; 0xad; 0xac].

(** Keymaps/asdf_keymap_apple2_add_map.c 82-94: apple_shift_matrix[9][8] *)
Definition apple_shift : list N := [
  0xa4; 0xa1; 0xa1; 0xa0; 0xa0; 0x1b; 0xa5; 0x15;
  0xa0; 0x50; 0x2b; 0x3f; 0x20; 0x5a; 0x41; 0x51;
  0xa0; 0x3c; 0x4d; 0x4e; 0x42; 0x56; 0x43; 0x58;
  0xa0; 0x4b; 0x4a; 0x48; 0x47; 0x46; 0x44; 0x53;
  0xa0; 0x49; 0x55; 0x59; 0x54; 0x52; 0x45; 0x57;
  0xa0; 0xa0; 0xa0; 0x0d; 0x40; 0x4f; 0x4c; 0x3e;
  0xa0; 0xa0; 0xb2; 0x3d; 0x2a; 0x40; 0x29; 0x28;
  0x08; 0x27; 0x26; 0x25; 0x24; 0x23; 0x22; 0x21;
  0xa8; 0xa9; 0xaa; 0xab; 0x00; 0xc1; 0xad; 0xac].

(** Keymaps/asdf_keymap_apple2_add_map.c 96-108: apple_caps_shift_matrix[9][8] *)
Definition apple_caps_shift : list N := [
  0xa4; 0xa1; 0xa1; 0xa0; 0xa0; 0x1b; 0xa5; 0x15;
  0xa0; 0x40; 0x2b; 0x3f; 0x20; 0x5a; 0x41; 0x51;
  0xa0; 0x3c; 0x4d; 0x5e; 0x42; 0x56; 0x43; 0x58;
  0xa0; 0x4b; 0x4a; 0x48; 0x47; 0x46; 0x44; 0x53;
  0xa0; 0x49; 0x55; 0x59; 0x54; 0x52; 0x45; 0x57;
  0xa0; 0xa0; 0xa0; 0x0d; 0xa6; 0x4f; 0x4c; 0x3e;
  0xa0; 0xa0; 0xb2; 0x3d; 0x2a; 0xa0; 0x29; 0x28;
  0x08; 0x27; 0x26; 0x25; 0x24; 0x23; 0x22; 0x21;
  0xa8; 0xa9; 0xaa; 0xab; 0x00; 0xc1; 0xad; 0xac].

(** Keymaps/asdf_keymap_apple2_add_map.c 110-121: apple_caps_matrix[9][8] *)
Definition apple_caps : list N := [
  0xa4; 0xa1; 0xa1; 0xa0; 0xa0; 0x1b; 0xa5; 0x15;
  0xa0; 0x50; 0x3b; 0x2f; 0x20; 0x5a; 0x41; 0x51;
  0xa0; 0x2c; 0x4d; 0x4e; 0x42; 0x56; 0x43; 0x58;
  0xa0; 0x4b; 0x4a; 0x48; 0x47; 0x46; 0x44; 0x53;
  0xa0; 0x49; 0x55; 0x59; 0x54; 0x52; 0x45; 0x57;
  0xa0; 0xa0; 0xa0; 0x0d; 0xa6; 0x4f; 0x4c; 0x2e;
  0xa0; 0xa0; 0xa0; 0x2d; 0x3a; 0x30; 0x39; 0x38;
  0x08; 0x37; 0x36; 0x35; 0x34; 0x33; 0x32; 0x31;
  0xa8; 0xa9; 0xaa; 0xab; 0x00; 0xc1; 0xad; 0xac].

(** Keymaps/asdf_keymap_apple2_add_map.c 123-141: apple_ctrl_matrix[9][8] *)
Definition apple_ctrl : list N := [
  0xa4; 0xa1; 0xa1; 0xa0; 0xa0; 0x1b; 0xa5; 0x15;
  0xa0; 0x10; 0xa0; 0x5c; 0x20; 0x1a; 0x01; 0x11;
  0xa0; 0x5b; 0x0d; 0x0e; 0x02; 0x16; 0x03; 0x18;
  0xa0; 0x0b; 0x0a; 0x08; 0x07; 0x06; 0x04; 0x13;
  0xa0; 0x09; 0x15; 0x19; 0x14; 0x12; 0x05; 0x17;
  0xa0; 0xa0; 0xa0; 0x0d; 0xa6; 0x0f; 0x0c; 0x5d;
  0xa0; 0xa0; 0xb1; 0x5f; 0xa0; 0xc0; 0x7d; 0x7b;
  0x7f; 0x60; 0x5e; 0xbb; 0xba; 0xb9; 0x7e; 0x7c;
  0xa8; 0xa9; 0xaa; 0xab; 0x00; 0xc1; 0xad; 0xac].

(** Keymaps/asdf_keymap_sol.c 38-56: sol_plain_map[13][8] *)
Definition sol_plain : list N := [
  0xa5; 0xa2; 0x61; 0x73; 0x64; 0x66; 0x67; 0x68;
  0x6a; 0x6b; 0x6c; 0x3b; 0x3a; 0x7f; 0xa6; 0xa5;
  0xa4; 0xa1; 0x7a; 0x78; 0x63; 0x76; 0x62; 0x6e;
  0x6d; 0x2c; 0x2e; 0x2f; 0xa1; 0x80; 0xa0; 0xa0;
  0x1b; 0x31; 0x32; 0x33; 0x34; 0x35; 0x36; 0x37;
  0x38; 0x39; 0x30; 0x2d; 0x5e; 0x5b; 0x5c; 0x5d;
  0xb2; 0x09; 0x71; 0x77; 0x65; 0x72; 0x74; 0x79;
  0x75; 0x69; 0x6f; 0x70; 0x40; 0x0d; 0x0a; 0x8c;
  0xa8; 0xa9; 0xaa; 0xab; 0x00; 0xc1; 0xad; 0xac;
  0xb3; 0x97; 0x81; 0x20; 0x93; 0x9a; 0x8e; 0x8b;
  0x2d; 0x37; 0x2a; 0x38; 0x2f; 0x39; 0xa0; 0xa0;
  0x34; 0x31; 0x35; 0x32; 0x36; 0x33; 0xa0; 0xa0;
  0x30; 0x2e; 0x2b; 0xa0; 0xa0; 0xa0; 0xa0; 0xa0].

(** Keymaps/asdf_keymap_sol.c 58-76: sol_caps_map[13][8] *)
Definition sol_caps : list N := [
  0xa5; 0xa2; 0x41; 0x53; 0x44; 0x46; 0x47; 0x48;
  0x4a; 0x4b; 0x4c; 0x3b; 0x3a; 0x7f; 0xa6; 0xa5;
  0xa4; 0xa1; 0x5a; 0x58; 0x43; 0x56; 0x42; 0x4e;
  0x4d; 0x2c; 0x2e; 0x2f; 0xa1; 0x80; 0xa0; 0xa0;
  0x1b; 0x31; 0x32; 0x33; 0x34; 0x35; 0x36; 0x37;
  0x38; 0x39; 0x30; 0x2d; 0x5e; 0x5b; 0x5c; 0x5d;
  0xb2; 0x09; 0x51; 0x57; 0x45; 0x52; 0x54; 0x59;
  0x55; 0x49; 0x4f; 0x50; 0x40; 0x0d; 0x0a; 0x8c;
  0xa8; 0xa9; 0xaa; 0xab; 0x00; 0xc1; 0xad; 0xac;
  0xb3; 0x97; 0x81; 0x20; 0x93; 0x9a; 0x8e; 0x8b;
  0x2d; 0x37; 0x2a; 0x38; 0x2f; 0x39; 0xa0; 0xa0;
  0x34; 0x31; 0x35; 0x32; 0x36; 0x33; 0xa0; 0xa0;
  0x30; 0x2e; 0x2b; 0xa0; 0xa0; 0xa0; 0xa0; 0xa0].

(** Keymaps/asdf_keymap_sol.c 79-96: sol_shift_map[13][8] *)
Definition sol_shift : list N := [
  0xa5; 0xa2; 0x41; 0x53; 0x44; 0x46; 0x47; 0x48;
  0x4a; 0x4b; 0x4c; 0x3b; 0x3a; 0x5f; 0xa6; 0xa5;
  0xa4; 0xa1; 0x5a; 0x58; 0x43; 0x56; 0x42; 0x4e;
  0x4d; 0x3c; 0x3e; 0x3f; 0xa1; 0x80; 0xa0; 0xa0;
  0x1b; 0x21; 0x22; 0x23; 0x24; 0x25; 0x26; 0x27;
  0x28; 0x29; 0x20; 0x3d; 0x7e; 0x5b; 0x5c; 0x5d;
  0xb2; 0x09; 0x51; 0x57; 0x45; 0x52; 0x54; 0x59;
  0x55; 0x49; 0x4f; 0x50; 0x60; 0x0d; 0x0a; 0x8c;
  0xa8; 0xa9; 0xaa; 0xab; 0x00; 0xc1; 0xad; 0xac;
  0xb3; 0x97; 0x81; 0x20; 0x93; 0x9a; 0x8e; 0x8b;
  0x2d; 0x37; 0x2a; 0x38; 0x2f; 0x39; 0xa0; 0xa0;
  0x34; 0x31; 0x35; 0x32; 0x36; 0x33; 0xa0; 0xa0;
  0x30; 0x2e; 0x2b; 0xa0; 0xa0; 0xa0; 0xa0; 0xa0].

(** Keymaps/asdf_keymap_sol.c 99-121: sol_ctrl_map[13][8] *)
Definition sol_ctrl : list N := [
  0xa5; 0xa2; 0x01; 0x13; 0x04; 0x06; 0x07; 0x08;
  0x0a; 0x0b; 0x0c; 0x0b; 0x0a; 0x7f; 0xb1; 0xa5;
  0xa4; 0xa1; 0x1a; 0x18; 0x03; 0x16; 0x02; 0x0e;
  0x0d; 0x0c; 0x0e; 0x0f; 0xa1; 0x80; 0xa0; 0xa0;
  0x1b; 0x01; 0x02; 0x03; 0x04; 0x05; 0x06; 0x07;
  0x08; 0x09; 0x00; 0x0d; 0x1e; 0x1b; 0x1c; 0x1d;
  0xb2; 0x09; 0x11; 0x17; 0x05; 0x12; 0x14; 0x19;
  0x15; 0x09; 0x0f; 0x10; 0x00; 0x0d; 0x0a; 0x8c;
  0xa8; 0xa9; 0xaa; 0xab; 0x00; 0xc1; 0xad; 0xac;
  0xb3; 0x97; 0x81; 0x20; 0x93; 0x9a; 0x8e; 0x8b;
  0x2d; 0x37; 0x2a; 0x38; 0x2f; 0x39; 0xa0; 0xa0;
  0x34; 0x31; 0x35; 0x32; 0x36; 0x33; 0xa0; 0xa0;
  0x30; 0x2e; 0x2b; 0xa0; 0xa0; 0xa0; 0xa0; 0xa0].

(** Keymaps/asdf_keymap_ace1000_add_map.c 43-54: ace1000_plain_matrix[10][8] *)
Definition ace_plain : list N := [
  0x1b; 0x03; 0x13; 0xa5; 0x09; 0xa4; 0xa1; 0x20;
  0x31; 0x71; 0x61; 0x7a; 0x32; 0x77; 0x73; 0x78;
  0x33; 0x65; 0x64; 0x63; 0x34; 0x72; 0x66; 0x76;
  0x35; 0x74; 0x67; 0x62; 0x36; 0x79; 0x68; 0x6e;
  0x37; 0x75; 0x6a; 0x6d; 0x38; 0x69; 0x6b; 0x2c;
  0x39; 0x6f; 0x6c; 0x2e; 0x15; 0x2d; 0x3d; 0x2a;
  0x30; 0x70; 0x3b; 0x2f; 0x37; 0x34; 0x31; 0x3e;
  0x2d; 0x7b; 0x27; 0xa1; 0x38; 0x35; 0x32; 0x30;
  0xa8; 0xa9; 0xaa; 0xab; 0x00; 0xc1; 0xad; 0xac;
  0x2f; 0x5b; 0x0d; 0x08; 0x39; 0x36; 0x33; 0x2e].

(** Keymaps/asdf_keymap_ace1000_add_map.c 56-67: ace1000_shift_matrix[10][8] *)
Definition ace_shift : list N := [
  0x1b; 0x03; 0x13; 0xa5; 0x09; 0xa4; 0xa1; 0x20;
  0x21; 0x51; 0x41; 0x5a; 0x40; 0x57; 0x53; 0x58;
  0x23; 0x45; 0x44; 0x43; 0x24; 0x52; 0x46; 0x56;
  0x25; 0x54; 0x47; 0x42; 0x5e; 0x59; 0x48; 0x4e;
  0x26; 0x55; 0x4a; 0x4d; 0x2a; 0x49; 0x4b; 0x3c;
  0x28; 0x4f; 0x4c; 0x3e; 0x15; 0x5f; 0x2b; 0x2a;
  0x29; 0x50; 0x3a; 0x3f; 0x26; 0x24; 0x21; 0x3e;
  0x2d; 0x7d; 0x22; 0xa1; 0x2a; 0x25; 0x40; 0x29;
  0xa8; 0xa9; 0xaa; 0xab; 0x00; 0xc1; 0xad; 0xac;
  0x3f; 0x5d; 0x0d; 0x08; 0x28; 0x5e; 0x23; 0x3e].

(** Keymaps/asdf_keymap_ace1000_add_map.c 69-80: ace1000_caps_matrix[10][8] *)
Definition ace_caps : list N := [
  0x1b; 0x03; 0x13; 0xa5; 0x09; 0xa4; 0xa1; 0x20;
  0x31; 0x51; 0x41; 0x5a; 0x32; 0x57; 0x53; 0x58;
  0x33; 0x45; 0x44; 0x43; 0x34; 0x52; 0x46; 0x56;
  0x35; 0x54; 0x47; 0x42; 0x36; 0x59; 0x48; 0x4e;
  0x37; 0x55; 0x4a; 0x4d; 0x38; 0x49; 0x4b; 0x2c;
  0x39; 0x4f; 0x4c; 0x2e; 0x15; 0x2d; 0x3d; 0x2a;
  0x30; 0x50; 0x3b; 0x2f; 0x37; 0x34; 0x31; 0x3e;
  0x2d; 0x7b; 0x27; 0xa1; 0x38; 0x35; 0x32; 0x30;
  0xa8; 0xa9; 0xaa; 0xab; 0x00; 0xc1; 0xad; 0xac;
  0x2f; 0x5b; 0x0d; 0x08; 0x39; 0x36; 0x33; 0x2e].

(** Keymaps/asdf_keymap_ace1000_add_map.c 82-93: ace1000_ctrl_matrix[10][8] *)
Definition ace_ctrl : list N := [
  0x1b; 0x03; 0x13; 0xa5; 0x09; 0xa4; 0xa1; 0x20;
  0x31; 0x11; 0x01; 0x1a; 0x32; 0x17; 0x13; 0x18;
  0x33; 0x05; 0x04; 0x03; 0x34; 0x12; 0x06; 0x16;
  0x35; 0x14; 0x07; 0x02; 0x36; 0x19; 0x08; 0x0e;
  0x37; 0x15; 0x0a; 0x0d; 0x38; 0x09; 0x0b; 0x2c;
  0x39; 0x0f; 0x0c; 0x2e; 0x15; 0x3d; 0x3d; 0x2a;
  0x30; 0x10; 0x3b; 0x2f; 0x37; 0x34; 0x31; 0x3e;
  0x2d; 0x7b; 0x27; 0xa1; 0x38; 0x35; 0x32; 0x30;
  0xa8; 0xa9; 0xaa; 0xab; 0x00; 0xc1; 0xad; 0xac;
  0x2f; 0x1d; 0x0d; 0x08; 0x39; 0x36; 0x33; 0x2e].

(** Keymaps/asdf_keymap_classic.c 35-37: classic_id_message *)
Definition msg_classic_id : list N := [
  0x5b; 0x4b; 0x65; 0x79; 0x6d; 0x61; 0x70; 0x3a; 0x20; 0x63; 0x6c; 0x61; 0x73; 0x73; 0x69; 0x63;
  0x5d; 0x0a].

(** Keymaps/asdf_keymap_classic_caps.c 37-39: classic_caps_id_message *)
Definition msg_classic_caps_id : list N := [
  0x5b; 0x4b; 0x65; 0x79; 0x6d; 0x61; 0x70; 0x3a; 0x20; 0x63; 0x6c; 0x61; 0x73; 0x73; 0x69; 0x63;
  0x5d; 0x0a].

(** Keymaps/asdf_keymap_apple2.c 50-53: apple2_id_message *)
Definition msg_apple2_id : list N := [
  0x5b; 0x4b; 0x65; 0x79; 0x6d; 0x61; 0x70; 0x3a; 0x20; 0x41; 0x70; 0x70; 0x6c; 0x65; 0x20; 0x32;
  0x20; 0x28; 0x75; 0x2f; 0x6c; 0x20; 0x63; 0x61; 0x73; 0x65; 0x29; 0x5d].

(** Keymaps/asdf_keymap_apple2_caps.c 34-36: apple2_caps_id_message *)
Definition msg_apple2_caps_id : list N := [
  0x5b; 0x4b; 0x65; 0x79; 0x6d; 0x61; 0x70; 0x3a; 0x20; 0x41; 0x70; 0x70; 0x6c; 0x65; 0x20; 0x32;
  0x20; 0x43; 0x41; 0x50; 0x53; 0x5d].

(** Keymaps/asdf_keymap_sol.c 145-148: sol_id_message *)
Definition msg_sol_id : list N := [
  0x5b; 0x4b; 0x65; 0x79; 0x62; 0x64; 0x3a; 0x20; 0x53; 0x6f; 0x6c; 0x2d; 0x32; 0x30; 0x5d].

(** Keymaps/asdf_keymap_ace1000.c 37-39: ace1000_id_message *)
Definition msg_ace1000_id : list N := [
  0x5b; 0x4b; 0x65; 0x79; 0x6d; 0x61; 0x70; 0x3a; 0x20; 0x61; 0x63; 0x65; 0x31; 0x30; 0x30; 0x30;
  0x5d; 0x0a].

(** Keymaps/asdf_keymap_apple2_add_map.c 152-155: applesoft_keyboard_test *)
Definition msg_applesoft_test : list N := [
  0x31; 0x30; 0x47; 0x45; 0x54; 0x41; 0x24; 0x28; 0x30; 0x29; 0x3a; 0x41; 0x3d; 0x41; 0x53; 0x43;
  0x28; 0x41; 0x24; 0x28; 0x30; 0x29; 0x29; 0x3a; 0x41; 0x24; 0x28; 0x31; 0x29; 0x3d; 0x22; 0x43;
  0x54; 0x4c; 0x2b; 0x22; 0x2b; 0x43; 0x48; 0x52; 0x24; 0x28; 0x41; 0x20; 0x2b; 0x20; 0x36; 0x34;
  0x29; 0x3a; 0x3f; 0x22; 0x27; 0x22; 0x3b; 0x41; 0x24; 0x28; 0x41; 0x3c; 0x33; 0x32; 0x29; 0x3b;
  0x22; 0x27; 0x20; 0x3d; 0x20; 0x22; 0x3b; 0x41; 0x3a; 0x49; 0x46; 0x41; 0x3c; 0x3e; 0x33; 0x47;
  0x4f; 0x54; 0x4f; 0x31; 0x30; 0x0d].

(** Keymaps/asdf_keymap_ace1000_add_map.c 113-116: ace1000_keyboard_test *)
Definition msg_ace1000_test : list N := [
  0x31; 0x30; 0x47; 0x45; 0x54; 0x41; 0x24; 0x28; 0x30; 0x29; 0x3a; 0x41; 0x3d; 0x41; 0x53; 0x43;
  0x28; 0x41; 0x24; 0x28; 0x30; 0x29; 0x29; 0x3a; 0x41; 0x24; 0x28; 0x31; 0x29; 0x3d; 0x22; 0x43;
  0x54; 0x4c; 0x2b; 0x22; 0x2b; 0x43; 0x48; 0x52; 0x24; 0x28; 0x41; 0x20; 0x2b; 0x20; 0x36; 0x34;
  0x29; 0x3a; 0x3f; 0x22; 0x27; 0x22; 0x3b; 0x41; 0x24; 0x28; 0x41; 0x3c; 0x33; 0x32; 0x29; 0x3b;
  0x22; 0x27; 0x20; 0x3d; 0x20; 0x22; 0x3b; 0x41; 0x3a; 0x49; 0x46; 0x41; 0x3c; 0x3e; 0x33; 0x47;
  0x4f; 0x54; 0x4f; 0x31; 0x30; 0x0d].
