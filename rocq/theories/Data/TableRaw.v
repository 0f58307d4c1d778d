(* Generated by tools/gen.py from textseg/internal/charprops/property_table_raw.go. *)
From Coq Require Import List NArith.
Import ListNotations.

(* property_table_raw.go 5-231: var lookupIndices = [...]uint8{...}, in blocks of 64 *)
Definition lookupIndices_blocks : list (list N) := [
  (* block 0x0000 *)
  [ 0x02; 0x02; 0x03; 0x02; 0x02; 0x02; 0x02; 0x02;
    0x02; 0x02; 0x02; 0x02; 0x04; 0x05; 0x02; 0x02;
    0x02; 0x02; 0x06; 0x02; 0x02; 0x02; 0x07; 0x08;
    0x09; 0x0a; 0x02; 0x0b; 0x0c; 0x0d; 0x0e; 0x0f;
    0x01; 0x02; 0x03; 0x04; 0x05; 0x05; 0x05; 0x05;
    0x05; 0x05; 0x06; 0x07; 0x08; 0x09; 0x05; 0x0a;
    0x15; 0x16; 0x16; 0x18; 0x16; 0x16; 0x16; 0x16;
    0x16; 0x16; 0x16; 0x16; 0x16; 0x16; 0x16; 0x16 ];
  (* block 0x0001 *)
  [ 0x10; 0x10; 0x10; 0x10; 0x10; 0x10; 0x10; 0x10;
    0x10; 0x10; 0x10; 0x10; 0x10; 0x10; 0x10; 0x10;
    0x10; 0x10; 0x10; 0x10; 0x10; 0x10; 0x10; 0x10;
    0x10; 0x10; 0x10; 0x10; 0x10; 0x10; 0x10; 0x10;
    0x11; 0x12; 0x13; 0x14; 0x15; 0x16; 0x17; 0x18;
    0x19; 0x1a; 0x1b; 0x1c; 0x1d; 0x1e; 0x1f; 0x20;
    0x21; 0x22; 0x23; 0x24; 0x25; 0x26; 0x27; 0x28;
    0x29; 0x2a; 0x2b; 0x2c; 0x2d; 0x2e; 0x2f; 0x30 ];
  (* block 0x0002 *)
  [ 0x31; 0x32; 0x33; 0x10; 0x34; 0x35; 0x36; 0x37;
    0x10; 0x10; 0x10; 0x10; 0x10; 0x38; 0x10; 0x10;
    0x10; 0x10; 0x10; 0x10; 0x10; 0x10; 0x10; 0x10;
    0x10; 0x10; 0x10; 0x10; 0x39; 0x3a; 0x3b; 0x3c;
    0x3d; 0x10; 0x3e; 0x10; 0x3f; 0x10; 0x10; 0x10;
    0x40; 0x41; 0x42; 0x43; 0x44; 0x45; 0x46; 0x47;
    0x48; 0x10; 0x10; 0x49; 0x10; 0x10; 0x10; 0x4a;
    0x10; 0x10; 0x10; 0x10; 0x10; 0x10; 0x10; 0x10 ];
  (* block 0x0003 *)
  [ 0x4b; 0x4c; 0x10; 0x4d; 0x4e; 0x10; 0x4f; 0x10;
    0x10; 0x10; 0x10; 0x10; 0x50; 0x10; 0x10; 0x51;
    0x10; 0x10; 0x10; 0x52; 0x10; 0x10; 0x53; 0x54;
    0x55; 0x56; 0x57; 0x58; 0x59; 0x5a; 0x5b; 0x10;
    0x10; 0x10; 0x10; 0x10; 0x5c; 0x10; 0x10; 0x10;
    0x10; 0x10; 0x10; 0x10; 0x5d; 0x5e; 0x10; 0x10;
    0x10; 0x10; 0x10; 0x5f; 0x10; 0x60; 0x10; 0x61;
    0x10; 0x10; 0x10; 0x10; 0x10; 0x10; 0x10; 0x10 ];
  (* block 0x0004 *)
  [ 0x62; 0x10; 0x63; 0x10; 0x10; 0x10; 0x10; 0x10;
    0x10; 0x10; 0x64; 0x10; 0x10; 0x10; 0x10; 0x10;
    0x10; 0x10; 0x10; 0x10; 0x10; 0x10; 0x10; 0x10;
    0x10; 0x10; 0x10; 0x10; 0x10; 0x10; 0x10; 0x10;
    0x10; 0x10; 0x10; 0x10; 0x10; 0x10; 0x10; 0x10;
    0x10; 0x10; 0x10; 0x10; 0x10; 0x10; 0x10; 0x10;
    0x10; 0x10; 0x10; 0x10; 0x10; 0x10; 0x10; 0x10;
    0x10; 0x10; 0x10; 0x10; 0x10; 0x10; 0x10; 0x10 ];
  (* block 0x0005 *)
  [ 0x10; 0x10; 0x10; 0x10; 0x10; 0x10; 0x10; 0x10;
    0x10; 0x10; 0x10; 0x10; 0x10; 0x10; 0x10; 0x10;
    0x10; 0x10; 0x10; 0x10; 0x10; 0x10; 0x10; 0x10;
    0x10; 0x10; 0x10; 0x10; 0x10; 0x10; 0x10; 0x10;
    0x10; 0x10; 0x10; 0x10; 0x10; 0x10; 0x10; 0x10;
    0x10; 0x10; 0x10; 0x10; 0x10; 0x10; 0x10; 0x10;
    0x10; 0x10; 0x10; 0x10; 0x10; 0x10; 0x10; 0x10;
    0x10; 0x10; 0x10; 0x10; 0x10; 0x10; 0x10; 0x10 ];
  (* block 0x0006 *)
  [ 0x10; 0x10; 0x10; 0x10; 0x10; 0x10; 0x10; 0x10;
    0x10; 0x10; 0x10; 0x10; 0x10; 0x10; 0x10; 0x10;
    0x10; 0x10; 0x10; 0x10; 0x10; 0x10; 0x10; 0x10;
    0x10; 0x65; 0x66; 0x67; 0x10; 0x10; 0x10; 0x10;
    0x68; 0x10; 0x69; 0x6a; 0x6b; 0x6c; 0x6d; 0x6e;
    0x6f; 0x70; 0x71; 0x72; 0x10; 0x10; 0x10; 0x73;
    0x74; 0x75; 0x76; 0x77; 0x78; 0x79; 0x7a; 0x74;
    0x75; 0x76; 0x77; 0x78; 0x79; 0x7a; 0x74; 0x75 ];
  (* block 0x0007 *)
  [ 0x76; 0x77; 0x78; 0x79; 0x7a; 0x74; 0x75; 0x76;
    0x77; 0x78; 0x79; 0x7a; 0x74; 0x75; 0x76; 0x77;
    0x78; 0x79; 0x7a; 0x74; 0x75; 0x76; 0x77; 0x78;
    0x79; 0x7a; 0x74; 0x75; 0x76; 0x77; 0x78; 0x79;
    0x7a; 0x74; 0x75; 0x76; 0x77; 0x78; 0x79; 0x7a;
    0x74; 0x75; 0x76; 0x77; 0x78; 0x79; 0x7a; 0x74;
    0x75; 0x76; 0x77; 0x78; 0x79; 0x7a; 0x74; 0x75;
    0x76; 0x77; 0x78; 0x79; 0x7a; 0x74; 0x75; 0x76 ];
  (* block 0x0008 *)
  [ 0x77; 0x78; 0x79; 0x7a; 0x74; 0x75; 0x76; 0x77;
    0x78; 0x79; 0x7a; 0x74; 0x75; 0x76; 0x77; 0x78;
    0x79; 0x7a; 0x74; 0x75; 0x76; 0x77; 0x78; 0x79;
    0x7a; 0x74; 0x75; 0x76; 0x77; 0x78; 0x79; 0x7a;
    0x74; 0x75; 0x76; 0x77; 0x78; 0x79; 0x7a; 0x74;
    0x75; 0x76; 0x77; 0x78; 0x79; 0x7a; 0x74; 0x75;
    0x76; 0x77; 0x78; 0x79; 0x7a; 0x74; 0x75; 0x76;
    0x77; 0x78; 0x79; 0x7a; 0x74; 0x75; 0x76; 0x77 ];
  (* block 0x0009 *)
  [ 0x78; 0x79; 0x7a; 0x74; 0x75; 0x76; 0x77; 0x78;
    0x79; 0x7a; 0x74; 0x75; 0x76; 0x77; 0x78; 0x79;
    0x7a; 0x74; 0x75; 0x76; 0x77; 0x78; 0x79; 0x7a;
    0x74; 0x75; 0x76; 0x77; 0x78; 0x79; 0x7b; 0x7c;
    0x10; 0x10; 0x10; 0x10; 0x10; 0x10; 0x10; 0x10;
    0x10; 0x10; 0x10; 0x10; 0x10; 0x10; 0x10; 0x10;
    0x10; 0x10; 0x10; 0x10; 0x10; 0x10; 0x10; 0x10;
    0x10; 0x10; 0x10; 0x10; 0x10; 0x10; 0x10; 0x10 ];
  (* block 0x000a *)
  [ 0x10; 0x10; 0x10; 0x10; 0x10; 0x10; 0x10; 0x10;
    0x10; 0x10; 0x10; 0x10; 0x10; 0x10; 0x10; 0x10;
    0x10; 0x10; 0x10; 0x10; 0x10; 0x10; 0x10; 0x10;
    0x10; 0x10; 0x10; 0x10; 0x10; 0x10; 0x10; 0x10;
    0x10; 0x10; 0x10; 0x10; 0x10; 0x10; 0x10; 0x10;
    0x10; 0x10; 0x10; 0x10; 0x7d; 0x10; 0x10; 0x10;
    0x10; 0x10; 0x10; 0x10; 0x10; 0x10; 0x10; 0x10;
    0x7e; 0x10; 0x10; 0x01; 0x10; 0x10; 0x66; 0x7f ];
  (* block 0x000b *)
  [ 0x02; 0x02; 0x02; 0x02; 0x02; 0x02; 0x02; 0x02;
    0x02; 0x02; 0x02; 0x02; 0x02; 0x02; 0x02; 0x02;
    0x02; 0x02; 0x02; 0x02; 0x02; 0x02; 0x02; 0x02;
    0x02; 0x02; 0x02; 0x02; 0x02; 0x02; 0x02; 0x02;
    0x02; 0x02; 0x02; 0x02; 0x02; 0x02; 0x02; 0x02;
    0x02; 0x02; 0x02; 0x02; 0x02; 0x02; 0x02; 0x02;
    0x02; 0x02; 0x02; 0x02; 0x02; 0x02; 0x02; 0x02;
    0x02; 0x02; 0x02; 0x02; 0x02; 0x02; 0x02; 0x02 ];
  (* block 0x000c *)
  [ 0x02; 0x02; 0x02; 0x02; 0x02; 0x02; 0x02; 0x80;
    0x02; 0x02; 0x02; 0x81; 0x02; 0x82; 0x02; 0x02;
    0x02; 0x02; 0x02; 0x02; 0x02; 0x02; 0x02; 0x02;
    0x02; 0x02; 0x02; 0x02; 0x02; 0x02; 0x02; 0x02;
    0x02; 0x02; 0x02; 0x02; 0x02; 0x02; 0x02; 0x02;
    0x83; 0x02; 0x02; 0x84; 0x02; 0x02; 0x02; 0x02;
    0x02; 0x02; 0x02; 0x02; 0x85; 0x86; 0x02; 0x02;
    0x02; 0x02; 0x87; 0x88; 0x02; 0x89; 0x8a; 0x02 ];
  (* block 0x000d *)
  [ 0x8b; 0x8c; 0x8d; 0x8e; 0x8f; 0x90; 0x91; 0x92;
    0x93; 0x94; 0x02; 0x95; 0x96; 0x97; 0x98; 0x99;
    0x9a; 0x9b; 0x9c; 0x9d; 0x02; 0x02; 0x9e; 0x9f;
    0xa0; 0xa1; 0xa2; 0x02; 0xa3; 0x02; 0x02; 0x02;
    0xa4; 0x02; 0x02; 0x02; 0xa5; 0xa6; 0x02; 0xa7;
    0xa8; 0xa9; 0xaa; 0x02; 0x02; 0xab; 0x02; 0x02;
    0xac; 0x02; 0xad; 0x02; 0xae; 0xaf; 0xb0; 0x02;
    0x02; 0x02; 0x02; 0xb1; 0xb2; 0xb3; 0x02; 0x02 ];
  (* block 0x000e *)
  [ 0x02; 0x02; 0x02; 0x02; 0x02; 0x02; 0x02; 0x02;
    0x02; 0x02; 0x02; 0x02; 0x02; 0x02; 0x02; 0x02;
    0xb4; 0xb5; 0x02; 0x02; 0x02; 0x02; 0x02; 0x02;
    0x02; 0x02; 0x02; 0x02; 0x02; 0x02; 0x02; 0x02;
    0x02; 0x02; 0x02; 0x02; 0x02; 0x02; 0x02; 0x02;
    0x02; 0x02; 0x02; 0x02; 0x02; 0x02; 0x02; 0x02;
    0x02; 0x02; 0x02; 0x02; 0x02; 0x02; 0x02; 0x02;
    0x02; 0x02; 0x02; 0x02; 0x02; 0x02; 0x02; 0x02 ];
  (* block 0x000f *)
  [ 0x02; 0x02; 0x02; 0x02; 0xb6; 0x02; 0x02; 0x02;
    0x02; 0x02; 0x02; 0x02; 0x02; 0x02; 0x02; 0x02;
    0x02; 0x02; 0x02; 0x02; 0x02; 0x02; 0x02; 0x02;
    0x02; 0x02; 0x02; 0x02; 0x02; 0x02; 0x02; 0x02;
    0x02; 0x02; 0x02; 0x02; 0x02; 0x02; 0x02; 0x02;
    0x02; 0x02; 0x02; 0xb7; 0xb8; 0x02; 0x02; 0x02;
    0x02; 0x02; 0x02; 0x02; 0x02; 0xb9; 0x02; 0x02;
    0x02; 0x02; 0x02; 0x02; 0x02; 0xba; 0xbb; 0xbc ];
  (* block 0x0010 *)
  [ 0x02; 0x02; 0x02; 0x02; 0x02; 0x02; 0x02; 0x02;
    0x02; 0x02; 0x02; 0x02; 0x02; 0x02; 0x02; 0x02;
    0x02; 0x02; 0x02; 0x02; 0x02; 0x02; 0x02; 0x02;
    0x02; 0x02; 0x02; 0x02; 0x02; 0x02; 0x02; 0x02;
    0x02; 0x02; 0x02; 0x02; 0x02; 0x02; 0x02; 0x02;
    0x02; 0x02; 0x02; 0x02; 0x02; 0x02; 0x02; 0x02;
    0x02; 0x02; 0xbd; 0x02; 0x02; 0x02; 0x02; 0x02;
    0x02; 0x02; 0x02; 0x02; 0x02; 0x02; 0x02; 0x02 ];
  (* block 0x0011 *)
  [ 0x02; 0x02; 0x02; 0x02; 0x02; 0x02; 0x02; 0x02;
    0x02; 0x02; 0x02; 0x02; 0x02; 0x02; 0x02; 0x02;
    0x02; 0x02; 0x02; 0x02; 0x02; 0x02; 0x02; 0x02;
    0x02; 0x02; 0x02; 0x02; 0x02; 0x02; 0x02; 0x02;
    0x02; 0x02; 0x02; 0x02; 0x02; 0x02; 0x02; 0x02;
    0x02; 0x02; 0x02; 0x02; 0x02; 0x02; 0x02; 0x02;
    0x02; 0x02; 0x02; 0x02; 0x02; 0x02; 0x02; 0x02;
    0x02; 0x02; 0x02; 0x02; 0xbe; 0xbf; 0x02; 0x02 ];
  (* block 0x0012 *)
  [ 0x02; 0x02; 0x02; 0x02; 0x02; 0xc0; 0xc1; 0x02;
    0x02; 0xc2; 0x02; 0x02; 0x02; 0x02; 0x02; 0x02;
    0x02; 0x02; 0x02; 0x02; 0x02; 0x02; 0x02; 0x02;
    0x02; 0x02; 0x02; 0x02; 0x02; 0x02; 0x02; 0x02;
    0x02; 0x02; 0x02; 0x02; 0x02; 0x02; 0x02; 0x02;
    0xc3; 0xc4; 0xc5; 0x02; 0x02; 0x02; 0x02; 0x02;
    0x02; 0x02; 0x02; 0x02; 0x02; 0x02; 0x02; 0x02;
    0x02; 0x02; 0x02; 0x02; 0x02; 0x02; 0x02; 0x02 ];
  (* block 0x0013 *)
  [ 0xc6; 0x02; 0xc7; 0x02; 0xb8; 0x02; 0x02; 0x02;
    0x02; 0x02; 0xc8; 0xc9; 0x02; 0x02; 0x02; 0x02;
    0x02; 0x02; 0x02; 0xc9; 0x02; 0x02; 0x02; 0xca;
    0x02; 0x02; 0x02; 0xcb; 0x02; 0x02; 0x02; 0x02;
    0x02; 0x02; 0x02; 0xcc; 0x02; 0xcd; 0x02; 0x02;
    0x02; 0x02; 0x02; 0x02; 0x02; 0x02; 0x02; 0x02;
    0x02; 0x02; 0x02; 0x02; 0x02; 0x02; 0x02; 0x02;
    0x02; 0x02; 0x02; 0x02; 0x02; 0x02; 0x02; 0x02 ];
  (* block 0x0014 *)
  [ 0xce; 0x02; 0xcf; 0xd0; 0x02; 0xd1; 0xd2; 0xd3;
    0xd4; 0xd5; 0xd6; 0xd6; 0xd7; 0xd6; 0xd8; 0xd9;
    0xd6; 0xd6; 0xd6; 0xda; 0xdb; 0xdc; 0xdd; 0xde;
    0xd6; 0xdf; 0xd6; 0xe0; 0x02; 0x02; 0x02; 0xe1;
    0xe2; 0xe3; 0xe4; 0xe5; 0xe6; 0xe7; 0xd6; 0xd6;
    0x02; 0xe8; 0xd6; 0xd6; 0x02; 0x02; 0x02; 0x02;
    0xd6; 0xd6; 0xd6; 0xd6; 0xd6; 0xd6; 0xd6; 0xd6;
    0xd6; 0xd6; 0xd6; 0xd6; 0xd6; 0xd6; 0xd6; 0xdb ];
  (* block 0x0015 *)
  [ 0x0b; 0x0b; 0x0b; 0x0b; 0x0b; 0x0b; 0x0b; 0x0b;
    0x0b; 0x0b; 0x0b; 0x0b; 0x0b; 0x0b; 0x0b; 0x0b;
    0x0c; 0x0d; 0x0b; 0x0e; 0x0b; 0x0b; 0x0f; 0x0b;
    0x0b; 0x0b; 0x0b; 0x10; 0x11; 0x12; 0x13; 0x14;
    0x0b; 0x0b; 0x0b; 0x0b; 0x0b; 0x0b; 0x0b; 0x0b;
    0x0b; 0x0b; 0x0b; 0x0b; 0x0b; 0x0b; 0x0b; 0x0b;
    0x0b; 0x0b; 0x0b; 0x0b; 0x0b; 0x0b; 0x0b; 0x0b;
    0x0b; 0x0b; 0x0b; 0x0b; 0x0b; 0x0b; 0x0b; 0x0b ];
  (* block 0x0016 *)
  [ 0x0b; 0x0b; 0x0b; 0x0b; 0x0b; 0x0b; 0x0b; 0x0b;
    0x0b; 0x0b; 0x0b; 0x0b; 0x0b; 0x0b; 0x0b; 0x0b;
    0x0b; 0x0b; 0x0b; 0x0b; 0x0b; 0x0b; 0x0b; 0x0b;
    0x0b; 0x0b; 0x0b; 0x0b; 0x0b; 0x0b; 0x0b; 0x0b;
    0x0b; 0x0b; 0x0b; 0x0b; 0x0b; 0x0b; 0x0b; 0x0b;
    0x0b; 0x0b; 0x0b; 0x0b; 0x0b; 0x0b; 0x0b; 0x0b;
    0x0b; 0x0b; 0x0b; 0x0b; 0x0b; 0x0b; 0x0b; 0x0b;
    0x0b; 0x0b; 0x0b; 0x0b; 0x0b; 0x0b; 0x0b; 0x0b ];
  (* block 0x0017 *)
  [ 0xe9; 0x04; 0xea; 0xea; 0x04; 0x04; 0x04; 0xeb;
    0xea; 0xea; 0xea; 0xea; 0xea; 0xea; 0xea; 0xea;
    0xea; 0xea; 0xea; 0xea; 0xea; 0xea; 0xea; 0xea;
    0xea; 0xea; 0xea; 0xea; 0xea; 0xea; 0xea; 0xea;
    0xea; 0xea; 0xea; 0xea; 0xea; 0xea; 0xea; 0xea;
    0xea; 0xea; 0xea; 0xea; 0xea; 0xea; 0xea; 0xea;
    0xea; 0xea; 0xea; 0xea; 0xea; 0xea; 0xea; 0xea;
    0xea; 0xea; 0xea; 0xea; 0xea; 0xea; 0xea; 0xea ];
  (* block 0x0018 *)
  [ 0x0b; 0x0b; 0x0b; 0x0b; 0x0b; 0x0b; 0x0b; 0x0b;
    0x0b; 0x0b; 0x0b; 0x0b; 0x0b; 0x0b; 0x0b; 0x0b;
    0x0b; 0x0b; 0x0b; 0x0b; 0x0b; 0x0b; 0x0b; 0x0b;
    0x0b; 0x0b; 0x0b; 0x0b; 0x0b; 0x0b; 0x0b; 0x0b;
    0x17; 0x0b; 0x0b; 0x0b; 0x0b; 0x0b; 0x0b; 0x0b;
    0x0b; 0x0b; 0x0b; 0x0b; 0x0b; 0x0b; 0x0b; 0x0b;
    0x0b; 0x0b; 0x0b; 0x0b; 0x0b; 0x0b; 0x0b; 0x0b;
    0x0b; 0x0b; 0x0b; 0x0b; 0x0b; 0x0b; 0x0b; 0x0b ]
]%N.

(* property_table_raw.go 232-2357: var lookupProps = [...]CharProperties{...}, in blocks of 64 *)
Definition lookupProps_blocks : list (list N) := [
  (* block 0x0000 *)
  [ 0x02; 0x02; 0x02; 0x02; 0x02; 0x02; 0x02; 0x02;
    0x02; 0x02; 0x06; 0x02; 0x02; 0x01; 0x02; 0x02;
    0x02; 0x02; 0x02; 0x02; 0x02; 0x02; 0x02; 0x02;
    0x02; 0x02; 0x02; 0x02; 0x02; 0x02; 0x02; 0x02;
    0x00; 0x00; 0x00; 0x00; 0x00; 0x00; 0x00; 0x00;
    0x00; 0x00; 0x00; 0x00; 0x00; 0x00; 0x00; 0x00;
    0x00; 0x00; 0x00; 0x00; 0x00; 0x00; 0x00; 0x00;
    0x00; 0x00; 0x00; 0x00; 0x00; 0x00; 0x00; 0x00 ];
  (* block 0x0001 *)
  [ 0x00; 0x00; 0x00; 0x00; 0x00; 0x00; 0x00; 0x00;
    0x00; 0x00; 0x00; 0x00; 0x00; 0x00; 0x00; 0x00;
    0x00; 0x00; 0x00; 0x00; 0x00; 0x00; 0x00; 0x00;
    0x00; 0x00; 0x00; 0x00; 0x00; 0x00; 0x00; 0x00;
    0x00; 0x00; 0x00; 0x00; 0x00; 0x00; 0x00; 0x00;
    0x00; 0x00; 0x00; 0x00; 0x00; 0x00; 0x00; 0x00;
    0x00; 0x00; 0x00; 0x00; 0x00; 0x00; 0x00; 0x00;
    0x00; 0x00; 0x00; 0x00; 0x00; 0x00; 0x00; 0x02 ];
  (* block 0x0002 *)
  [ 0x00; 0x00; 0x00; 0x00; 0x00; 0x00; 0x00; 0x00;
    0x00; 0x00; 0x00; 0x00; 0x00; 0x00; 0x00; 0x00;
    0x00; 0x00; 0x00; 0x00; 0x00; 0x00; 0x00; 0x00;
    0x00; 0x00; 0x00; 0x00; 0x00; 0x00; 0x00; 0x00;
    0x00; 0x00; 0x00; 0x00; 0x00; 0x00; 0x00; 0x00;
    0x00; 0x00; 0x00; 0x00; 0x00; 0x00; 0x00; 0x00;
    0x00; 0x00; 0x00; 0x00; 0x00; 0x00; 0x00; 0x00;
    0x00; 0x00; 0x00; 0x00; 0x00; 0x00; 0x00; 0x00 ];
  (* block 0x0003 *)
  [ 0x02; 0x02; 0x02; 0x02; 0x02; 0x02; 0x02; 0x02;
    0x02; 0x02; 0x02; 0x02; 0x02; 0x02; 0x02; 0x02;
    0x02; 0x02; 0x02; 0x02; 0x02; 0x02; 0x02; 0x02;
    0x02; 0x02; 0x02; 0x02; 0x02; 0x02; 0x02; 0x02;
    0x00; 0x00; 0x00; 0x00; 0x00; 0x00; 0x00; 0x00;
    0x00; 0x04; 0x00; 0x00; 0x00; 0x02; 0x04; 0x00;
    0x00; 0x00; 0x00; 0x00; 0x00; 0x00; 0x00; 0x00;
    0x00; 0x00; 0x00; 0x00; 0x00; 0x00; 0x00; 0x00 ];
  (* block 0x0004 *)
  [ 0x23; 0x23; 0x23; 0x23; 0x23; 0x23; 0x23; 0x23;
    0x23; 0x23; 0x23; 0x23; 0x23; 0x23; 0x23; 0x23;
    0x23; 0x23; 0x23; 0x23; 0x23; 0x23; 0x23; 0x23;
    0x23; 0x23; 0x23; 0x23; 0x23; 0x23; 0x23; 0x23;
    0x23; 0x23; 0x23; 0x23; 0x23; 0x23; 0x23; 0x23;
    0x23; 0x23; 0x23; 0x23; 0x23; 0x23; 0x23; 0x23;
    0x23; 0x23; 0x23; 0x23; 0x23; 0x23; 0x23; 0x23;
    0x23; 0x23; 0x23; 0x23; 0x23; 0x23; 0x23; 0x23 ];
  (* block 0x0005 *)
  [ 0x23; 0x23; 0x23; 0x23; 0x23; 0x23; 0x23; 0x23;
    0x23; 0x23; 0x23; 0x23; 0x23; 0x23; 0x23; 0x23;
    0x23; 0x23; 0x23; 0x23; 0x23; 0x23; 0x23; 0x23;
    0x23; 0x23; 0x23; 0x23; 0x23; 0x23; 0x23; 0x23;
    0x23; 0x23; 0x23; 0x23; 0x23; 0x23; 0x23; 0x23;
    0x23; 0x23; 0x23; 0x23; 0x23; 0x23; 0x23; 0x23;
    0x00; 0x00; 0x00; 0x00; 0x00; 0x00; 0x00; 0x00;
    0x00; 0x00; 0x00; 0x00; 0x00; 0x00; 0x00; 0x00 ];
  (* block 0x0006 *)
  [ 0x00; 0x00; 0x00; 0x23; 0x23; 0x23; 0x23; 0x23;
    0x23; 0x23; 0x00; 0x00; 0x00; 0x00; 0x00; 0x00;
    0x00; 0x00; 0x00; 0x00; 0x00; 0x00; 0x00; 0x00;
    0x00; 0x00; 0x00; 0x00; 0x00; 0x00; 0x00; 0x00;
    0x00; 0x00; 0x00; 0x00; 0x00; 0x00; 0x00; 0x00;
    0x00; 0x00; 0x00; 0x00; 0x00; 0x00; 0x00; 0x00;
    0x00; 0x00; 0x00; 0x00; 0x00; 0x00; 0x00; 0x00;
    0x00; 0x00; 0x00; 0x00; 0x00; 0x00; 0x00; 0x00 ];
  (* block 0x0007 *)
  [ 0x00; 0x00; 0x00; 0x00; 0x00; 0x00; 0x00; 0x00;
    0x00; 0x00; 0x00; 0x00; 0x00; 0x00; 0x00; 0x00;
    0x00; 0x23; 0x23; 0x23; 0x23; 0x23; 0x23; 0x23;
    0x23; 0x23; 0x23; 0x23; 0x23; 0x23; 0x23; 0x23;
    0x23; 0x23; 0x23; 0x23; 0x23; 0x23; 0x23; 0x23;
    0x23; 0x23; 0x23; 0x23; 0x23; 0x23; 0x23; 0x23;
    0x23; 0x23; 0x23; 0x23; 0x23; 0x23; 0x23; 0x23;
    0x23; 0x23; 0x23; 0x23; 0x23; 0x23; 0x00; 0x23 ];
  (* block 0x0008 *)
  [ 0x00; 0x23; 0x23; 0x00; 0x23; 0x23; 0x00; 0x23;
    0x00; 0x00; 0x00; 0x00; 0x00; 0x00; 0x00; 0x00;
    0x00; 0x00; 0x00; 0x00; 0x00; 0x00; 0x00; 0x00;
    0x00; 0x00; 0x00; 0x00; 0x00; 0x00; 0x00; 0x00;
    0x00; 0x00; 0x00; 0x00; 0x00; 0x00; 0x00; 0x00;
    0x00; 0x00; 0x00; 0x00; 0x00; 0x00; 0x00; 0x00;
    0x00; 0x00; 0x00; 0x00; 0x00; 0x00; 0x00; 0x00;
    0x00; 0x00; 0x00; 0x00; 0x00; 0x00; 0x00; 0x00 ];
  (* block 0x0009 *)
  [ 0x09; 0x09; 0x09; 0x09; 0x09; 0x09; 0x00; 0x00;
    0x00; 0x00; 0x00; 0x00; 0x00; 0x00; 0x00; 0x00;
    0x23; 0x23; 0x23; 0x23; 0x23; 0x23; 0x23; 0x23;
    0x23; 0x23; 0x23; 0x00; 0x02; 0x00; 0x00; 0x00;
    0x00; 0x00; 0x00; 0x00; 0x00; 0x00; 0x00; 0x00;
    0x00; 0x00; 0x00; 0x00; 0x00; 0x00; 0x00; 0x00;
    0x00; 0x00; 0x00; 0x00; 0x00; 0x00; 0x00; 0x00;
    0x00; 0x00; 0x00; 0x00; 0x00; 0x00; 0x00; 0x00 ];
  (* block 0x000a *)
  [ 0x00; 0x00; 0x00; 0x00; 0x00; 0x00; 0x00; 0x00;
    0x00; 0x00; 0x00; 0x23; 0x23; 0x23; 0x23; 0x23;
    0x23; 0x23; 0x23; 0x23; 0x23; 0x23; 0x23; 0x23;
    0x23; 0x23; 0x23; 0x23; 0x23; 0x23; 0x23; 0x23;
    0x00; 0x00; 0x00; 0x00; 0x00; 0x00; 0x00; 0x00;
    0x00; 0x00; 0x00; 0x00; 0x00; 0x00; 0x00; 0x00;
    0x23; 0x00; 0x00; 0x00; 0x00; 0x00; 0x00; 0x00;
    0x00; 0x00; 0x00; 0x00; 0x00; 0x00; 0x00; 0x00 ];
  (* block 0x000b *)
  [ 0x00; 0x00; 0x00; 0x00; 0x00; 0x00; 0x00; 0x00;
    0x00; 0x00; 0x00; 0x00; 0x00; 0x00; 0x00; 0x00;
    0x00; 0x00; 0x00; 0x00; 0x00; 0x00; 0x23; 0x23;
    0x23; 0x23; 0x23; 0x23; 0x23; 0x09; 0x00; 0x23;
    0x23; 0x23; 0x23; 0x23; 0x23; 0x00; 0x00; 0x23;
    0x23; 0x00; 0x23; 0x23; 0x23; 0x23; 0x00; 0x00;
    0x00; 0x00; 0x00; 0x00; 0x00; 0x00; 0x00; 0x00;
    0x00; 0x00; 0x00; 0x00; 0x00; 0x00; 0x00; 0x00 ];
  (* block 0x000c *)
  [ 0x00; 0x00; 0x00; 0x00; 0x00; 0x00; 0x00; 0x00;
    0x00; 0x00; 0x00; 0x00; 0x00; 0x00; 0x00; 0x09;
    0x00; 0x23; 0x00; 0x00; 0x00; 0x00; 0x00; 0x00;
    0x00; 0x00; 0x00; 0x00; 0x00; 0x00; 0x00; 0x00;
    0x00; 0x00; 0x00; 0x00; 0x00; 0x00; 0x00; 0x00;
    0x00; 0x00; 0x00; 0x00; 0x00; 0x00; 0x00; 0x00;
    0x23; 0x23; 0x23; 0x23; 0x23; 0x23; 0x23; 0x23;
    0x23; 0x23; 0x23; 0x23; 0x23; 0x23; 0x23; 0x23 ];
  (* block 0x000d *)
  [ 0x23; 0x23; 0x23; 0x23; 0x23; 0x23; 0x23; 0x23;
    0x23; 0x23; 0x23; 0x00; 0x00; 0x00; 0x00; 0x00;
    0x00; 0x00; 0x00; 0x00; 0x00; 0x00; 0x00; 0x00;
    0x00; 0x00; 0x00; 0x00; 0x00; 0x00; 0x00; 0x00;
    0x00; 0x00; 0x00; 0x00; 0x00; 0x00; 0x00; 0x00;
    0x00; 0x00; 0x00; 0x00; 0x00; 0x00; 0x00; 0x00;
    0x00; 0x00; 0x00; 0x00; 0x00; 0x00; 0x00; 0x00;
    0x00; 0x00; 0x00; 0x00; 0x00; 0x00; 0x00; 0x00 ];
  (* block 0x000e *)
  [ 0x00; 0x00; 0x00; 0x00; 0x00; 0x00; 0x00; 0x00;
    0x00; 0x00; 0x00; 0x00; 0x00; 0x00; 0x00; 0x00;
    0x00; 0x00; 0x00; 0x00; 0x00; 0x00; 0x00; 0x00;
    0x00; 0x00; 0x00; 0x00; 0x00; 0x00; 0x00; 0x00;
    0x00; 0x00; 0x00; 0x00; 0x00; 0x00; 0x23; 0x23;
    0x23; 0x23; 0x23; 0x23; 0x23; 0x23; 0x23; 0x23;
    0x23; 0x00; 0x00; 0x00; 0x00; 0x00; 0x00; 0x00;
    0x00; 0x00; 0x00; 0x00; 0x00; 0x00; 0x00; 0x00 ];
  (* block 0x000f *)
  [ 0x00; 0x00; 0x00; 0x00; 0x00; 0x00; 0x00; 0x00;
    0x00; 0x00; 0x00; 0x00; 0x00; 0x00; 0x00; 0x00;
    0x00; 0x00; 0x00; 0x00; 0x00; 0x00; 0x00; 0x00;
    0x00; 0x00; 0x00; 0x00; 0x00; 0x00; 0x00; 0x00;
    0x00; 0x00; 0x00; 0x00; 0x00; 0x00; 0x00; 0x00;
    0x00; 0x00; 0x00; 0x23; 0x23; 0x23; 0x23; 0x23;
    0x23; 0x23; 0x23; 0x23; 0x00; 0x00; 0x00; 0x00;
    0x00; 0x00; 0x00; 0x00; 0x00; 0x23; 0x00; 0x00 ];
  (* block 0x0010 *)
  [ 0x00; 0x00; 0x00; 0x00; 0x00; 0x00; 0x00; 0x00;
    0x00; 0x00; 0x00; 0x00; 0x00; 0x00; 0x00; 0x00;
    0x00; 0x00; 0x00; 0x00; 0x00; 0x00; 0x00; 0x00;
    0x00; 0x00; 0x00; 0x00; 0x00; 0x00; 0x00; 0x00;
    0x00; 0x00; 0x00; 0x00; 0x00; 0x00; 0x00; 0x00;
    0x00; 0x00; 0x00; 0x00; 0x00; 0x00; 0x00; 0x00;
    0x00; 0x00; 0x00; 0x00; 0x00; 0x00; 0x00; 0x00;
    0x00; 0x00; 0x00; 0x00; 0x00; 0x00; 0x00; 0x00 ];
  (* block 0x0011 *)
  [ 0x00; 0x00; 0x00; 0x00; 0x00; 0x00; 0x00; 0x00;
    0x00; 0x00; 0x00; 0x00; 0x00; 0x00; 0x00; 0x00;
    0x00; 0x00; 0x00; 0x00; 0x00; 0x00; 0x23; 0x23;
    0x23; 0x23; 0x00; 0x23; 0x23; 0x23; 0x23; 0x23;
    0x23; 0x23; 0x23; 0x23; 0x00; 0x23; 0x23; 0x23;
    0x00; 0x23; 0x23; 0x23; 0x23; 0x23; 0x00; 0x00;
    0x00; 0x00; 0x00; 0x00; 0x00; 0x00; 0x00; 0x00;
    0x00; 0x00; 0x00; 0x00; 0x00; 0x00; 0x00; 0x00 ];
  (* block 0x0012 *)
  [ 0x00; 0x00; 0x00; 0x00; 0x00; 0x00; 0x00; 0x00;
    0x00; 0x00; 0x00; 0x00; 0x00; 0x00; 0x00; 0x00;
    0x00; 0x00; 0x00; 0x00; 0x00; 0x00; 0x00; 0x00;
    0x00; 0x23; 0x23; 0x23; 0x00; 0x00; 0x00; 0x00;
    0x00; 0x00; 0x00; 0x00; 0x00; 0x00; 0x00; 0x00;
    0x00; 0x00; 0x00; 0x00; 0x00; 0x00; 0x00; 0x00;
    0x00; 0x00; 0x00; 0x00; 0x00; 0x00; 0x00; 0x00;
    0x00; 0x00; 0x00; 0x00; 0x00; 0x00; 0x00; 0x00 ];
  (* block 0x0013 *)
  [ 0x00; 0x00; 0x00; 0x00; 0x00; 0x00; 0x00; 0x00;
    0x00; 0x00; 0x00; 0x00; 0x00; 0x00; 0x00; 0x00;
    0x09; 0x09; 0x00; 0x00; 0x00; 0x00; 0x00; 0x23;
    0x23; 0x23; 0x23; 0x23; 0x23; 0x23; 0x23; 0x23;
    0x00; 0x00; 0x00; 0x00; 0x00; 0x00; 0x00; 0x00;
    0x00; 0x00; 0x00; 0x00; 0x00; 0x00; 0x00; 0x00;
    0x00; 0x00; 0x00; 0x00; 0x00; 0x00; 0x00; 0x00;
    0x00; 0x00; 0x00; 0x00; 0x00; 0x00; 0x00; 0x00 ];
  (* block 0x0014 *)
  [ 0x00; 0x00; 0x00; 0x00; 0x00; 0x00; 0x00; 0x00;
    0x00; 0x00; 0x23; 0x23; 0x23; 0x23; 0x23; 0x23;
    0x23; 0x23; 0x23; 0x23; 0x23; 0x23; 0x23; 0x23;
    0x23; 0x23; 0x23; 0x23; 0x23; 0x23; 0x23; 0x23;
    0x23; 0x23; 0x09; 0x23; 0x23; 0x23; 0x23; 0x23;
    0x23; 0x23; 0x23; 0x23; 0x23; 0x23; 0x23; 0x23;
    0x23; 0x23; 0x23; 0x23; 0x23; 0x23; 0x23; 0x23;
    0x23; 0x23; 0x23; 0x23; 0x23; 0x23; 0x23; 0x23 ];
  (* block 0x0015 *)
  [ 0x23; 0x23; 0x23; 0x0b; 0x00; 0x00; 0x00; 0x00;
    0x00; 0x00; 0x00; 0x00; 0x00; 0x00; 0x00; 0x00;
    0x00; 0x00; 0x00; 0x00; 0x00; 0x10; 0x10; 0x10;
    0x10; 0x10; 0x10; 0x10; 0x10; 0x10; 0x10; 0x10;
    0x10; 0x10; 0x10; 0x10; 0x10; 0x10; 0x10; 0x10;
    0x10; 0x10; 0x10; 0x10; 0x10; 0x10; 0x10; 0x10;
    0x10; 0x10; 0x10; 0x10; 0x10; 0x10; 0x10; 0x10;
    0x10; 0x10; 0x23; 0x0b; 0x23; 0x00; 0x0b; 0x0b ];
  (* block 0x0016 *)
  [ 0x0b; 0x23; 0x23; 0x23; 0x23; 0x23; 0x23; 0x23;
    0x23; 0x0b; 0x0b; 0x0b; 0x0b; 0x33; 0x0b; 0x0b;
    0x00; 0x23; 0x23; 0x23; 0x23; 0x23; 0x23; 0x23;
    0x10; 0x10; 0x10; 0x10; 0x10; 0x10; 0x10; 0x10;
    0x00; 0x00; 0x23; 0x23; 0x00; 0x00; 0x00; 0x00;
    0x00; 0x00; 0x00; 0x00; 0x00; 0x00; 0x00; 0x00;
    0x00; 0x00; 0x00; 0x00; 0x00; 0x00; 0x00; 0x00;
    0x10; 0x10; 0x10; 0x10; 0x10; 0x10; 0x10; 0x10 ];
  (* block 0x0017 *)
  [ 0x00; 0x23; 0x0b; 0x0b; 0x00; 0x00; 0x00; 0x00;
    0x00; 0x00; 0x00; 0x00; 0x00; 0x00; 0x00; 0x00;
    0x00; 0x00; 0x00; 0x00; 0x00; 0x10; 0x10; 0x10;
    0x10; 0x10; 0x10; 0x10; 0x10; 0x10; 0x10; 0x10;
    0x10; 0x10; 0x10; 0x10; 0x10; 0x10; 0x10; 0x10;
    0x10; 0x00; 0x10; 0x10; 0x10; 0x10; 0x10; 0x10;
    0x10; 0x00; 0x10; 0x00; 0x00; 0x00; 0x10; 0x10;
    0x10; 0x10; 0x00; 0x00; 0x23; 0x00; 0x23; 0x0b ];
  (* block 0x0018 *)
  [ 0x0b; 0x23; 0x23; 0x23; 0x23; 0x00; 0x00; 0x0b;
    0x0b; 0x00; 0x00; 0x0b; 0x0b; 0x33; 0x00; 0x00;
    0x00; 0x00; 0x00; 0x00; 0x00; 0x00; 0x00; 0x23;
    0x00; 0x00; 0x00; 0x00; 0x10; 0x10; 0x00; 0x10;
    0x00; 0x00; 0x23; 0x23; 0x00; 0x00; 0x00; 0x00;
    0x00; 0x00; 0x00; 0x00; 0x00; 0x00; 0x00; 0x00;
    0x10; 0x10; 0x00; 0x00; 0x00; 0x00; 0x00; 0x00;
    0x00; 0x00; 0x00; 0x00; 0x00; 0x00; 0x23; 0x00 ];
  (* block 0x0019 *)
  [ 0x00; 0x23; 0x23; 0x0b; 0x00; 0x00; 0x00; 0x00;
    0x00; 0x00; 0x00; 0x00; 0x00; 0x00; 0x00; 0x00;
    0x00; 0x00; 0x00; 0x00; 0x00; 0x00; 0x00; 0x00;
    0x00; 0x00; 0x00; 0x00; 0x00; 0x00; 0x00; 0x00;
    0x00; 0x00; 0x00; 0x00; 0x00; 0x00; 0x00; 0x00;
    0x00; 0x00; 0x00; 0x00; 0x00; 0x00; 0x00; 0x00;
    0x00; 0x00; 0x00; 0x00; 0x00; 0x00; 0x00; 0x00;
    0x00; 0x00; 0x00; 0x00; 0x23; 0x00; 0x0b; 0x0b ];
  (* block 0x001a *)
  [ 0x0b; 0x23; 0x23; 0x00; 0x00; 0x00; 0x00; 0x23;
    0x23; 0x00; 0x00; 0x23; 0x23; 0x23; 0x00; 0x00;
    0x00; 0x23; 0x00; 0x00; 0x00; 0x00; 0x00; 0x00;
    0x00; 0x00; 0x00; 0x00; 0x00; 0x00; 0x00; 0x00;
    0x00; 0x00; 0x00; 0x00; 0x00; 0x00; 0x00; 0x00;
    0x00; 0x00; 0x00; 0x00; 0x00; 0x00; 0x00; 0x00;
    0x23; 0x23; 0x00; 0x00; 0x00; 0x23; 0x00; 0x00;
    0x00; 0x00; 0x00; 0x00; 0x00; 0x00; 0x00; 0x00 ];
  (* block 0x001b *)
  [ 0x00; 0x23; 0x23; 0x0b; 0x00; 0x00; 0x00; 0x00;
    0x00; 0x00; 0x00; 0x00; 0x00; 0x00; 0x00; 0x00;
    0x00; 0x00; 0x00; 0x00; 0x00; 0x10; 0x10; 0x10;
    0x10; 0x10; 0x10; 0x10; 0x10; 0x10; 0x10; 0x10;
    0x10; 0x10; 0x10; 0x10; 0x10; 0x10; 0x10; 0x10;
    0x10; 0x00; 0x10; 0x10; 0x10; 0x10; 0x10; 0x10;
    0x10; 0x00; 0x10; 0x10; 0x00; 0x10; 0x10; 0x10;
    0x10; 0x10; 0x00; 0x00; 0x23; 0x00; 0x0b; 0x0b ];
  (* block 0x001c *)
  [ 0x0b; 0x23; 0x23; 0x23; 0x23; 0x23; 0x00; 0x23;
    0x23; 0x0b; 0x00; 0x0b; 0x0b; 0x33; 0x00; 0x00;
    0x00; 0x00; 0x00; 0x00; 0x00; 0x00; 0x00; 0x00;
    0x00; 0x00; 0x00; 0x00; 0x00; 0x00; 0x00; 0x00;
    0x00; 0x00; 0x23; 0x23; 0x00; 0x00; 0x00; 0x00;
    0x00; 0x00; 0x00; 0x00; 0x00; 0x00; 0x00; 0x00;
    0x00; 0x00; 0x00; 0x00; 0x00; 0x00; 0x00; 0x00;
    0x00; 0x10; 0x23; 0x23; 0x23; 0x23; 0x23; 0x23 ];
  (* block 0x001d *)
  [ 0x00; 0x23; 0x0b; 0x0b; 0x00; 0x00; 0x00; 0x00;
    0x00; 0x00; 0x00; 0x00; 0x00; 0x00; 0x00; 0x00;
    0x00; 0x00; 0x00; 0x00; 0x00; 0x10; 0x10; 0x10;
    0x10; 0x10; 0x10; 0x10; 0x10; 0x10; 0x10; 0x10;
    0x10; 0x10; 0x10; 0x10; 0x10; 0x10; 0x10; 0x10;
    0x10; 0x00; 0x10; 0x10; 0x10; 0x10; 0x10; 0x10;
    0x10; 0x00; 0x10; 0x10; 0x00; 0x10; 0x10; 0x10;
    0x10; 0x10; 0x00; 0x00; 0x23; 0x00; 0x23; 0x23 ];
  (* block 0x001e *)
  [ 0x0b; 0x23; 0x23; 0x23; 0x23; 0x00; 0x00; 0x0b;
    0x0b; 0x00; 0x00; 0x0b; 0x0b; 0x33; 0x00; 0x00;
    0x00; 0x00; 0x00; 0x00; 0x00; 0x23; 0x23; 0x23;
    0x00; 0x00; 0x00; 0x00; 0x10; 0x10; 0x00; 0x10;
    0x00; 0x00; 0x23; 0x23; 0x00; 0x00; 0x00; 0x00;
    0x00; 0x00; 0x00; 0x00; 0x00; 0x00; 0x00; 0x00;
    0x00; 0x10; 0x00; 0x00; 0x00; 0x00; 0x00; 0x00;
    0x00; 0x00; 0x00; 0x00; 0x00; 0x00; 0x00; 0x00 ];
  (* block 0x001f *)
  [ 0x00; 0x00; 0x23; 0x00; 0x00; 0x00; 0x00; 0x00;
    0x00; 0x00; 0x00; 0x00; 0x00; 0x00; 0x00; 0x00;
    0x00; 0x00; 0x00; 0x00; 0x00; 0x00; 0x00; 0x00;
    0x00; 0x00; 0x00; 0x00; 0x00; 0x00; 0x00; 0x00;
    0x00; 0x00; 0x00; 0x00; 0x00; 0x00; 0x00; 0x00;
    0x00; 0x00; 0x00; 0x00; 0x00; 0x00; 0x00; 0x00;
    0x00; 0x00; 0x00; 0x00; 0x00; 0x00; 0x00; 0x00;
    0x00; 0x00; 0x00; 0x00; 0x00; 0x00; 0x23; 0x0b ];
  (* block 0x0020 *)
  [ 0x23; 0x0b; 0x0b; 0x00; 0x00; 0x00; 0x0b; 0x0b;
    0x0b; 0x00; 0x0b; 0x0b; 0x0b; 0x23; 0x00; 0x00;
    0x00; 0x00; 0x00; 0x00; 0x00; 0x00; 0x00; 0x23;
    0x00; 0x00; 0x00; 0x00; 0x00; 0x00; 0x00; 0x00;
    0x00; 0x00; 0x00; 0x00; 0x00; 0x00; 0x00; 0x00;
    0x00; 0x00; 0x00; 0x00; 0x00; 0x00; 0x00; 0x00;
    0x00; 0x00; 0x00; 0x00; 0x00; 0x00; 0x00; 0x00;
    0x00; 0x00; 0x00; 0x00; 0x00; 0x00; 0x00; 0x00 ];
  (* block 0x0021 *)
  [ 0x23; 0x0b; 0x0b; 0x0b; 0x23; 0x00; 0x00; 0x00;
    0x00; 0x00; 0x00; 0x00; 0x00; 0x00; 0x00; 0x00;
    0x00; 0x00; 0x00; 0x00; 0x00; 0x10; 0x10; 0x10;
    0x10; 0x10; 0x10; 0x10; 0x10; 0x10; 0x10; 0x10;
    0x10; 0x10; 0x10; 0x10; 0x10; 0x10; 0x10; 0x10;
    0x10; 0x00; 0x10; 0x10; 0x10; 0x10; 0x10; 0x10;
    0x10; 0x10; 0x10; 0x10; 0x10; 0x10; 0x10; 0x10;
    0x10; 0x10; 0x00; 0x00; 0x23; 0x00; 0x23; 0x23 ];
  (* block 0x0022 *)
  [ 0x23; 0x0b; 0x0b; 0x0b; 0x0b; 0x00; 0x23; 0x23;
    0x23; 0x00; 0x23; 0x23; 0x23; 0x33; 0x00; 0x00;
    0x00; 0x00; 0x00; 0x00; 0x00; 0x23; 0x23; 0x00;
    0x10; 0x10; 0x10; 0x00; 0x00; 0x00; 0x00; 0x00;
    0x00; 0x00; 0x23; 0x23; 0x00; 0x00; 0x00; 0x00;
    0x00; 0x00; 0x00; 0x00; 0x00; 0x00; 0x00; 0x00;
    0x00; 0x00; 0x00; 0x00; 0x00; 0x00; 0x00; 0x00;
    0x00; 0x00; 0x00; 0x00; 0x00; 0x00; 0x00; 0x00 ];
  (* block 0x0023 *)
  [ 0x00; 0x23; 0x0b; 0x0b; 0x00; 0x00; 0x00; 0x00;
    0x00; 0x00; 0x00; 0x00; 0x00; 0x00; 0x00; 0x00;
    0x00; 0x00; 0x00; 0x00; 0x00; 0x00; 0x00; 0x00;
    0x00; 0x00; 0x00; 0x00; 0x00; 0x00; 0x00; 0x00;
    0x00; 0x00; 0x00; 0x00; 0x00; 0x00; 0x00; 0x00;
    0x00; 0x00; 0x00; 0x00; 0x00; 0x00; 0x00; 0x00;
    0x00; 0x00; 0x00; 0x00; 0x00; 0x00; 0x00; 0x00;
    0x00; 0x00; 0x00; 0x00; 0x23; 0x00; 0x0b; 0x23 ];
  (* block 0x0024 *)
  [ 0x23; 0x0b; 0x23; 0x0b; 0x0b; 0x00; 0x23; 0x23;
    0x23; 0x00; 0x23; 0x23; 0x23; 0x23; 0x00; 0x00;
    0x00; 0x00; 0x00; 0x00; 0x00; 0x23; 0x23; 0x00;
    0x00; 0x00; 0x00; 0x00; 0x00; 0x00; 0x00; 0x00;
    0x00; 0x00; 0x23; 0x23; 0x00; 0x00; 0x00; 0x00;
    0x00; 0x00; 0x00; 0x00; 0x00; 0x00; 0x00; 0x00;
    0x00; 0x00; 0x00; 0x0b; 0x00; 0x00; 0x00; 0x00;
    0x00; 0x00; 0x00; 0x00; 0x00; 0x00; 0x00; 0x00 ];
  (* block 0x0025 *)
  [ 0x23; 0x23; 0x0b; 0x0b; 0x00; 0x00; 0x00; 0x00;
    0x00; 0x00; 0x00; 0x00; 0x00; 0x00; 0x00; 0x00;
    0x00; 0x00; 0x00; 0x00; 0x00; 0x10; 0x10; 0x10;
    0x10; 0x10; 0x10; 0x10; 0x10; 0x10; 0x10; 0x10;
    0x10; 0x10; 0x10; 0x10; 0x10; 0x10; 0x10; 0x10;
    0x10; 0x10; 0x10; 0x10; 0x10; 0x10; 0x10; 0x10;
    0x10; 0x10; 0x10; 0x10; 0x10; 0x10; 0x10; 0x10;
    0x10; 0x10; 0x10; 0x23; 0x23; 0x00; 0x23; 0x0b ];
  (* block 0x0026 *)
  [ 0x0b; 0x23; 0x23; 0x23; 0x23; 0x00; 0x0b; 0x0b;
    0x0b; 0x00; 0x0b; 0x0b; 0x0b; 0x33; 0x09; 0x00;
    0x00; 0x00; 0x00; 0x00; 0x00; 0x00; 0x00; 0x23;
    0x00; 0x00; 0x00; 0x00; 0x00; 0x00; 0x00; 0x00;
    0x00; 0x00; 0x23; 0x23; 0x00; 0x00; 0x00; 0x00;
    0x00; 0x00; 0x00; 0x00; 0x00; 0x00; 0x00; 0x00;
    0x00; 0x00; 0x00; 0x00; 0x00; 0x00; 0x00; 0x00;
    0x00; 0x00; 0x00; 0x00; 0x00; 0x00; 0x00; 0x00 ];
  (* block 0x0027 *)
  [ 0x00; 0x23; 0x0b; 0x0b; 0x00; 0x00; 0x00; 0x00;
    0x00; 0x00; 0x00; 0x00; 0x00; 0x00; 0x00; 0x00;
    0x00; 0x00; 0x00; 0x00; 0x00; 0x00; 0x00; 0x00;
    0x00; 0x00; 0x00; 0x00; 0x00; 0x00; 0x00; 0x00;
    0x00; 0x00; 0x00; 0x00; 0x00; 0x00; 0x00; 0x00;
    0x00; 0x00; 0x00; 0x00; 0x00; 0x00; 0x00; 0x00;
    0x00; 0x00; 0x00; 0x00; 0x00; 0x00; 0x00; 0x00;
    0x00; 0x00; 0x00; 0x00; 0x00; 0x00; 0x00; 0x00 ];
  (* block 0x0028 *)
  [ 0x00; 0x00; 0x00; 0x00; 0x00; 0x00; 0x00; 0x00;
    0x00; 0x00; 0x23; 0x00; 0x00; 0x00; 0x00; 0x23;
    0x0b; 0x0b; 0x23; 0x23; 0x23; 0x00; 0x23; 0x00;
    0x0b; 0x0b; 0x0b; 0x0b; 0x0b; 0x0b; 0x0b; 0x23;
    0x00; 0x00; 0x00; 0x00; 0x00; 0x00; 0x00; 0x00;
    0x00; 0x00; 0x00; 0x00; 0x00; 0x00; 0x00; 0x00;
    0x00; 0x00; 0x0b; 0x0b; 0x00; 0x00; 0x00; 0x00;
    0x00; 0x00; 0x00; 0x00; 0x00; 0x00; 0x00; 0x00 ];
  (* block 0x0029 *)
  [ 0x00; 0x00; 0x00; 0x00; 0x00; 0x00; 0x00; 0x00;
    0x00; 0x00; 0x00; 0x00; 0x00; 0x00; 0x00; 0x00;
    0x00; 0x00; 0x00; 0x00; 0x00; 0x00; 0x00; 0x00;
    0x00; 0x00; 0x00; 0x00; 0x00; 0x00; 0x00; 0x00;
    0x00; 0x00; 0x00; 0x00; 0x00; 0x00; 0x00; 0x00;
    0x00; 0x00; 0x00; 0x00; 0x00; 0x00; 0x00; 0x00;
    0x00; 0x23; 0x00; 0x0b; 0x23; 0x23; 0x23; 0x23;
    0x23; 0x23; 0x23; 0x00; 0x00; 0x00; 0x00; 0x00 ];
  (* block 0x002a *)
  [ 0x00; 0x00; 0x00; 0x00; 0x00; 0x00; 0x00; 0x23;
    0x23; 0x23; 0x23; 0x23; 0x23; 0x23; 0x23; 0x00;
    0x00; 0x00; 0x00; 0x00; 0x00; 0x00; 0x00; 0x00;
    0x00; 0x00; 0x00; 0x00; 0x00; 0x00; 0x00; 0x00;
    0x00; 0x00; 0x00; 0x00; 0x00; 0x00; 0x00; 0x00;
    0x00; 0x00; 0x00; 0x00; 0x00; 0x00; 0x00; 0x00;
    0x00; 0x00; 0x00; 0x00; 0x00; 0x00; 0x00; 0x00;
    0x00; 0x00; 0x00; 0x00; 0x00; 0x00; 0x00; 0x00 ];
  (* block 0x002b *)
  [ 0x00; 0x00; 0x00; 0x00; 0x00; 0x00; 0x00; 0x00;
    0x00; 0x00; 0x00; 0x00; 0x00; 0x00; 0x00; 0x00;
    0x00; 0x00; 0x00; 0x00; 0x00; 0x00; 0x00; 0x00;
    0x00; 0x00; 0x00; 0x00; 0x00; 0x00; 0x00; 0x00;
    0x00; 0x00; 0x00; 0x00; 0x00; 0x00; 0x00; 0x00;
    0x00; 0x00; 0x00; 0x00; 0x00; 0x00; 0x00; 0x00;
    0x00; 0x23; 0x00; 0x0b; 0x23; 0x23; 0x23; 0x23;
    0x23; 0x23; 0x23; 0x23; 0x23; 0x00; 0x00; 0x00 ];
  (* block 0x002c *)
  [ 0x00; 0x00; 0x00; 0x00; 0x00; 0x00; 0x00; 0x00;
    0x23; 0x23; 0x23; 0x23; 0x23; 0x23; 0x23; 0x00;
    0x00; 0x00; 0x00; 0x00; 0x00; 0x00; 0x00; 0x00;
    0x00; 0x00; 0x00; 0x00; 0x00; 0x00; 0x00; 0x00;
    0x00; 0x00; 0x00; 0x00; 0x00; 0x00; 0x00; 0x00;
    0x00; 0x00; 0x00; 0x00; 0x00; 0x00; 0x00; 0x00;
    0x00; 0x00; 0x00; 0x00; 0x00; 0x00; 0x00; 0x00;
    0x00; 0x00; 0x00; 0x00; 0x00; 0x00; 0x00; 0x00 ];
  (* block 0x002d *)
  [ 0x00; 0x00; 0x00; 0x00; 0x00; 0x00; 0x00; 0x00;
    0x00; 0x00; 0x00; 0x00; 0x00; 0x00; 0x00; 0x00;
    0x00; 0x00; 0x00; 0x00; 0x00; 0x00; 0x00; 0x00;
    0x23; 0x23; 0x00; 0x00; 0x00; 0x00; 0x00; 0x00;
    0x00; 0x00; 0x00; 0x00; 0x00; 0x00; 0x00; 0x00;
    0x00; 0x00; 0x00; 0x00; 0x00; 0x00; 0x00; 0x00;
    0x00; 0x00; 0x00; 0x00; 0x00; 0x23; 0x00; 0x23;
    0x00; 0x23; 0x00; 0x00; 0x00; 0x00; 0x0b; 0x0b ];
  (* block 0x002e *)
  [ 0x00; 0x00; 0x00; 0x00; 0x00; 0x00; 0x00; 0x00;
    0x00; 0x00; 0x00; 0x00; 0x00; 0x00; 0x00; 0x00;
    0x00; 0x00; 0x00; 0x00; 0x00; 0x00; 0x00; 0x00;
    0x00; 0x00; 0x00; 0x00; 0x00; 0x00; 0x00; 0x00;
    0x00; 0x00; 0x00; 0x00; 0x00; 0x00; 0x00; 0x00;
    0x00; 0x00; 0x00; 0x00; 0x00; 0x00; 0x00; 0x00;
    0x00; 0x23; 0x23; 0x23; 0x23; 0x23; 0x23; 0x23;
    0x23; 0x23; 0x23; 0x23; 0x23; 0x23; 0x23; 0x0b ];
  (* block 0x002f *)
  [ 0x23; 0x23; 0x23; 0x23; 0x23; 0x00; 0x23; 0x23;
    0x00; 0x00; 0x00; 0x00; 0x00; 0x23; 0x23; 0x23;
    0x23; 0x23; 0x23; 0x23; 0x23; 0x23; 0x23; 0x23;
    0x00; 0x23; 0x23; 0x23; 0x23; 0x23; 0x23; 0x23;
    0x23; 0x23; 0x23; 0x23; 0x23; 0x23; 0x23; 0x23;
    0x23; 0x23; 0x23; 0x23; 0x23; 0x23; 0x23; 0x23;
    0x23; 0x23; 0x23; 0x23; 0x23; 0x23; 0x23; 0x23;
    0x23; 0x23; 0x23; 0x23; 0x23; 0x00; 0x00; 0x00 ];
  (* block 0x0030 *)
  [ 0x00; 0x00; 0x00; 0x00; 0x00; 0x00; 0x23; 0x00;
    0x00; 0x00; 0x00; 0x00; 0x00; 0x00; 0x00; 0x00;
    0x00; 0x00; 0x00; 0x00; 0x00; 0x00; 0x00; 0x00;
    0x00; 0x00; 0x00; 0x00; 0x00; 0x00; 0x00; 0x00;
    0x00; 0x00; 0x00; 0x00; 0x00; 0x00; 0x00; 0x00;
    0x00; 0x00; 0x00; 0x00; 0x00; 0x00; 0x00; 0x00;
    0x00; 0x00; 0x00; 0x00; 0x00; 0x00; 0x00; 0x00;
    0x00; 0x00; 0x00; 0x00; 0x00; 0x00; 0x00; 0x00 ];
  (* block 0x0031 *)
  [ 0x10; 0x10; 0x10; 0x10; 0x10; 0x10; 0x10; 0x10;
    0x10; 0x10; 0x10; 0x10; 0x10; 0x10; 0x10; 0x10;
    0x10; 0x10; 0x10; 0x10; 0x10; 0x10; 0x10; 0x10;
    0x10; 0x10; 0x10; 0x10; 0x10; 0x10; 0x10; 0x10;
    0x10; 0x10; 0x10; 0x10; 0x10; 0x10; 0x10; 0x10;
    0x10; 0x10; 0x10; 0x00; 0x00; 0x23; 0x23; 0x23;
    0x23; 0x0b; 0x23; 0x23; 0x23; 0x23; 0x23; 0x23;
    0x00; 0x33; 0x23; 0x0b; 0x0b; 0x23; 0x23; 0x10 ];
  (* block 0x0032 *)
  [ 0x00; 0x00; 0x00; 0x00; 0x00; 0x00; 0x00; 0x00;
    0x00; 0x00; 0x00; 0x00; 0x00; 0x00; 0x00; 0x00;
    0x10; 0x10; 0x10; 0x10; 0x10; 0x10; 0x0b; 0x0b;
    0x23; 0x23; 0x10; 0x10; 0x10; 0x10; 0x23; 0x23;
    0x23; 0x10; 0x00; 0x00; 0x00; 0x10; 0x10; 0x00;
    0x00; 0x00; 0x00; 0x00; 0x00; 0x00; 0x10; 0x10;
    0x10; 0x23; 0x23; 0x23; 0x23; 0x10; 0x10; 0x10;
    0x10; 0x10; 0x10; 0x10; 0x10; 0x10; 0x10; 0x10 ];
  (* block 0x0033 *)
  [ 0x10; 0x10; 0x23; 0x00; 0x0b; 0x23; 0x23; 0x00;
    0x00; 0x00; 0x00; 0x00; 0x00; 0x23; 0x10; 0x00;
    0x00; 0x00; 0x00; 0x00; 0x00; 0x00; 0x00; 0x00;
    0x00; 0x00; 0x00; 0x00; 0x00; 0x23; 0x00; 0x00;
    0x00; 0x00; 0x00; 0x00; 0x00; 0x00; 0x00; 0x00;
    0x00; 0x00; 0x00; 0x00; 0x00; 0x00; 0x00; 0x00;
    0x00; 0x00; 0x00; 0x00; 0x00; 0x00; 0x00; 0x00;
    0x00; 0x00; 0x00; 0x00; 0x00; 0x00; 0x00; 0x00 ];
  (* block 0x0034 *)
  [ 0x05; 0x05; 0x05; 0x05; 0x05; 0x05; 0x05; 0x05;
    0x05; 0x05; 0x05; 0x05; 0x05; 0x05; 0x05; 0x05;
    0x05; 0x05; 0x05; 0x05; 0x05; 0x05; 0x05; 0x05;
    0x05; 0x05; 0x05; 0x05; 0x05; 0x05; 0x05; 0x05;
    0x05; 0x05; 0x05; 0x05; 0x05; 0x05; 0x05; 0x05;
    0x05; 0x05; 0x05; 0x05; 0x05; 0x05; 0x05; 0x05;
    0x05; 0x05; 0x05; 0x05; 0x05; 0x05; 0x05; 0x05;
    0x05; 0x05; 0x05; 0x05; 0x05; 0x05; 0x05; 0x05 ];
  (* block 0x0035 *)
  [ 0x05; 0x05; 0x05; 0x05; 0x05; 0x05; 0x05; 0x05;
    0x05; 0x05; 0x05; 0x05; 0x05; 0x05; 0x05; 0x05;
    0x05; 0x05; 0x05; 0x05; 0x05; 0x05; 0x05; 0x05;
    0x05; 0x05; 0x05; 0x05; 0x05; 0x05; 0x05; 0x05;
    0x0d; 0x0d; 0x0d; 0x0d; 0x0d; 0x0d; 0x0d; 0x0d;
    0x0d; 0x0d; 0x0d; 0x0d; 0x0d; 0x0d; 0x0d; 0x0d;
    0x0d; 0x0d; 0x0d; 0x0d; 0x0d; 0x0d; 0x0d; 0x0d;
    0x0d; 0x0d; 0x0d; 0x0d; 0x0d; 0x0d; 0x0d; 0x0d ];
  (* block 0x0036 *)
  [ 0x0d; 0x0d; 0x0d; 0x0d; 0x0d; 0x0d; 0x0d; 0x0d;
    0x0d; 0x0d; 0x0d; 0x0d; 0x0d; 0x0d; 0x0d; 0x0d;
    0x0d; 0x0d; 0x0d; 0x0d; 0x0d; 0x0d; 0x0d; 0x0d;
    0x0d; 0x0d; 0x0d; 0x0d; 0x0d; 0x0d; 0x0d; 0x0d;
    0x0d; 0x0d; 0x0d; 0x0d; 0x0d; 0x0d; 0x0d; 0x0d;
    0x0c; 0x0c; 0x0c; 0x0c; 0x0c; 0x0c; 0x0c; 0x0c;
    0x0c; 0x0c; 0x0c; 0x0c; 0x0c; 0x0c; 0x0c; 0x0c;
    0x0c; 0x0c; 0x0c; 0x0c; 0x0c; 0x0c; 0x0c; 0x0c ];
  (* block 0x0037 *)
  [ 0x0c; 0x0c; 0x0c; 0x0c; 0x0c; 0x0c; 0x0c; 0x0c;
    0x0c; 0x0c; 0x0c; 0x0c; 0x0c; 0x0c; 0x0c; 0x0c;
    0x0c; 0x0c; 0x0c; 0x0c; 0x0c; 0x0c; 0x0c; 0x0c;
    0x0c; 0x0c; 0x0c; 0x0c; 0x0c; 0x0c; 0x0c; 0x0c;
    0x0c; 0x0c; 0x0c; 0x0c; 0x0c; 0x0c; 0x0c; 0x0c;
    0x0c; 0x0c; 0x0c; 0x0c; 0x0c; 0x0c; 0x0c; 0x0c;
    0x0c; 0x0c; 0x0c; 0x0c; 0x0c; 0x0c; 0x0c; 0x0c;
    0x0c; 0x0c; 0x0c; 0x0c; 0x0c; 0x0c; 0x0c; 0x0c ];
  (* block 0x0038 *)
  [ 0x00; 0x00; 0x00; 0x00; 0x00; 0x00; 0x00; 0x00;
    0x00; 0x00; 0x00; 0x00; 0x00; 0x00; 0x00; 0x00;
    0x00; 0x00; 0x00; 0x00; 0x00; 0x00; 0x00; 0x00;
    0x00; 0x00; 0x00; 0x00; 0x00; 0x23; 0x23; 0x23;
    0x00; 0x00; 0x00; 0x00; 0x00; 0x00; 0x00; 0x00;
    0x00; 0x00; 0x00; 0x00; 0x00; 0x00; 0x00; 0x00;
    0x00; 0x00; 0x00; 0x00; 0x00; 0x00; 0x00; 0x00;
    0x00; 0x00; 0x00; 0x00; 0x00; 0x00; 0x00; 0x00 ];
  (* block 0x0039 *)
  [ 0x00; 0x00; 0x00; 0x00; 0x00; 0x00; 0x00; 0x00;
    0x00; 0x00; 0x00; 0x00; 0x00; 0x00; 0x00; 0x00;
    0x00; 0x00; 0x23; 0x23; 0x23; 0x23; 0x00; 0x00;
    0x00; 0x00; 0x00; 0x00; 0x00; 0x00; 0x00; 0x00;
    0x00; 0x00; 0x00; 0x00; 0x00; 0x00; 0x00; 0x00;
    0x00; 0x00; 0x00; 0x00; 0x00; 0x00; 0x00; 0x00;
    0x00; 0x00; 0x23; 0x23; 0x23; 0x00; 0x00; 0x00;
    0x00; 0x00; 0x00; 0x00; 0x00; 0x00; 0x00; 0x00 ];
  (* block 0x003a *)
  [ 0x00; 0x00; 0x00; 0x00; 0x00; 0x00; 0x00; 0x00;
    0x00; 0x00; 0x00; 0x00; 0x00; 0x00; 0x00; 0x00;
    0x00; 0x00; 0x23; 0x23; 0x00; 0x00; 0x00; 0x00;
    0x00; 0x00; 0x00; 0x00; 0x00; 0x00; 0x00; 0x00;
    0x00; 0x00; 0x00; 0x00; 0x00; 0x00; 0x00; 0x00;
    0x00; 0x00; 0x00; 0x00; 0x00; 0x00; 0x00; 0x00;
    0x00; 0x00; 0x23; 0x23; 0x00; 0x00; 0x00; 0x00;
    0x00; 0x00; 0x00; 0x00; 0x00; 0x00; 0x00; 0x00 ];
  (* block 0x003b *)
  [ 0x10; 0x10; 0x10; 0x10; 0x10; 0x10; 0x10; 0x10;
    0x10; 0x10; 0x10; 0x10; 0x10; 0x10; 0x10; 0x10;
    0x10; 0x10; 0x10; 0x10; 0x10; 0x10; 0x10; 0x10;
    0x10; 0x10; 0x10; 0x10; 0x10; 0x10; 0x10; 0x10;
    0x10; 0x10; 0x10; 0x10; 0x10; 0x10; 0x10; 0x10;
    0x10; 0x10; 0x10; 0x10; 0x10; 0x10; 0x10; 0x10;
    0x10; 0x10; 0x10; 0x10; 0x23; 0x23; 0x0b; 0x23;
    0x23; 0x23; 0x23; 0x23; 0x23; 0x23; 0x0b; 0x0b ];
  (* block 0x003c *)
  [ 0x0b; 0x0b; 0x0b; 0x0b; 0x0b; 0x0b; 0x23; 0x0b;
    0x0b; 0x23; 0x23; 0x23; 0x23; 0x23; 0x23; 0x23;
    0x23; 0x23; 0x33; 0x23; 0x00; 0x00; 0x00; 0x00;
    0x00; 0x00; 0x00; 0x00; 0x00; 0x23; 0x00; 0x00;
    0x00; 0x00; 0x00; 0x00; 0x00; 0x00; 0x00; 0x00;
    0x00; 0x00; 0x00; 0x00; 0x00; 0x00; 0x00; 0x00;
    0x00; 0x00; 0x00; 0x00; 0x00; 0x00; 0x00; 0x00;
    0x00; 0x00; 0x00; 0x00; 0x00; 0x00; 0x00; 0x00 ];
  (* block 0x003d *)
  [ 0x00; 0x00; 0x00; 0x00; 0x00; 0x00; 0x00; 0x00;
    0x00; 0x00; 0x00; 0x23; 0x23; 0x23; 0x02; 0x23;
    0x00; 0x00; 0x00; 0x00; 0x00; 0x00; 0x00; 0x00;
    0x00; 0x00; 0x00; 0x00; 0x00; 0x00; 0x00; 0x00;
    0x00; 0x00; 0x00; 0x00; 0x00; 0x00; 0x00; 0x00;
    0x00; 0x00; 0x00; 0x00; 0x00; 0x00; 0x00; 0x00;
    0x00; 0x00; 0x00; 0x00; 0x00; 0x00; 0x00; 0x00;
    0x00; 0x00; 0x00; 0x00; 0x00; 0x00; 0x00; 0x00 ];
  (* block 0x003e *)
  [ 0x00; 0x00; 0x00; 0x00; 0x00; 0x23; 0x23; 0x00;
    0x00; 0x00; 0x00; 0x00; 0x00; 0x00; 0x00; 0x00;
    0x00; 0x00; 0x00; 0x00; 0x00; 0x00; 0x00; 0x00;
    0x00; 0x00; 0x00; 0x00; 0x00; 0x00; 0x00; 0x00;
    0x00; 0x00; 0x00; 0x00; 0x00; 0x00; 0x00; 0x00;
    0x00; 0x23; 0x00; 0x00; 0x00; 0x00; 0x00; 0x00;
    0x00; 0x00; 0x00; 0x00; 0x00; 0x00; 0x00; 0x00;
    0x00; 0x00; 0x00; 0x00; 0x00; 0x00; 0x00; 0x00 ];
  (* block 0x003f *)
  [ 0x00; 0x00; 0x00; 0x00; 0x00; 0x00; 0x00; 0x00;
    0x00; 0x00; 0x00; 0x00; 0x00; 0x00; 0x00; 0x00;
    0x00; 0x00; 0x00; 0x00; 0x00; 0x00; 0x00; 0x00;
    0x00; 0x00; 0x00; 0x00; 0x00; 0x00; 0x00; 0x00;
    0x23; 0x23; 0x23; 0x0b; 0x0b; 0x0b; 0x0b; 0x23;
    0x23; 0x0b; 0x0b; 0x0b; 0x00; 0x00; 0x00; 0x00;
    0x0b; 0x0b; 0x23; 0x0b; 0x0b; 0x0b; 0x0b; 0x0b;
    0x0b; 0x23; 0x23; 0x23; 0x00; 0x00; 0x00; 0x00 ];
  (* block 0x0040 *)
  [ 0x00; 0x00; 0x00; 0x00; 0x00; 0x00; 0x00; 0x00;
    0x00; 0x00; 0x00; 0x00; 0x00; 0x00; 0x00; 0x00;
    0x00; 0x00; 0x00; 0x00; 0x00; 0x00; 0x00; 0x23;
    0x23; 0x0b; 0x0b; 0x23; 0x00; 0x00; 0x00; 0x00;
    0x10; 0x10; 0x10; 0x10; 0x10; 0x10; 0x10; 0x10;
    0x10; 0x10; 0x10; 0x10; 0x10; 0x10; 0x10; 0x10;
    0x10; 0x10; 0x10; 0x10; 0x10; 0x10; 0x10; 0x10;
    0x10; 0x10; 0x10; 0x10; 0x10; 0x10; 0x10; 0x10 ];
  (* block 0x0041 *)
  [ 0x10; 0x10; 0x10; 0x10; 0x10; 0x10; 0x10; 0x10;
    0x10; 0x10; 0x10; 0x10; 0x10; 0x10; 0x10; 0x10;
    0x10; 0x10; 0x10; 0x10; 0x10; 0x0b; 0x23; 0x0b;
    0x23; 0x23; 0x23; 0x23; 0x23; 0x23; 0x23; 0x00;
    0x33; 0x00; 0x23; 0x00; 0x00; 0x23; 0x23; 0x23;
    0x23; 0x23; 0x23; 0x23; 0x23; 0x0b; 0x0b; 0x0b;
    0x0b; 0x0b; 0x0b; 0x23; 0x23; 0x23; 0x23; 0x23;
    0x23; 0x23; 0x23; 0x23; 0x23; 0x00; 0x00; 0x23 ];
  (* block 0x0042 *)
  [ 0x00; 0x00; 0x00; 0x00; 0x00; 0x00; 0x00; 0x00;
    0x00; 0x00; 0x00; 0x00; 0x00; 0x00; 0x00; 0x00;
    0x00; 0x00; 0x00; 0x00; 0x00; 0x00; 0x00; 0x00;
    0x00; 0x00; 0x00; 0x00; 0x00; 0x00; 0x00; 0x00;
    0x00; 0x00; 0x00; 0x00; 0x00; 0x00; 0x00; 0x00;
    0x00; 0x00; 0x00; 0x00; 0x00; 0x00; 0x00; 0x00;
    0x23; 0x23; 0x23; 0x23; 0x23; 0x23; 0x23; 0x23;
    0x23; 0x23; 0x23; 0x23; 0x23; 0x23; 0x23; 0x23 ];
  (* block 0x0043 *)
  [ 0x23; 0x23; 0x23; 0x23; 0x23; 0x23; 0x23; 0x23;
    0x23; 0x23; 0x23; 0x23; 0x23; 0x23; 0x23; 0x23;
    0x23; 0x23; 0x23; 0x23; 0x23; 0x23; 0x23; 0x23;
    0x23; 0x23; 0x23; 0x23; 0x23; 0x23; 0x00; 0x00;
    0x23; 0x23; 0x23; 0x23; 0x23; 0x23; 0x23; 0x23;
    0x23; 0x23; 0x23; 0x23; 0x00; 0x00; 0x00; 0x00;
    0x00; 0x00; 0x00; 0x00; 0x00; 0x00; 0x00; 0x00;
    0x00; 0x00; 0x00; 0x00; 0x00; 0x00; 0x00; 0x00 ];
  (* block 0x0044 *)
  [ 0x23; 0x23; 0x23; 0x23; 0x0b; 0x00; 0x00; 0x00;
    0x00; 0x00; 0x00; 0x10; 0x10; 0x00; 0x00; 0x00;
    0x00; 0x00; 0x00; 0x10; 0x10; 0x10; 0x10; 0x10;
    0x10; 0x10; 0x10; 0x10; 0x10; 0x10; 0x10; 0x10;
    0x10; 0x10; 0x10; 0x10; 0x10; 0x10; 0x10; 0x10;
    0x10; 0x10; 0x10; 0x10; 0x10; 0x10; 0x10; 0x10;
    0x10; 0x10; 0x10; 0x10; 0x23; 0x23; 0x23; 0x23;
    0x23; 0x23; 0x23; 0x23; 0x23; 0x23; 0x0b; 0x0b ];
  (* block 0x0045 *)
  [ 0x0b; 0x0b; 0x23; 0x23; 0x33; 0x10; 0x10; 0x10;
    0x10; 0x10; 0x10; 0x10; 0x10; 0x00; 0x00; 0x00;
    0x00; 0x00; 0x00; 0x00; 0x00; 0x00; 0x00; 0x00;
    0x00; 0x00; 0x00; 0x00; 0x00; 0x00; 0x00; 0x00;
    0x00; 0x00; 0x00; 0x00; 0x00; 0x00; 0x00; 0x00;
    0x00; 0x00; 0x00; 0x23; 0x23; 0x23; 0x23; 0x23;
    0x23; 0x23; 0x23; 0x23; 0x00; 0x00; 0x00; 0x00;
    0x00; 0x00; 0x00; 0x00; 0x00; 0x00; 0x00; 0x00 ];
  (* block 0x0046 *)
  [ 0x23; 0x23; 0x0b; 0x10; 0x10; 0x10; 0x10; 0x10;
    0x10; 0x10; 0x10; 0x10; 0x10; 0x10; 0x10; 0x10;
    0x10; 0x10; 0x10; 0x10; 0x10; 0x10; 0x10; 0x10;
    0x10; 0x10; 0x10; 0x10; 0x10; 0x10; 0x10; 0x10;
    0x10; 0x0b; 0x23; 0x23; 0x23; 0x23; 0x0b; 0x0b;
    0x23; 0x23; 0x23; 0x33; 0x23; 0x23; 0x10; 0x10;
    0x00; 0x00; 0x00; 0x00; 0x00; 0x00; 0x00; 0x00;
    0x00; 0x00; 0x00; 0x10; 0x10; 0x10; 0x00; 0x00 ];
  (* block 0x0047 *)
  [ 0x00; 0x00; 0x00; 0x00; 0x00; 0x00; 0x00; 0x00;
    0x00; 0x00; 0x00; 0x00; 0x00; 0x00; 0x00; 0x00;
    0x00; 0x00; 0x00; 0x00; 0x00; 0x00; 0x00; 0x00;
    0x00; 0x00; 0x00; 0x00; 0x00; 0x00; 0x00; 0x00;
    0x00; 0x00; 0x00; 0x00; 0x00; 0x00; 0x23; 0x0b;
    0x23; 0x23; 0x0b; 0x0b; 0x0b; 0x23; 0x0b; 0x23;
    0x23; 0x23; 0x23; 0x23; 0x00; 0x00; 0x00; 0x00;
    0x00; 0x00; 0x00; 0x00; 0x00; 0x00; 0x00; 0x00 ];
  (* block 0x0048 *)
  [ 0x00; 0x00; 0x00; 0x00; 0x00; 0x00; 0x00; 0x00;
    0x00; 0x00; 0x00; 0x00; 0x00; 0x00; 0x00; 0x00;
    0x00; 0x00; 0x00; 0x00; 0x00; 0x00; 0x00; 0x00;
    0x00; 0x00; 0x00; 0x00; 0x00; 0x00; 0x00; 0x00;
    0x00; 0x00; 0x00; 0x00; 0x0b; 0x0b; 0x0b; 0x0b;
    0x0b; 0x0b; 0x0b; 0x0b; 0x23; 0x23; 0x23; 0x23;
    0x23; 0x23; 0x23; 0x23; 0x0b; 0x0b; 0x23; 0x23;
    0x00; 0x00; 0x00; 0x00; 0x00; 0x00; 0x00; 0x00 ];
  (* block 0x0049 *)
  [ 0x00; 0x00; 0x00; 0x00; 0x00; 0x00; 0x00; 0x00;
    0x00; 0x00; 0x00; 0x00; 0x00; 0x00; 0x00; 0x00;
    0x23; 0x23; 0x23; 0x00; 0x23; 0x23; 0x23; 0x23;
    0x23; 0x23; 0x23; 0x23; 0x23; 0x23; 0x23; 0x23;
    0x23; 0x0b; 0x23; 0x23; 0x23; 0x23; 0x23; 0x23;
    0x23; 0x00; 0x00; 0x00; 0x00; 0x23; 0x00; 0x00;
    0x00; 0x00; 0x00; 0x00; 0x23; 0x00; 0x00; 0x0b;
    0x23; 0x23; 0x00; 0x00; 0x00; 0x00; 0x00; 0x00 ];
  (* block 0x004a *)
  [ 0x23; 0x23; 0x23; 0x23; 0x23; 0x23; 0x23; 0x23;
    0x23; 0x23; 0x23; 0x23; 0x23; 0x23; 0x23; 0x23;
    0x23; 0x23; 0x23; 0x23; 0x23; 0x23; 0x23; 0x23;
    0x23; 0x23; 0x23; 0x23; 0x23; 0x23; 0x23; 0x23;
    0x23; 0x23; 0x23; 0x23; 0x23; 0x23; 0x23; 0x23;
    0x23; 0x23; 0x23; 0x23; 0x23; 0x23; 0x23; 0x23;
    0x23; 0x23; 0x23; 0x23; 0x23; 0x23; 0x23; 0x23;
    0x23; 0x23; 0x23; 0x23; 0x23; 0x23; 0x23; 0x23 ];
  (* block 0x004b *)
  [ 0x00; 0x00; 0x00; 0x00; 0x00; 0x00; 0x00; 0x00;
    0x00; 0x00; 0x00; 0x02; 0x03; 0x2e; 0x02; 0x02;
    0x00; 0x00; 0x00; 0x00; 0x00; 0x00; 0x00; 0x00;
    0x00; 0x00; 0x00; 0x00; 0x00; 0x00; 0x00; 0x00;
    0x00; 0x00; 0x00; 0x00; 0x00; 0x00; 0x00; 0x00;
    0x02; 0x02; 0x02; 0x02; 0x02; 0x02; 0x02; 0x00;
    0x00; 0x00; 0x00; 0x00; 0x00; 0x00; 0x00; 0x00;
    0x00; 0x00; 0x00; 0x00; 0x04; 0x00; 0x00; 0x00 ];
  (* block 0x004c *)
  [ 0x00; 0x00; 0x00; 0x00; 0x00; 0x00; 0x00; 0x00;
    0x00; 0x04; 0x00; 0x00; 0x00; 0x00; 0x00; 0x00;
    0x00; 0x00; 0x00; 0x00; 0x00; 0x00; 0x00; 0x00;
    0x00; 0x00; 0x00; 0x00; 0x00; 0x00; 0x00; 0x00;
    0x02; 0x02; 0x02; 0x02; 0x02; 0x02; 0x02; 0x02;
    0x02; 0x02; 0x02; 0x02; 0x02; 0x02; 0x02; 0x02;
    0x00; 0x00; 0x00; 0x00; 0x00; 0x00; 0x00; 0x00;
    0x00; 0x00; 0x00; 0x00; 0x00; 0x00; 0x00; 0x00 ];
  (* block 0x004d *)
  [ 0x00; 0x00; 0x00; 0x00; 0x00; 0x00; 0x00; 0x00;
    0x00; 0x00; 0x00; 0x00; 0x00; 0x00; 0x00; 0x00;
    0x23; 0x23; 0x23; 0x23; 0x23; 0x23; 0x23; 0x23;
    0x23; 0x23; 0x23; 0x23; 0x23; 0x23; 0x23; 0x23;
    0x23; 0x23; 0x23; 0x23; 0x23; 0x23; 0x23; 0x23;
    0x23; 0x23; 0x23; 0x23; 0x23; 0x23; 0x23; 0x23;
    0x23; 0x00; 0x00; 0x00; 0x00; 0x00; 0x00; 0x00;
    0x00; 0x00; 0x00; 0x00; 0x00; 0x00; 0x00; 0x00 ];
  (* block 0x004e *)
  [ 0x00; 0x00; 0x00; 0x00; 0x00; 0x00; 0x00; 0x00;
    0x00; 0x00; 0x00; 0x00; 0x00; 0x00; 0x00; 0x00;
    0x00; 0x00; 0x00; 0x00; 0x00; 0x00; 0x00; 0x00;
    0x00; 0x00; 0x00; 0x00; 0x00; 0x00; 0x00; 0x00;
    0x00; 0x00; 0x04; 0x00; 0x00; 0x00; 0x00; 0x00;
    0x00; 0x00; 0x00; 0x00; 0x00; 0x00; 0x00; 0x00;
    0x00; 0x00; 0x00; 0x00; 0x00; 0x00; 0x00; 0x00;
    0x00; 0x04; 0x00; 0x00; 0x00; 0x00; 0x00; 0x00 ];
  (* block 0x004f *)
  [ 0x00; 0x00; 0x00; 0x00; 0x00; 0x00; 0x00; 0x00;
    0x00; 0x00; 0x00; 0x00; 0x00; 0x00; 0x00; 0x00;
    0x00; 0x00; 0x00; 0x00; 0x04; 0x04; 0x04; 0x04;
    0x04; 0x04; 0x00; 0x00; 0x00; 0x00; 0x00; 0x00;
    0x00; 0x00; 0x00; 0x00; 0x00; 0x00; 0x00; 0x00;
    0x00; 0x04; 0x04; 0x00; 0x00; 0x00; 0x00; 0x00;
    0x00; 0x00; 0x00; 0x00; 0x00; 0x00; 0x00; 0x00;
    0x00; 0x00; 0x00; 0x00; 0x00; 0x00; 0x00; 0x00 ];
  (* block 0x0050 *)
  [ 0x00; 0x00; 0x00; 0x00; 0x00; 0x00; 0x00; 0x00;
    0x00; 0x00; 0x00; 0x00; 0x00; 0x00; 0x00; 0x00;
    0x00; 0x00; 0x00; 0x00; 0x00; 0x00; 0x00; 0x00;
    0x00; 0x00; 0x04; 0x04; 0x00; 0x00; 0x00; 0x00;
    0x00; 0x00; 0x00; 0x00; 0x00; 0x00; 0x00; 0x00;
    0x04; 0x00; 0x00; 0x00; 0x00; 0x00; 0x00; 0x00;
    0x00; 0x00; 0x00; 0x00; 0x00; 0x00; 0x00; 0x00;
    0x00; 0x00; 0x00; 0x00; 0x00; 0x00; 0x00; 0x00 ];
  (* block 0x0051 *)
  [ 0x00; 0x00; 0x00; 0x00; 0x00; 0x00; 0x00; 0x00;
    0x00; 0x00; 0x00; 0x00; 0x00; 0x00; 0x00; 0x04;
    0x00; 0x00; 0x00; 0x00; 0x00; 0x00; 0x00; 0x00;
    0x00; 0x00; 0x00; 0x00; 0x00; 0x00; 0x00; 0x00;
    0x00; 0x00; 0x00; 0x00; 0x00; 0x00; 0x00; 0x00;
    0x00; 0x04; 0x04; 0x04; 0x04; 0x04; 0x04; 0x04;
    0x04; 0x04; 0x04; 0x04; 0x00; 0x00; 0x00; 0x00;
    0x04; 0x04; 0x04; 0x00; 0x00; 0x00; 0x00; 0x00 ];
  (* block 0x0052 *)
  [ 0x00; 0x00; 0x04; 0x00; 0x00; 0x00; 0x00; 0x00;
    0x00; 0x00; 0x00; 0x00; 0x00; 0x00; 0x00; 0x00;
    0x00; 0x00; 0x00; 0x00; 0x00; 0x00; 0x00; 0x00;
    0x00; 0x00; 0x00; 0x00; 0x00; 0x00; 0x00; 0x00;
    0x00; 0x00; 0x00; 0x00; 0x00; 0x00; 0x00; 0x00;
    0x00; 0x00; 0x00; 0x00; 0x00; 0x00; 0x00; 0x00;
    0x00; 0x00; 0x00; 0x00; 0x00; 0x00; 0x00; 0x00;
    0x00; 0x00; 0x00; 0x00; 0x00; 0x00; 0x00; 0x00 ];
  (* block 0x0053 *)
  [ 0x00; 0x00; 0x00; 0x00; 0x00; 0x00; 0x00; 0x00;
    0x00; 0x00; 0x00; 0x00; 0x00; 0x00; 0x00; 0x00;
    0x00; 0x00; 0x00; 0x00; 0x00; 0x00; 0x00; 0x00;
    0x00; 0x00; 0x00; 0x00; 0x00; 0x00; 0x00; 0x00;
    0x00; 0x00; 0x00; 0x00; 0x00; 0x00; 0x00; 0x00;
    0x00; 0x00; 0x04; 0x04; 0x00; 0x00; 0x00; 0x00;
    0x00; 0x00; 0x00; 0x00; 0x00; 0x00; 0x04; 0x00;
    0x00; 0x00; 0x00; 0x00; 0x00; 0x00; 0x00; 0x00 ];
  (* block 0x0054 *)
  [ 0x04; 0x00; 0x00; 0x00; 0x00; 0x00; 0x00; 0x00;
    0x00; 0x00; 0x00; 0x00; 0x00; 0x00; 0x00; 0x00;
    0x00; 0x00; 0x00; 0x00; 0x00; 0x00; 0x00; 0x00;
    0x00; 0x00; 0x00; 0x00; 0x00; 0x00; 0x00; 0x00;
    0x00; 0x00; 0x00; 0x00; 0x00; 0x00; 0x00; 0x00;
    0x00; 0x00; 0x00; 0x00; 0x00; 0x00; 0x00; 0x00;
    0x00; 0x00; 0x00; 0x00; 0x00; 0x00; 0x00; 0x00;
    0x00; 0x00; 0x00; 0x04; 0x04; 0x04; 0x04; 0x00 ];
  (* block 0x0055 *)
  [ 0x04; 0x04; 0x04; 0x04; 0x04; 0x00; 0x00; 0x00;
    0x00; 0x00; 0x00; 0x00; 0x00; 0x00; 0x04; 0x00;
    0x00; 0x04; 0x00; 0x00; 0x04; 0x04; 0x00; 0x00;
    0x04; 0x00; 0x00; 0x00; 0x00; 0x04; 0x00; 0x00;
    0x04; 0x00; 0x04; 0x04; 0x00; 0x00; 0x04; 0x00;
    0x00; 0x00; 0x04; 0x00; 0x00; 0x00; 0x04; 0x04;
    0x00; 0x00; 0x00; 0x00; 0x00; 0x00; 0x00; 0x00;
    0x04; 0x04; 0x04; 0x00; 0x00; 0x00; 0x00; 0x00 ];
  (* block 0x0056 *)
  [ 0x04; 0x00; 0x04; 0x00; 0x00; 0x00; 0x00; 0x00;
    0x04; 0x04; 0x04; 0x04; 0x04; 0x04; 0x04; 0x04;
    0x04; 0x04; 0x04; 0x04; 0x00; 0x00; 0x00; 0x00;
    0x00; 0x00; 0x00; 0x00; 0x00; 0x00; 0x00; 0x04;
    0x04; 0x00; 0x00; 0x04; 0x00; 0x04; 0x04; 0x00;
    0x04; 0x00; 0x00; 0x00; 0x00; 0x00; 0x00; 0x00;
    0x00; 0x00; 0x00; 0x00; 0x00; 0x00; 0x00; 0x00;
    0x00; 0x00; 0x00; 0x04; 0x00; 0x00; 0x04; 0x04 ];
  (* block 0x0057 *)
  [ 0x00; 0x00; 0x00; 0x00; 0x00; 0x00; 0x00; 0x00;
    0x00; 0x00; 0x00; 0x00; 0x00; 0x00; 0x00; 0x00;
    0x00; 0x00; 0x04; 0x04; 0x04; 0x04; 0x04; 0x04;
    0x00; 0x04; 0x00; 0x04; 0x04; 0x00; 0x00; 0x00;
    0x04; 0x04; 0x00; 0x00; 0x00; 0x00; 0x00; 0x04;
    0x00; 0x00; 0x04; 0x04; 0x00; 0x00; 0x00; 0x00;
    0x04; 0x04; 0x00; 0x00; 0x00; 0x00; 0x00; 0x00;
    0x00; 0x00; 0x00; 0x00; 0x00; 0x04; 0x04; 0x00 ];
  (* block 0x0058 *)
  [ 0x00; 0x00; 0x00; 0x00; 0x04; 0x04; 0x00; 0x00;
    0x04; 0x00; 0x00; 0x00; 0x00; 0x00; 0x04; 0x04;
    0x00; 0x04; 0x00; 0x04; 0x04; 0x00; 0x00; 0x00;
    0x00; 0x00; 0x00; 0x00; 0x00; 0x00; 0x00; 0x00;
    0x00; 0x00; 0x00; 0x00; 0x00; 0x00; 0x00; 0x00;
    0x00; 0x04; 0x04; 0x00; 0x00; 0x00; 0x00; 0x00;
    0x04; 0x04; 0x04; 0x04; 0x04; 0x04; 0x00; 0x04;
    0x04; 0x04; 0x04; 0x00; 0x00; 0x04; 0x00; 0x00 ];
  (* block 0x0059 *)
  [ 0x00; 0x00; 0x04; 0x00; 0x00; 0x04; 0x00; 0x00;
    0x04; 0x04; 0x04; 0x04; 0x04; 0x04; 0x00; 0x04;
    0x00; 0x00; 0x04; 0x00; 0x04; 0x00; 0x04; 0x00;
    0x00; 0x00; 0x00; 0x00; 0x00; 0x04; 0x00; 0x00;
    0x00; 0x04; 0x00; 0x00; 0x00; 0x00; 0x00; 0x00;
    0x04; 0x00; 0x00; 0x00; 0x00; 0x00; 0x00; 0x00;
    0x00; 0x00; 0x00; 0x04; 0x04; 0x00; 0x00; 0x00;
    0x00; 0x00; 0x00; 0x00; 0x00; 0x00; 0x00; 0x00 ];
  (* block 0x005a *)
  [ 0x00; 0x00; 0x00; 0x00; 0x04; 0x00; 0x00; 0x04;
    0x00; 0x00; 0x00; 0x00; 0x04; 0x00; 0x04; 0x00;
    0x00; 0x00; 0x00; 0x04; 0x04; 0x04; 0x00; 0x04;
    0x00; 0x00; 0x00; 0x00; 0x00; 0x00; 0x00; 0x00;
    0x00; 0x00; 0x00; 0x04; 0x04; 0x00; 0x00; 0x00;
    0x00; 0x00; 0x00; 0x00; 0x00; 0x00; 0x00; 0x00;
    0x00; 0x00; 0x00; 0x00; 0x00; 0x00; 0x00; 0x00;
    0x00; 0x00; 0x00; 0x00; 0x00; 0x00; 0x00; 0x00 ];
  (* block 0x005b *)
  [ 0x00; 0x00; 0x00; 0x00; 0x00; 0x00; 0x00; 0x00;
    0x00; 0x00; 0x00; 0x00; 0x00; 0x00; 0x00; 0x00;
    0x00; 0x00; 0x00; 0x00; 0x00; 0x04; 0x04; 0x04;
    0x00; 0x00; 0x00; 0x00; 0x00; 0x00; 0x00; 0x00;
    0x00; 0x04; 0x00; 0x00; 0x00; 0x00; 0x00; 0x00;
    0x00; 0x00; 0x00; 0x00; 0x00; 0x00; 0x00; 0x00;
    0x04; 0x00; 0x00; 0x00; 0x00; 0x00; 0x00; 0x00;
    0x00; 0x00; 0x00; 0x00; 0x00; 0x00; 0x00; 0x04 ];
  (* block 0x005c *)
  [ 0x00; 0x00; 0x00; 0x00; 0x00; 0x00; 0x00; 0x00;
    0x00; 0x00; 0x00; 0x00; 0x00; 0x00; 0x00; 0x00;
    0x00; 0x00; 0x00; 0x00; 0x00; 0x00; 0x00; 0x00;
    0x00; 0x00; 0x00; 0x00; 0x00; 0x00; 0x00; 0x00;
    0x00; 0x00; 0x00; 0x00; 0x00; 0x00; 0x00; 0x00;
    0x00; 0x00; 0x00; 0x00; 0x00; 0x00; 0x00; 0x00;
    0x00; 0x00; 0x00; 0x00; 0x04; 0x04; 0x00; 0x00;
    0x00; 0x00; 0x00; 0x00; 0x00; 0x00; 0x00; 0x00 ];
  (* block 0x005d *)
  [ 0x00; 0x00; 0x00; 0x00; 0x00; 0x04; 0x04; 0x04;
    0x00; 0x00; 0x00; 0x00; 0x00; 0x00; 0x00; 0x00;
    0x00; 0x00; 0x00; 0x00; 0x00; 0x00; 0x00; 0x00;
    0x00; 0x00; 0x00; 0x04; 0x04; 0x00; 0x00; 0x00;
    0x00; 0x00; 0x00; 0x00; 0x00; 0x00; 0x00; 0x00;
    0x00; 0x00; 0x00; 0x00; 0x00; 0x00; 0x00; 0x00;
    0x00; 0x00; 0x00; 0x00; 0x00; 0x00; 0x00; 0x00;
    0x00; 0x00; 0x00; 0x00; 0x00; 0x00; 0x00; 0x00 ];
  (* block 0x005e *)
  [ 0x00; 0x00; 0x00; 0x00; 0x00; 0x00; 0x00; 0x00;
    0x00; 0x00; 0x00; 0x00; 0x00; 0x00; 0x00; 0x00;
    0x04; 0x00; 0x00; 0x00; 0x00; 0x04; 0x00; 0x00;
    0x00; 0x00; 0x00; 0x00; 0x00; 0x00; 0x00; 0x00;
    0x00; 0x00; 0x00; 0x00; 0x00; 0x00; 0x00; 0x00;
    0x00; 0x00; 0x00; 0x00; 0x00; 0x00; 0x00; 0x00;
    0x00; 0x00; 0x00; 0x00; 0x00; 0x00; 0x00; 0x00;
    0x00; 0x00; 0x00; 0x00; 0x00; 0x00; 0x00; 0x00 ];
  (* block 0x005f *)
  [ 0x00; 0x00; 0x00; 0x00; 0x00; 0x00; 0x00; 0x00;
    0x00; 0x00; 0x00; 0x00; 0x00; 0x00; 0x00; 0x00;
    0x00; 0x00; 0x00; 0x00; 0x00; 0x00; 0x00; 0x00;
    0x00; 0x00; 0x00; 0x00; 0x00; 0x00; 0x00; 0x00;
    0x00; 0x00; 0x00; 0x00; 0x00; 0x00; 0x00; 0x00;
    0x00; 0x00; 0x00; 0x00; 0x00; 0x00; 0x00; 0x23;
    0x23; 0x23; 0x00; 0x00; 0x00; 0x00; 0x00; 0x00;
    0x00; 0x00; 0x00; 0x00; 0x00; 0x00; 0x00; 0x00 ];
  (* block 0x0060 *)
  [ 0x00; 0x00; 0x00; 0x00; 0x00; 0x00; 0x00; 0x00;
    0x00; 0x00; 0x00; 0x00; 0x00; 0x00; 0x00; 0x00;
    0x00; 0x00; 0x00; 0x00; 0x00; 0x00; 0x00; 0x00;
    0x00; 0x00; 0x00; 0x00; 0x00; 0x00; 0x00; 0x00;
    0x00; 0x00; 0x00; 0x00; 0x00; 0x00; 0x00; 0x00;
    0x00; 0x00; 0x00; 0x00; 0x00; 0x00; 0x00; 0x00;
    0x00; 0x00; 0x00; 0x00; 0x00; 0x00; 0x00; 0x00;
    0x00; 0x00; 0x00; 0x00; 0x00; 0x00; 0x00; 0x23 ];
  (* block 0x0061 *)
  [ 0x00; 0x00; 0x00; 0x00; 0x00; 0x00; 0x00; 0x00;
    0x00; 0x00; 0x00; 0x00; 0x00; 0x00; 0x00; 0x00;
    0x00; 0x00; 0x00; 0x00; 0x00; 0x00; 0x00; 0x00;
    0x00; 0x00; 0x00; 0x00; 0x00; 0x00; 0x00; 0x00;
    0x23; 0x23; 0x23; 0x23; 0x23; 0x23; 0x23; 0x23;
    0x23; 0x23; 0x23; 0x23; 0x23; 0x23; 0x23; 0x23;
    0x23; 0x23; 0x23; 0x23; 0x23; 0x23; 0x23; 0x23;
    0x23; 0x23; 0x23; 0x23; 0x23; 0x23; 0x23; 0x23 ];
  (* block 0x0062 *)
  [ 0x00; 0x00; 0x00; 0x00; 0x00; 0x00; 0x00; 0x00;
    0x00; 0x00; 0x00; 0x00; 0x00; 0x00; 0x00; 0x00;
    0x00; 0x00; 0x00; 0x00; 0x00; 0x00; 0x00; 0x00;
    0x00; 0x00; 0x00; 0x00; 0x00; 0x00; 0x00; 0x00;
    0x00; 0x00; 0x00; 0x00; 0x00; 0x00; 0x00; 0x00;
    0x00; 0x00; 0x23; 0x23; 0x23; 0x23; 0x23; 0x23;
    0x04; 0x00; 0x00; 0x00; 0x00; 0x00; 0x00; 0x00;
    0x00; 0x00; 0x00; 0x00; 0x00; 0x04; 0x00; 0x00 ];
  (* block 0x0063 *)
  [ 0x00; 0x00; 0x00; 0x00; 0x00; 0x00; 0x00; 0x00;
    0x00; 0x00; 0x00; 0x00; 0x00; 0x00; 0x00; 0x00;
    0x00; 0x00; 0x00; 0x00; 0x00; 0x00; 0x00; 0x00;
    0x00; 0x23; 0x23; 0x00; 0x00; 0x00; 0x00; 0x00;
    0x00; 0x00; 0x00; 0x00; 0x00; 0x00; 0x00; 0x00;
    0x00; 0x00; 0x00; 0x00; 0x00; 0x00; 0x00; 0x00;
    0x00; 0x00; 0x00; 0x00; 0x00; 0x00; 0x00; 0x00;
    0x00; 0x00; 0x00; 0x00; 0x00; 0x00; 0x00; 0x00 ];
  (* block 0x0064 *)
  [ 0x00; 0x00; 0x00; 0x00; 0x00; 0x00; 0x00; 0x00;
    0x00; 0x00; 0x00; 0x00; 0x00; 0x00; 0x00; 0x00;
    0x00; 0x00; 0x00; 0x00; 0x00; 0x00; 0x00; 0x04;
    0x00; 0x04; 0x00; 0x00; 0x00; 0x00; 0x00; 0x00;
    0x00; 0x00; 0x00; 0x00; 0x00; 0x00; 0x00; 0x00;
    0x00; 0x00; 0x00; 0x00; 0x00; 0x00; 0x00; 0x00;
    0x00; 0x00; 0x00; 0x00; 0x00; 0x00; 0x00; 0x00;
    0x00; 0x00; 0x00; 0x00; 0x00; 0x00; 0x00; 0x00 ];
  (* block 0x0065 *)
  [ 0x00; 0x00; 0x00; 0x00; 0x00; 0x00; 0x00; 0x00;
    0x00; 0x00; 0x00; 0x00; 0x00; 0x00; 0x00; 0x00;
    0x00; 0x00; 0x00; 0x00; 0x00; 0x00; 0x00; 0x00;
    0x00; 0x00; 0x00; 0x00; 0x00; 0x00; 0x00; 0x00;
    0x00; 0x00; 0x00; 0x00; 0x00; 0x00; 0x00; 0x00;
    0x00; 0x00; 0x00; 0x00; 0x00; 0x00; 0x00; 0x23;
    0x23; 0x23; 0x23; 0x00; 0x23; 0x23; 0x23; 0x23;
    0x23; 0x23; 0x23; 0x23; 0x23; 0x23; 0x00; 0x00 ];
  (* block 0x0066 *)
  [ 0x00; 0x00; 0x00; 0x00; 0x00; 0x00; 0x00; 0x00;
    0x00; 0x00; 0x00; 0x00; 0x00; 0x00; 0x00; 0x00;
    0x00; 0x00; 0x00; 0x00; 0x00; 0x00; 0x00; 0x00;
    0x00; 0x00; 0x00; 0x00; 0x00; 0x00; 0x23; 0x23;
    0x00; 0x00; 0x00; 0x00; 0x00; 0x00; 0x00; 0x00;
    0x00; 0x00; 0x00; 0x00; 0x00; 0x00; 0x00; 0x00;
    0x00; 0x00; 0x00; 0x00; 0x00; 0x00; 0x00; 0x00;
    0x00; 0x00; 0x00; 0x00; 0x00; 0x00; 0x00; 0x00 ];
  (* block 0x0067 *)
  [ 0x00; 0x00; 0x00; 0x00; 0x00; 0x00; 0x00; 0x00;
    0x00; 0x00; 0x00; 0x00; 0x00; 0x00; 0x00; 0x00;
    0x00; 0x00; 0x00; 0x00; 0x00; 0x00; 0x00; 0x00;
    0x00; 0x00; 0x00; 0x00; 0x00; 0x00; 0x00; 0x00;
    0x00; 0x00; 0x00; 0x00; 0x00; 0x00; 0x00; 0x00;
    0x00; 0x00; 0x00; 0x00; 0x00; 0x00; 0x00; 0x00;
    0x23; 0x23; 0x00; 0x00; 0x00; 0x00; 0x00; 0x00;
    0x00; 0x00; 0x00; 0x00; 0x00; 0x00; 0x00; 0x00 ];
  (* block 0x0068 *)
  [ 0x00; 0x00; 0x23; 0x00; 0x00; 0x00; 0x23; 0x00;
    0x00; 0x00; 0x00; 0x23; 0x00; 0x00; 0x00; 0x00;
    0x00; 0x00; 0x00; 0x00; 0x00; 0x00; 0x00; 0x00;
    0x00; 0x00; 0x00; 0x00; 0x00; 0x00; 0x00; 0x00;
    0x00; 0x00; 0x00; 0x0b; 0x0b; 0x23; 0x23; 0x0b;
    0x00; 0x00; 0x00; 0x00; 0x23; 0x00; 0x00; 0x00;
    0x00; 0x00; 0x00; 0x00; 0x00; 0x00; 0x00; 0x00;
    0x00; 0x00; 0x00; 0x00; 0x00; 0x00; 0x00; 0x00 ];
  (* block 0x0069 *)
  [ 0x0b; 0x0b; 0x00; 0x00; 0x00; 0x00; 0x00; 0x00;
    0x00; 0x00; 0x00; 0x00; 0x00; 0x00; 0x00; 0x00;
    0x00; 0x00; 0x00; 0x00; 0x00; 0x00; 0x00; 0x00;
    0x00; 0x00; 0x00; 0x00; 0x00; 0x00; 0x00; 0x00;
    0x00; 0x00; 0x00; 0x00; 0x00; 0x00; 0x00; 0x00;
    0x00; 0x00; 0x00; 0x00; 0x00; 0x00; 0x00; 0x00;
    0x00; 0x00; 0x00; 0x00; 0x0b; 0x0b; 0x0b; 0x0b;
    0x0b; 0x0b; 0x0b; 0x0b; 0x0b; 0x0b; 0x0b; 0x0b ];
  (* block 0x006a *)
  [ 0x0b; 0x0b; 0x0b; 0x0b; 0x23; 0x23; 0x00; 0x00;
    0x00; 0x00; 0x00; 0x00; 0x00; 0x00; 0x00; 0x00;
    0x00; 0x00; 0x00; 0x00; 0x00; 0x00; 0x00; 0x00;
    0x00; 0x00; 0x00; 0x00; 0x00; 0x00; 0x00; 0x00;
    0x23; 0x23; 0x23; 0x23; 0x23; 0x23; 0x23; 0x23;
    0x23; 0x23; 0x23; 0x23; 0x23; 0x23; 0x23; 0x23;
    0x23; 0x23; 0x00; 0x00; 0x00; 0x00; 0x00; 0x00;
    0x00; 0x00; 0x00; 0x00; 0x00; 0x00; 0x00; 0x23 ];
  (* block 0x006b *)
  [ 0x00; 0x00; 0x00; 0x00; 0x00; 0x00; 0x00; 0x00;
    0x00; 0x00; 0x00; 0x00; 0x00; 0x00; 0x00; 0x00;
    0x00; 0x00; 0x00; 0x00; 0x00; 0x00; 0x00; 0x00;
    0x00; 0x00; 0x00; 0x00; 0x00; 0x00; 0x00; 0x00;
    0x00; 0x00; 0x00; 0x00; 0x00; 0x00; 0x23; 0x23;
    0x23; 0x23; 0x23; 0x23; 0x23; 0x23; 0x00; 0x00;
    0x00; 0x00; 0x00; 0x00; 0x00; 0x00; 0x00; 0x00;
    0x00; 0x00; 0x00; 0x00; 0x00; 0x00; 0x00; 0x00 ];
  (* block 0x006c *)
  [ 0x00; 0x00; 0x00; 0x00; 0x00; 0x00; 0x00; 0x23;
    0x23; 0x23; 0x23; 0x23; 0x23; 0x23; 0x23; 0x23;
    0x23; 0x23; 0x0b; 0x23; 0x00; 0x00; 0x00; 0x00;
    0x00; 0x00; 0x00; 0x00; 0x00; 0x00; 0x00; 0x00;
    0x05; 0x05; 0x05; 0x05; 0x05; 0x05; 0x05; 0x05;
    0x05; 0x05; 0x05; 0x05; 0x05; 0x05; 0x05; 0x05;
    0x05; 0x05; 0x05; 0x05; 0x05; 0x05; 0x05; 0x05;
    0x05; 0x05; 0x05; 0x05; 0x05; 0x00; 0x00; 0x00 ];
  (* block 0x006d *)
  [ 0x23; 0x23; 0x23; 0x0b; 0x00; 0x00; 0x00; 0x00;
    0x00; 0x10; 0x10; 0x10; 0x00; 0x00; 0x00; 0x10;
    0x10; 0x10; 0x10; 0x10; 0x10; 0x10; 0x10; 0x10;
    0x10; 0x10; 0x10; 0x10; 0x10; 0x10; 0x10; 0x10;
    0x10; 0x10; 0x10; 0x10; 0x10; 0x10; 0x10; 0x10;
    0x10; 0x10; 0x10; 0x10; 0x10; 0x10; 0x10; 0x10;
    0x10; 0x10; 0x10; 0x23; 0x0b; 0x0b; 0x23; 0x23;
    0x23; 0x23; 0x0b; 0x0b; 0x23; 0x23; 0x0b; 0x0b ];
  (* block 0x006e *)
  [ 0x33; 0x00; 0x00; 0x00; 0x00; 0x00; 0x00; 0x00;
    0x00; 0x00; 0x00; 0x00; 0x00; 0x00; 0x00; 0x00;
    0x00; 0x00; 0x00; 0x00; 0x00; 0x00; 0x00; 0x00;
    0x00; 0x00; 0x00; 0x00; 0x00; 0x00; 0x00; 0x00;
    0x10; 0x10; 0x10; 0x10; 0x10; 0x23; 0x00; 0x10;
    0x10; 0x10; 0x10; 0x10; 0x10; 0x10; 0x10; 0x10;
    0x00; 0x00; 0x00; 0x00; 0x00; 0x00; 0x00; 0x00;
    0x00; 0x00; 0x10; 0x10; 0x10; 0x10; 0x10; 0x00 ];
  (* block 0x006f *)
  [ 0x00; 0x00; 0x00; 0x00; 0x00; 0x00; 0x00; 0x00;
    0x00; 0x00; 0x00; 0x00; 0x00; 0x00; 0x00; 0x00;
    0x00; 0x00; 0x00; 0x00; 0x00; 0x00; 0x00; 0x00;
    0x00; 0x00; 0x00; 0x00; 0x00; 0x00; 0x00; 0x00;
    0x00; 0x00; 0x00; 0x00; 0x00; 0x00; 0x00; 0x00;
    0x00; 0x23; 0x23; 0x23; 0x23; 0x23; 0x23; 0x0b;
    0x0b; 0x23; 0x23; 0x0b; 0x0b; 0x23; 0x23; 0x00;
    0x00; 0x00; 0x00; 0x00; 0x00; 0x00; 0x00; 0x00 ];
  (* block 0x0070 *)
  [ 0x00; 0x00; 0x00; 0x23; 0x00; 0x00; 0x00; 0x00;
    0x00; 0x00; 0x00; 0x00; 0x23; 0x0b; 0x00; 0x00;
    0x00; 0x00; 0x00; 0x00; 0x00; 0x00; 0x00; 0x00;
    0x00; 0x00; 0x00; 0x00; 0x00; 0x00; 0x00; 0x00;
    0x10; 0x10; 0x10; 0x10; 0x10; 0x10; 0x10; 0x10;
    0x10; 0x10; 0x10; 0x10; 0x10; 0x10; 0x10; 0x10;
    0x00; 0x10; 0x10; 0x10; 0x00; 0x00; 0x00; 0x00;
    0x00; 0x00; 0x10; 0x00; 0x23; 0x00; 0x10; 0x10 ];
  (* block 0x0071 *)
  [ 0x00; 0x00; 0x00; 0x00; 0x00; 0x00; 0x00; 0x00;
    0x00; 0x00; 0x00; 0x00; 0x00; 0x00; 0x00; 0x00;
    0x00; 0x00; 0x00; 0x00; 0x00; 0x00; 0x00; 0x00;
    0x00; 0x00; 0x00; 0x00; 0x00; 0x00; 0x00; 0x00;
    0x00; 0x00; 0x00; 0x00; 0x00; 0x00; 0x00; 0x00;
    0x00; 0x00; 0x00; 0x00; 0x00; 0x00; 0x00; 0x00;
    0x23; 0x00; 0x23; 0x23; 0x23; 0x00; 0x00; 0x23;
    0x23; 0x00; 0x00; 0x00; 0x00; 0x00; 0x23; 0x23 ];
  (* block 0x0072 *)
  [ 0x00; 0x23; 0x00; 0x00; 0x00; 0x00; 0x00; 0x00;
    0x00; 0x00; 0x00; 0x00; 0x00; 0x00; 0x00; 0x00;
    0x00; 0x00; 0x00; 0x00; 0x00; 0x00; 0x00; 0x00;
    0x00; 0x00; 0x00; 0x00; 0x00; 0x00; 0x00; 0x00;
    0x10; 0x10; 0x10; 0x10; 0x10; 0x10; 0x10; 0x10;
    0x10; 0x10; 0x10; 0x0b; 0x23; 0x23; 0x0b; 0x0b;
    0x00; 0x00; 0x00; 0x00; 0x00; 0x0b; 0x33; 0x00;
    0x00; 0x00; 0x00; 0x00; 0x00; 0x00; 0x00; 0x00 ];
  (* block 0x0073 *)
  [ 0x10; 0x10; 0x10; 0x10; 0x10; 0x10; 0x10; 0x10;
    0x10; 0x10; 0x10; 0x10; 0x10; 0x10; 0x10; 0x10;
    0x10; 0x10; 0x10; 0x10; 0x10; 0x10; 0x10; 0x10;
    0x10; 0x10; 0x10; 0x00; 0x00; 0x00; 0x00; 0x00;
    0x00; 0x00; 0x00; 0x0b; 0x0b; 0x23; 0x0b; 0x0b;
    0x23; 0x0b; 0x0b; 0x00; 0x0b; 0x23; 0x00; 0x00;
    0x00; 0x00; 0x00; 0x00; 0x00; 0x00; 0x00; 0x00;
    0x00; 0x00; 0x00; 0x00; 0x00; 0x00; 0x00; 0x00 ];
  (* block 0x0074 *)
  [ 0x07; 0x08; 0x08; 0x08; 0x08; 0x08; 0x08; 0x08;
    0x08; 0x08; 0x08; 0x08; 0x08; 0x08; 0x08; 0x08;
    0x08; 0x08; 0x08; 0x08; 0x08; 0x08; 0x08; 0x08;
    0x08; 0x08; 0x08; 0x08; 0x07; 0x08; 0x08; 0x08;
    0x08; 0x08; 0x08; 0x08; 0x08; 0x08; 0x08; 0x08;
    0x08; 0x08; 0x08; 0x08; 0x08; 0x08; 0x08; 0x08;
    0x08; 0x08; 0x08; 0x08; 0x08; 0x08; 0x08; 0x08;
    0x07; 0x08; 0x08; 0x08; 0x08; 0x08; 0x08; 0x08 ];
  (* block 0x0075 *)
  [ 0x08; 0x08; 0x08; 0x08; 0x08; 0x08; 0x08; 0x08;
    0x08; 0x08; 0x08; 0x08; 0x08; 0x08; 0x08; 0x08;
    0x08; 0x08; 0x08; 0x08; 0x07; 0x08; 0x08; 0x08;
    0x08; 0x08; 0x08; 0x08; 0x08; 0x08; 0x08; 0x08;
    0x08; 0x08; 0x08; 0x08; 0x08; 0x08; 0x08; 0x08;
    0x08; 0x08; 0x08; 0x08; 0x08; 0x08; 0x08; 0x08;
    0x07; 0x08; 0x08; 0x08; 0x08; 0x08; 0x08; 0x08;
    0x08; 0x08; 0x08; 0x08; 0x08; 0x08; 0x08; 0x08 ];
  (* block 0x0076 *)
  [ 0x08; 0x08; 0x08; 0x08; 0x08; 0x08; 0x08; 0x08;
    0x08; 0x08; 0x08; 0x08; 0x07; 0x08; 0x08; 0x08;
    0x08; 0x08; 0x08; 0x08; 0x08; 0x08; 0x08; 0x08;
    0x08; 0x08; 0x08; 0x08; 0x08; 0x08; 0x08; 0x08;
    0x08; 0x08; 0x08; 0x08; 0x08; 0x08; 0x08; 0x08;
    0x07; 0x08; 0x08; 0x08; 0x08; 0x08; 0x08; 0x08;
    0x08; 0x08; 0x08; 0x08; 0x08; 0x08; 0x08; 0x08;
    0x08; 0x08; 0x08; 0x08; 0x08; 0x08; 0x08; 0x08 ];
  (* block 0x0077 *)
  [ 0x08; 0x08; 0x08; 0x08; 0x07; 0x08; 0x08; 0x08;
    0x08; 0x08; 0x08; 0x08; 0x08; 0x08; 0x08; 0x08;
    0x08; 0x08; 0x08; 0x08; 0x08; 0x08; 0x08; 0x08;
    0x08; 0x08; 0x08; 0x08; 0x08; 0x08; 0x08; 0x08;
    0x07; 0x08; 0x08; 0x08; 0x08; 0x08; 0x08; 0x08;
    0x08; 0x08; 0x08; 0x08; 0x08; 0x08; 0x08; 0x08;
    0x08; 0x08; 0x08; 0x08; 0x08; 0x08; 0x08; 0x08;
    0x08; 0x08; 0x08; 0x08; 0x07; 0x08; 0x08; 0x08 ];
  (* block 0x0078 *)
  [ 0x08; 0x08; 0x08; 0x08; 0x08; 0x08; 0x08; 0x08;
    0x08; 0x08; 0x08; 0x08; 0x08; 0x08; 0x08; 0x08;
    0x08; 0x08; 0x08; 0x08; 0x08; 0x08; 0x08; 0x08;
    0x07; 0x08; 0x08; 0x08; 0x08; 0x08; 0x08; 0x08;
    0x08; 0x08; 0x08; 0x08; 0x08; 0x08; 0x08; 0x08;
    0x08; 0x08; 0x08; 0x08; 0x08; 0x08; 0x08; 0x08;
    0x08; 0x08; 0x08; 0x08; 0x07; 0x08; 0x08; 0x08;
    0x08; 0x08; 0x08; 0x08; 0x08; 0x08; 0x08; 0x08 ];
  (* block 0x0079 *)
  [ 0x08; 0x08; 0x08; 0x08; 0x08; 0x08; 0x08; 0x08;
    0x08; 0x08; 0x08; 0x08; 0x08; 0x08; 0x08; 0x08;
    0x07; 0x08; 0x08; 0x08; 0x08; 0x08; 0x08; 0x08;
    0x08; 0x08; 0x08; 0x08; 0x08; 0x08; 0x08; 0x08;
    0x08; 0x08; 0x08; 0x08; 0x08; 0x08; 0x08; 0x08;
    0x08; 0x08; 0x08; 0x08; 0x07; 0x08; 0x08; 0x08;
    0x08; 0x08; 0x08; 0x08; 0x08; 0x08; 0x08; 0x08;
    0x08; 0x08; 0x08; 0x08; 0x08; 0x08; 0x08; 0x08 ];
  (* block 0x007a *)
  [ 0x08; 0x08; 0x08; 0x08; 0x08; 0x08; 0x08; 0x08;
    0x07; 0x08; 0x08; 0x08; 0x08; 0x08; 0x08; 0x08;
    0x08; 0x08; 0x08; 0x08; 0x08; 0x08; 0x08; 0x08;
    0x08; 0x08; 0x08; 0x08; 0x08; 0x08; 0x08; 0x08;
    0x08; 0x08; 0x08; 0x08; 0x07; 0x08; 0x08; 0x08;
    0x08; 0x08; 0x08; 0x08; 0x08; 0x08; 0x08; 0x08;
    0x08; 0x08; 0x08; 0x08; 0x08; 0x08; 0x08; 0x08;
    0x08; 0x08; 0x08; 0x08; 0x08; 0x08; 0x08; 0x08 ];
  (* block 0x007b *)
  [ 0x08; 0x08; 0x08; 0x08; 0x08; 0x08; 0x08; 0x08;
    0x07; 0x08; 0x08; 0x08; 0x08; 0x08; 0x08; 0x08;
    0x08; 0x08; 0x08; 0x08; 0x08; 0x08; 0x08; 0x08;
    0x08; 0x08; 0x08; 0x08; 0x08; 0x08; 0x08; 0x08;
    0x08; 0x08; 0x08; 0x08; 0x00; 0x00; 0x00; 0x00;
    0x00; 0x00; 0x00; 0x00; 0x00; 0x00; 0x00; 0x00;
    0x0d; 0x0d; 0x0d; 0x0d; 0x0d; 0x0d; 0x0d; 0x0d;
    0x0d; 0x0d; 0x0d; 0x0d; 0x0d; 0x0d; 0x0d; 0x0d ];
  (* block 0x007c *)
  [ 0x0d; 0x0d; 0x0d; 0x0d; 0x0d; 0x0d; 0x0d; 0x00;
    0x00; 0x00; 0x00; 0x0c; 0x0c; 0x0c; 0x0c; 0x0c;
    0x0c; 0x0c; 0x0c; 0x0c; 0x0c; 0x0c; 0x0c; 0x0c;
    0x0c; 0x0c; 0x0c; 0x0c; 0x0c; 0x0c; 0x0c; 0x0c;
    0x0c; 0x0c; 0x0c; 0x0c; 0x0c; 0x0c; 0x0c; 0x0c;
    0x0c; 0x0c; 0x0c; 0x0c; 0x0c; 0x0c; 0x0c; 0x0c;
    0x0c; 0x0c; 0x0c; 0x0c; 0x0c; 0x0c; 0x0c; 0x0c;
    0x0c; 0x0c; 0x0c; 0x0c; 0x00; 0x00; 0x00; 0x00 ];
  (* block 0x007d *)
  [ 0x00; 0x00; 0x00; 0x00; 0x00; 0x00; 0x00; 0x00;
    0x00; 0x00; 0x00; 0x00; 0x00; 0x00; 0x00; 0x00;
    0x00; 0x00; 0x00; 0x00; 0x00; 0x00; 0x00; 0x00;
    0x00; 0x00; 0x00; 0x00; 0x00; 0x00; 0x23; 0x00;
    0x00; 0x00; 0x00; 0x00; 0x00; 0x00; 0x00; 0x00;
    0x00; 0x00; 0x00; 0x00; 0x00; 0x00; 0x00; 0x00;
    0x00; 0x00; 0x00; 0x00; 0x00; 0x00; 0x00; 0x00;
    0x00; 0x00; 0x00; 0x00; 0x00; 0x00; 0x00; 0x00 ];
  (* block 0x007e *)
  [ 0x23; 0x23; 0x23; 0x23; 0x23; 0x23; 0x23; 0x23;
    0x23; 0x23; 0x23; 0x23; 0x23; 0x23; 0x23; 0x23;
    0x00; 0x00; 0x00; 0x00; 0x00; 0x00; 0x00; 0x00;
    0x00; 0x00; 0x00; 0x00; 0x00; 0x00; 0x00; 0x00;
    0x23; 0x23; 0x23; 0x23; 0x23; 0x23; 0x23; 0x23;
    0x23; 0x23; 0x23; 0x23; 0x23; 0x23; 0x23; 0x23;
    0x00; 0x00; 0x00; 0x00; 0x00; 0x00; 0x00; 0x00;
    0x00; 0x00; 0x00; 0x00; 0x00; 0x00; 0x00; 0x00 ];
  (* block 0x007f *)
  [ 0x00; 0x00; 0x00; 0x00; 0x00; 0x00; 0x00; 0x00;
    0x00; 0x00; 0x00; 0x00; 0x00; 0x00; 0x00; 0x00;
    0x00; 0x00; 0x00; 0x00; 0x00; 0x00; 0x00; 0x00;
    0x00; 0x00; 0x00; 0x00; 0x00; 0x00; 0x00; 0x00;
    0x00; 0x00; 0x00; 0x00; 0x00; 0x00; 0x00; 0x00;
    0x00; 0x00; 0x00; 0x00; 0x00; 0x00; 0x00; 0x00;
    0x02; 0x02; 0x02; 0x02; 0x02; 0x02; 0x02; 0x02;
    0x02; 0x02; 0x02; 0x02; 0x00; 0x00; 0x00; 0x00 ];
  (* block 0x0080 *)
  [ 0x00; 0x00; 0x00; 0x00; 0x00; 0x00; 0x00; 0x00;
    0x00; 0x00; 0x00; 0x00; 0x00; 0x00; 0x00; 0x00;
    0x00; 0x00; 0x00; 0x00; 0x00; 0x00; 0x00; 0x00;
    0x00; 0x00; 0x00; 0x00; 0x00; 0x00; 0x00; 0x00;
    0x00; 0x00; 0x00; 0x00; 0x00; 0x00; 0x00; 0x00;
    0x00; 0x00; 0x00; 0x00; 0x00; 0x00; 0x00; 0x00;
    0x00; 0x00; 0x00; 0x00; 0x00; 0x00; 0x00; 0x00;
    0x00; 0x00; 0x00; 0x00; 0x00; 0x23; 0x00; 0x00 ];
  (* block 0x0081 *)
  [ 0x00; 0x00; 0x00; 0x00; 0x00; 0x00; 0x00; 0x00;
    0x00; 0x00; 0x00; 0x00; 0x00; 0x00; 0x00; 0x00;
    0x00; 0x00; 0x00; 0x00; 0x00; 0x00; 0x00; 0x00;
    0x00; 0x00; 0x00; 0x00; 0x00; 0x00; 0x00; 0x00;
    0x23; 0x00; 0x00; 0x00; 0x00; 0x00; 0x00; 0x00;
    0x00; 0x00; 0x00; 0x00; 0x00; 0x00; 0x00; 0x00;
    0x00; 0x00; 0x00; 0x00; 0x00; 0x00; 0x00; 0x00;
    0x00; 0x00; 0x00; 0x00; 0x00; 0x00; 0x00; 0x00 ];
  (* block 0x0082 *)
  [ 0x00; 0x00; 0x00; 0x00; 0x00; 0x00; 0x00; 0x00;
    0x00; 0x00; 0x00; 0x00; 0x00; 0x00; 0x00; 0x00;
    0x00; 0x00; 0x00; 0x00; 0x00; 0x00; 0x00; 0x00;
    0x00; 0x00; 0x00; 0x00; 0x00; 0x00; 0x00; 0x00;
    0x00; 0x00; 0x00; 0x00; 0x00; 0x00; 0x00; 0x00;
    0x00; 0x00; 0x00; 0x00; 0x00; 0x00; 0x00; 0x00;
    0x00; 0x00; 0x00; 0x00; 0x00; 0x00; 0x23; 0x23;
    0x23; 0x23; 0x23; 0x00; 0x00; 0x00; 0x00; 0x00 ];
  (* block 0x0083 *)
  [ 0x10; 0x23; 0x23; 0x23; 0x00; 0x23; 0x23; 0x00;
    0x00; 0x00; 0x00; 0x00; 0x23; 0x23; 0x23; 0x23;
    0x10; 0x10; 0x10; 0x10; 0x00; 0x10; 0x10; 0x10;
    0x00; 0x10; 0x10; 0x10; 0x10; 0x10; 0x10; 0x10;
    0x10; 0x10; 0x10; 0x10; 0x10; 0x10; 0x10; 0x10;
    0x10; 0x10; 0x10; 0x10; 0x10; 0x10; 0x10; 0x10;
    0x10; 0x10; 0x10; 0x10; 0x10; 0x10; 0x00; 0x00;
    0x23; 0x23; 0x23; 0x00; 0x00; 0x00; 0x00; 0x33 ];
  (* block 0x0084 *)
  [ 0x00; 0x00; 0x00; 0x00; 0x00; 0x00; 0x00; 0x00;
    0x00; 0x00; 0x00; 0x00; 0x00; 0x00; 0x00; 0x00;
    0x00; 0x00; 0x00; 0x00; 0x00; 0x00; 0x00; 0x00;
    0x00; 0x00; 0x00; 0x00; 0x00; 0x00; 0x00; 0x00;
    0x00; 0x00; 0x00; 0x00; 0x00; 0x23; 0x23; 0x00;
    0x00; 0x00; 0x00; 0x00; 0x00; 0x00; 0x00; 0x00;
    0x00; 0x00; 0x00; 0x00; 0x00; 0x00; 0x00; 0x00;
    0x00; 0x00; 0x00; 0x00; 0x00; 0x00; 0x00; 0x00 ];
  (* block 0x0085 *)
  [ 0x00; 0x00; 0x00; 0x00; 0x00; 0x00; 0x00; 0x00;
    0x00; 0x00; 0x00; 0x00; 0x00; 0x00; 0x00; 0x00;
    0x00; 0x00; 0x00; 0x00; 0x00; 0x00; 0x00; 0x00;
    0x00; 0x00; 0x00; 0x00; 0x00; 0x00; 0x00; 0x00;
    0x00; 0x00; 0x00; 0x00; 0x23; 0x23; 0x23; 0x23;
    0x00; 0x00; 0x00; 0x00; 0x00; 0x00; 0x00; 0x00;
    0x00; 0x00; 0x00; 0x00; 0x00; 0x00; 0x00; 0x00;
    0x00; 0x00; 0x00; 0x00; 0x00; 0x00; 0x00; 0x00 ];
  (* block 0x0086 *)
  [ 0x00; 0x00; 0x00; 0x00; 0x00; 0x00; 0x00; 0x00;
    0x00; 0x00; 0x00; 0x00; 0x00; 0x00; 0x00; 0x00;
    0x00; 0x00; 0x00; 0x00; 0x00; 0x00; 0x00; 0x00;
    0x00; 0x00; 0x00; 0x00; 0x00; 0x00; 0x00; 0x00;
    0x00; 0x00; 0x00; 0x00; 0x00; 0x00; 0x00; 0x00;
    0x00; 0x23; 0x23; 0x23; 0x23; 0x23; 0x00; 0x00;
    0x00; 0x00; 0x00; 0x00; 0x00; 0x00; 0x00; 0x00;
    0x00; 0x00; 0x00; 0x00; 0x00; 0x00; 0x00; 0x00 ];
  (* block 0x0087 *)
  [ 0x00; 0x00; 0x00; 0x00; 0x00; 0x00; 0x00; 0x00;
    0x00; 0x00; 0x00; 0x00; 0x00; 0x00; 0x00; 0x00;
    0x00; 0x00; 0x00; 0x00; 0x00; 0x00; 0x00; 0x00;
    0x00; 0x00; 0x00; 0x00; 0x00; 0x00; 0x00; 0x00;
    0x00; 0x00; 0x00; 0x00; 0x00; 0x00; 0x00; 0x00;
    0x00; 0x00; 0x00; 0x23; 0x23; 0x00; 0x00; 0x00;
    0x00; 0x00; 0x00; 0x00; 0x00; 0x00; 0x00; 0x00;
    0x00; 0x00; 0x00; 0x00; 0x00; 0x00; 0x00; 0x00 ];
  (* block 0x0088 *)
  [ 0x00; 0x00; 0x00; 0x00; 0x00; 0x00; 0x00; 0x00;
    0x00; 0x00; 0x00; 0x00; 0x00; 0x00; 0x00; 0x00;
    0x00; 0x00; 0x00; 0x00; 0x00; 0x00; 0x00; 0x00;
    0x00; 0x00; 0x00; 0x00; 0x00; 0x00; 0x00; 0x00;
    0x00; 0x00; 0x00; 0x00; 0x00; 0x00; 0x00; 0x00;
    0x00; 0x00; 0x00; 0x00; 0x00; 0x00; 0x00; 0x00;
    0x00; 0x00; 0x00; 0x00; 0x00; 0x00; 0x00; 0x00;
    0x00; 0x00; 0x23; 0x23; 0x23; 0x23; 0x23; 0x23 ];
  (* block 0x0089 *)
  [ 0x00; 0x00; 0x00; 0x00; 0x00; 0x00; 0x23; 0x23;
    0x23; 0x23; 0x23; 0x23; 0x23; 0x23; 0x23; 0x23;
    0x23; 0x00; 0x00; 0x00; 0x00; 0x00; 0x00; 0x00;
    0x00; 0x00; 0x00; 0x00; 0x00; 0x00; 0x00; 0x00;
    0x00; 0x00; 0x00; 0x00; 0x00; 0x00; 0x00; 0x00;
    0x00; 0x00; 0x00; 0x00; 0x00; 0x00; 0x00; 0x00;
    0x00; 0x00; 0x00; 0x00; 0x00; 0x00; 0x00; 0x00;
    0x00; 0x00; 0x00; 0x00; 0x00; 0x00; 0x00; 0x00 ];
  (* block 0x008a *)
  [ 0x00; 0x00; 0x23; 0x23; 0x23; 0x23; 0x00; 0x00;
    0x00; 0x00; 0x00; 0x00; 0x00; 0x00; 0x00; 0x00;
    0x00; 0x00; 0x00; 0x00; 0x00; 0x00; 0x00; 0x00;
    0x00; 0x00; 0x00; 0x00; 0x00; 0x00; 0x00; 0x00;
    0x00; 0x00; 0x00; 0x00; 0x00; 0x00; 0x00; 0x00;
    0x00; 0x00; 0x00; 0x00; 0x00; 0x00; 0x00; 0x00;
    0x00; 0x00; 0x00; 0x00; 0x00; 0x00; 0x00; 0x00;
    0x00; 0x00; 0x00; 0x00; 0x00; 0x00; 0x00; 0x00 ];
  (* block 0x008b *)
  [ 0x0b; 0x23; 0x0b; 0x00; 0x00; 0x00; 0x00; 0x00;
    0x00; 0x00; 0x00; 0x00; 0x00; 0x00; 0x00; 0x00;
    0x00; 0x00; 0x00; 0x00; 0x00; 0x00; 0x00; 0x00;
    0x00; 0x00; 0x00; 0x00; 0x00; 0x00; 0x00; 0x00;
    0x00; 0x00; 0x00; 0x00; 0x00; 0x00; 0x00; 0x00;
    0x00; 0x00; 0x00; 0x00; 0x00; 0x00; 0x00; 0x00;
    0x00; 0x00; 0x00; 0x00; 0x00; 0x00; 0x00; 0x00;
    0x23; 0x23; 0x23; 0x23; 0x23; 0x23; 0x23; 0x23 ];
  (* block 0x008c *)
  [ 0x23; 0x23; 0x23; 0x23; 0x23; 0x23; 0x23; 0x00;
    0x00; 0x00; 0x00; 0x00; 0x00; 0x00; 0x00; 0x00;
    0x00; 0x00; 0x00; 0x00; 0x00; 0x00; 0x00; 0x00;
    0x00; 0x00; 0x00; 0x00; 0x00; 0x00; 0x00; 0x00;
    0x00; 0x00; 0x00; 0x00; 0x00; 0x00; 0x00; 0x00;
    0x00; 0x00; 0x00; 0x00; 0x00; 0x00; 0x00; 0x00;
    0x23; 0x00; 0x00; 0x23; 0x23; 0x00; 0x00; 0x00;
    0x00; 0x00; 0x00; 0x00; 0x00; 0x00; 0x00; 0x23 ];
  (* block 0x008d *)
  [ 0x23; 0x23; 0x0b; 0x00; 0x00; 0x00; 0x00; 0x00;
    0x00; 0x00; 0x00; 0x00; 0x00; 0x00; 0x00; 0x00;
    0x00; 0x00; 0x00; 0x00; 0x00; 0x00; 0x00; 0x00;
    0x00; 0x00; 0x00; 0x00; 0x00; 0x00; 0x00; 0x00;
    0x00; 0x00; 0x00; 0x00; 0x00; 0x00; 0x00; 0x00;
    0x00; 0x00; 0x00; 0x00; 0x00; 0x00; 0x00; 0x00;
    0x0b; 0x0b; 0x0b; 0x23; 0x23; 0x23; 0x23; 0x0b;
    0x0b; 0x23; 0x23; 0x00; 0x00; 0x09; 0x00; 0x00 ];
  (* block 0x008e *)
  [ 0x00; 0x00; 0x23; 0x00; 0x00; 0x00; 0x00; 0x00;
    0x00; 0x00; 0x00; 0x00; 0x00; 0x09; 0x00; 0x00;
    0x00; 0x00; 0x00; 0x00; 0x00; 0x00; 0x00; 0x00;
    0x00; 0x00; 0x00; 0x00; 0x00; 0x00; 0x00; 0x00;
    0x00; 0x00; 0x00; 0x00; 0x00; 0x00; 0x00; 0x00;
    0x00; 0x00; 0x00; 0x00; 0x00; 0x00; 0x00; 0x00;
    0x00; 0x00; 0x00; 0x00; 0x00; 0x00; 0x00; 0x00;
    0x00; 0x00; 0x00; 0x00; 0x00; 0x00; 0x00; 0x00 ];
  (* block 0x008f *)
  [ 0x23; 0x23; 0x23; 0x10; 0x10; 0x10; 0x10; 0x10;
    0x10; 0x10; 0x10; 0x10; 0x10; 0x10; 0x10; 0x10;
    0x10; 0x10; 0x10; 0x10; 0x10; 0x10; 0x10; 0x10;
    0x10; 0x10; 0x10; 0x10; 0x10; 0x10; 0x10; 0x10;
    0x10; 0x10; 0x10; 0x10; 0x10; 0x10; 0x10; 0x23;
    0x23; 0x23; 0x23; 0x23; 0x0b; 0x23; 0x23; 0x23;
    0x23; 0x23; 0x23; 0x33; 0x23; 0x00; 0x00; 0x00;
    0x00; 0x00; 0x00; 0x00; 0x00; 0x00; 0x00; 0x00 ];
  (* block 0x0090 *)
  [ 0x00; 0x00; 0x00; 0x00; 0x10; 0x0b; 0x0b; 0x10;
    0x00; 0x00; 0x00; 0x00; 0x00; 0x00; 0x00; 0x00;
    0x00; 0x00; 0x00; 0x00; 0x00; 0x00; 0x00; 0x00;
    0x00; 0x00; 0x00; 0x00; 0x00; 0x00; 0x00; 0x00;
    0x00; 0x00; 0x00; 0x00; 0x00; 0x00; 0x00; 0x00;
    0x00; 0x00; 0x00; 0x00; 0x00; 0x00; 0x00; 0x00;
    0x00; 0x00; 0x00; 0x23; 0x00; 0x00; 0x00; 0x00;
    0x00; 0x00; 0x00; 0x00; 0x00; 0x00; 0x00; 0x00 ];
  (* block 0x0091 *)
  [ 0x23; 0x23; 0x0b; 0x00; 0x00; 0x00; 0x00; 0x00;
    0x00; 0x00; 0x00; 0x00; 0x00; 0x00; 0x00; 0x00;
    0x00; 0x00; 0x00; 0x00; 0x00; 0x00; 0x00; 0x00;
    0x00; 0x00; 0x00; 0x00; 0x00; 0x00; 0x00; 0x00;
    0x00; 0x00; 0x00; 0x00; 0x00; 0x00; 0x00; 0x00;
    0x00; 0x00; 0x00; 0x00; 0x00; 0x00; 0x00; 0x00;
    0x00; 0x00; 0x00; 0x0b; 0x0b; 0x0b; 0x23; 0x23;
    0x23; 0x23; 0x23; 0x23; 0x23; 0x23; 0x23; 0x0b ];
  (* block 0x0092 *)
  [ 0x23; 0x00; 0x09; 0x09; 0x00; 0x00; 0x00; 0x00;
    0x00; 0x23; 0x23; 0x23; 0x23; 0x00; 0x0b; 0x23;
    0x00; 0x00; 0x00; 0x00; 0x00; 0x00; 0x00; 0x00;
    0x00; 0x00; 0x00; 0x00; 0x00; 0x00; 0x00; 0x00;
    0x00; 0x00; 0x00; 0x00; 0x00; 0x00; 0x00; 0x00;
    0x00; 0x00; 0x00; 0x00; 0x00; 0x00; 0x00; 0x00;
    0x00; 0x00; 0x00; 0x00; 0x00; 0x00; 0x00; 0x00;
    0x00; 0x00; 0x00; 0x00; 0x00; 0x00; 0x00; 0x00 ];
  (* block 0x0093 *)
  [ 0x00; 0x00; 0x00; 0x00; 0x00; 0x00; 0x00; 0x00;
    0x00; 0x00; 0x00; 0x00; 0x00; 0x00; 0x00; 0x00;
    0x00; 0x00; 0x00; 0x00; 0x00; 0x00; 0x00; 0x00;
    0x00; 0x00; 0x00; 0x00; 0x00; 0x00; 0x00; 0x00;
    0x00; 0x00; 0x00; 0x00; 0x00; 0x00; 0x00; 0x00;
    0x00; 0x00; 0x00; 0x00; 0x0b; 0x0b; 0x0b; 0x23;
    0x23; 0x23; 0x0b; 0x0b; 0x23; 0x23; 0x23; 0x23;
    0x00; 0x00; 0x00; 0x00; 0x00; 0x00; 0x23; 0x00 ];
  (* block 0x0094 *)
  [ 0x00; 0x23; 0x00; 0x00; 0x00; 0x00; 0x00; 0x00;
    0x00; 0x00; 0x00; 0x00; 0x00; 0x00; 0x00; 0x00;
    0x00; 0x00; 0x00; 0x00; 0x00; 0x00; 0x00; 0x00;
    0x00; 0x00; 0x00; 0x00; 0x00; 0x00; 0x00; 0x00;
    0x00; 0x00; 0x00; 0x00; 0x00; 0x00; 0x00; 0x00;
    0x00; 0x00; 0x00; 0x00; 0x00; 0x00; 0x00; 0x00;
    0x00; 0x00; 0x00; 0x00; 0x00; 0x00; 0x00; 0x00;
    0x00; 0x00; 0x00; 0x00; 0x00; 0x00; 0x00; 0x00 ];
  (* block 0x0095 *)
  [ 0x00; 0x00; 0x00; 0x00; 0x00; 0x00; 0x00; 0x00;
    0x00; 0x00; 0x00; 0x00; 0x00; 0x00; 0x00; 0x00;
    0x00; 0x00; 0x00; 0x00; 0x00; 0x00; 0x00; 0x00;
    0x00; 0x00; 0x00; 0x00; 0x00; 0x00; 0x00; 0x23;
    0x0b; 0x0b; 0x0b; 0x23; 0x23; 0x23; 0x23; 0x23;
    0x23; 0x23; 0x23; 0x00; 0x00; 0x00; 0x00; 0x00;
    0x00; 0x00; 0x00; 0x00; 0x00; 0x00; 0x00; 0x00;
    0x00; 0x00; 0x00; 0x00; 0x00; 0x00; 0x00; 0x00 ];
  (* block 0x0096 *)
  [ 0x23; 0x23; 0x0b; 0x0b; 0x00; 0x00; 0x00; 0x00;
    0x00; 0x00; 0x00; 0x00; 0x00; 0x00; 0x00; 0x00;
    0x00; 0x00; 0x00; 0x00; 0x00; 0x00; 0x00; 0x00;
    0x00; 0x00; 0x00; 0x00; 0x00; 0x00; 0x00; 0x00;
    0x00; 0x00; 0x00; 0x00; 0x00; 0x00; 0x00; 0x00;
    0x00; 0x00; 0x00; 0x00; 0x00; 0x00; 0x00; 0x00;
    0x00; 0x00; 0x00; 0x00; 0x00; 0x00; 0x00; 0x00;
    0x00; 0x00; 0x00; 0x23; 0x23; 0x00; 0x23; 0x0b ];
  (* block 0x0097 *)
  [ 0x23; 0x0b; 0x0b; 0x0b; 0x0b; 0x00; 0x00; 0x0b;
    0x0b; 0x00; 0x00; 0x0b; 0x0b; 0x23; 0x00; 0x00;
    0x00; 0x00; 0x00; 0x00; 0x00; 0x00; 0x00; 0x23;
    0x00; 0x00; 0x00; 0x00; 0x00; 0x00; 0x00; 0x00;
    0x00; 0x00; 0x0b; 0x0b; 0x00; 0x00; 0x23; 0x23;
    0x23; 0x23; 0x23; 0x23; 0x23; 0x00; 0x00; 0x00;
    0x23; 0x23; 0x23; 0x23; 0x23; 0x00; 0x00; 0x00;
    0x00; 0x00; 0x00; 0x00; 0x00; 0x00; 0x00; 0x00 ];
  (* block 0x0098 *)
  [ 0x10; 0x10; 0x10; 0x10; 0x10; 0x10; 0x10; 0x10;
    0x10; 0x10; 0x00; 0x10; 0x00; 0x00; 0x10; 0x00;
    0x10; 0x10; 0x10; 0x10; 0x10; 0x10; 0x10; 0x10;
    0x10; 0x10; 0x10; 0x10; 0x10; 0x10; 0x10; 0x10;
    0x10; 0x10; 0x10; 0x10; 0x10; 0x10; 0x10; 0x10;
    0x10; 0x10; 0x10; 0x10; 0x10; 0x10; 0x10; 0x10;
    0x10; 0x10; 0x10; 0x10; 0x10; 0x10; 0x00; 0x00;
    0x23; 0x0b; 0x0b; 0x23; 0x23; 0x23; 0x23; 0x23 ];
  (* block 0x0099 *)
  [ 0x23; 0x00; 0x23; 0x00; 0x00; 0x23; 0x00; 0x23;
    0x23; 0x23; 0x0b; 0x00; 0x0b; 0x0b; 0x23; 0x23;
    0x33; 0x09; 0x23; 0x00; 0x00; 0x00; 0x00; 0x00;
    0x00; 0x00; 0x00; 0x00; 0x00; 0x00; 0x00; 0x00;
    0x00; 0x23; 0x23; 0x00; 0x00; 0x00; 0x00; 0x00;
    0x00; 0x00; 0x00; 0x00; 0x00; 0x00; 0x00; 0x00;
    0x00; 0x00; 0x00; 0x00; 0x00; 0x00; 0x00; 0x00;
    0x00; 0x00; 0x00; 0x00; 0x00; 0x00; 0x00; 0x00 ];
  (* block 0x009a *)
  [ 0x00; 0x00; 0x00; 0x00; 0x00; 0x00; 0x00; 0x00;
    0x00; 0x00; 0x00; 0x00; 0x00; 0x00; 0x00; 0x00;
    0x00; 0x00; 0x00; 0x00; 0x00; 0x00; 0x00; 0x00;
    0x00; 0x00; 0x00; 0x00; 0x00; 0x00; 0x00; 0x00;
    0x00; 0x00; 0x00; 0x00; 0x00; 0x00; 0x00; 0x00;
    0x00; 0x00; 0x00; 0x00; 0x00; 0x00; 0x00; 0x00;
    0x00; 0x00; 0x00; 0x00; 0x00; 0x0b; 0x0b; 0x0b;
    0x23; 0x23; 0x23; 0x23; 0x23; 0x23; 0x23; 0x23 ];
  (* block 0x009b *)
  [ 0x0b; 0x0b; 0x23; 0x23; 0x23; 0x0b; 0x23; 0x00;
    0x00; 0x00; 0x00; 0x00; 0x00; 0x00; 0x00; 0x00;
    0x00; 0x00; 0x00; 0x00; 0x00; 0x00; 0x00; 0x00;
    0x00; 0x00; 0x00; 0x00; 0x00; 0x00; 0x23; 0x00;
    0x00; 0x00; 0x00; 0x00; 0x00; 0x00; 0x00; 0x00;
    0x00; 0x00; 0x00; 0x00; 0x00; 0x00; 0x00; 0x00;
    0x00; 0x00; 0x00; 0x00; 0x00; 0x00; 0x00; 0x00;
    0x00; 0x00; 0x00; 0x00; 0x00; 0x00; 0x00; 0x00 ];
  (* block 0x009c *)
  [ 0x00; 0x00; 0x00; 0x00; 0x00; 0x00; 0x00; 0x00;
    0x00; 0x00; 0x00; 0x00; 0x00; 0x00; 0x00; 0x00;
    0x00; 0x00; 0x00; 0x00; 0x00; 0x00; 0x00; 0x00;
    0x00; 0x00; 0x00; 0x00; 0x00; 0x00; 0x00; 0x00;
    0x00; 0x00; 0x00; 0x00; 0x00; 0x00; 0x00; 0x00;
    0x00; 0x00; 0x00; 0x00; 0x00; 0x00; 0x00; 0x00;
    0x23; 0x0b; 0x0b; 0x23; 0x23; 0x23; 0x23; 0x23;
    0x23; 0x0b; 0x23; 0x0b; 0x0b; 0x23; 0x0b; 0x23 ];
  (* block 0x009d *)
  [ 0x23; 0x0b; 0x23; 0x23; 0x00; 0x00; 0x00; 0x00;
    0x00; 0x00; 0x00; 0x00; 0x00; 0x00; 0x00; 0x00;
    0x00; 0x00; 0x00; 0x00; 0x00; 0x00; 0x00; 0x00;
    0x00; 0x00; 0x00; 0x00; 0x00; 0x00; 0x00; 0x00;
    0x00; 0x00; 0x00; 0x00; 0x00; 0x00; 0x00; 0x00;
    0x00; 0x00; 0x00; 0x00; 0x00; 0x00; 0x00; 0x00;
    0x00; 0x00; 0x00; 0x00; 0x00; 0x00; 0x00; 0x00;
    0x00; 0x00; 0x00; 0x00; 0x00; 0x00; 0x00; 0x00 ];
  (* block 0x009e *)
  [ 0x00; 0x00; 0x00; 0x00; 0x00; 0x00; 0x00; 0x00;
    0x00; 0x00; 0x00; 0x00; 0x00; 0x00; 0x00; 0x00;
    0x00; 0x00; 0x00; 0x00; 0x00; 0x00; 0x00; 0x00;
    0x00; 0x00; 0x00; 0x00; 0x00; 0x00; 0x00; 0x00;
    0x00; 0x00; 0x00; 0x00; 0x00; 0x00; 0x00; 0x00;
    0x00; 0x00; 0x00; 0x00; 0x00; 0x00; 0x00; 0x23;
    0x0b; 0x0b; 0x23; 0x23; 0x23; 0x23; 0x00; 0x00;
    0x0b; 0x0b; 0x0b; 0x0b; 0x23; 0x23; 0x0b; 0x23 ];
  (* block 0x009f *)
  [ 0x23; 0x00; 0x00; 0x00; 0x00; 0x00; 0x00; 0x00;
    0x00; 0x00; 0x00; 0x00; 0x00; 0x00; 0x00; 0x00;
    0x00; 0x00; 0x00; 0x00; 0x00; 0x00; 0x00; 0x00;
    0x00; 0x00; 0x00; 0x00; 0x23; 0x23; 0x00; 0x00;
    0x00; 0x00; 0x00; 0x00; 0x00; 0x00; 0x00; 0x00;
    0x00; 0x00; 0x00; 0x00; 0x00; 0x00; 0x00; 0x00;
    0x00; 0x00; 0x00; 0x00; 0x00; 0x00; 0x00; 0x00;
    0x00; 0x00; 0x00; 0x00; 0x00; 0x00; 0x00; 0x00 ];
  (* block 0x00a0 *)
  [ 0x00; 0x00; 0x00; 0x00; 0x00; 0x00; 0x00; 0x00;
    0x00; 0x00; 0x00; 0x00; 0x00; 0x00; 0x00; 0x00;
    0x00; 0x00; 0x00; 0x00; 0x00; 0x00; 0x00; 0x00;
    0x00; 0x00; 0x00; 0x00; 0x00; 0x00; 0x00; 0x00;
    0x00; 0x00; 0x00; 0x00; 0x00; 0x00; 0x00; 0x00;
    0x00; 0x00; 0x00; 0x00; 0x00; 0x00; 0x00; 0x00;
    0x0b; 0x0b; 0x0b; 0x23; 0x23; 0x23; 0x23; 0x23;
    0x23; 0x23; 0x23; 0x0b; 0x0b; 0x23; 0x0b; 0x23 ];
  (* block 0x00a1 *)
  [ 0x23; 0x00; 0x00; 0x00; 0x00; 0x00; 0x00; 0x00;
    0x00; 0x00; 0x00; 0x00; 0x00; 0x00; 0x00; 0x00;
    0x00; 0x00; 0x00; 0x00; 0x00; 0x00; 0x00; 0x00;
    0x00; 0x00; 0x00; 0x00; 0x00; 0x00; 0x00; 0x00;
    0x00; 0x00; 0x00; 0x00; 0x00; 0x00; 0x00; 0x00;
    0x00; 0x00; 0x00; 0x00; 0x00; 0x00; 0x00; 0x00;
    0x00; 0x00; 0x00; 0x00; 0x00; 0x00; 0x00; 0x00;
    0x00; 0x00; 0x00; 0x00; 0x00; 0x00; 0x00; 0x00 ];
  (* block 0x00a2 *)
  [ 0x00; 0x00; 0x00; 0x00; 0x00; 0x00; 0x00; 0x00;
    0x00; 0x00; 0x00; 0x00; 0x00; 0x00; 0x00; 0x00;
    0x00; 0x00; 0x00; 0x00; 0x00; 0x00; 0x00; 0x00;
    0x00; 0x00; 0x00; 0x00; 0x00; 0x00; 0x00; 0x00;
    0x00; 0x00; 0x00; 0x00; 0x00; 0x00; 0x00; 0x00;
    0x00; 0x00; 0x00; 0x23; 0x0b; 0x23; 0x0b; 0x0b;
    0x23; 0x23; 0x23; 0x23; 0x23; 0x23; 0x23; 0x23;
    0x00; 0x00; 0x00; 0x00; 0x00; 0x00; 0x00; 0x00 ];
  (* block 0x00a3 *)
  [ 0x00; 0x00; 0x00; 0x00; 0x00; 0x00; 0x00; 0x00;
    0x00; 0x00; 0x00; 0x00; 0x00; 0x00; 0x00; 0x00;
    0x00; 0x00; 0x00; 0x00; 0x00; 0x00; 0x00; 0x00;
    0x00; 0x00; 0x00; 0x00; 0x00; 0x23; 0x0b; 0x23;
    0x00; 0x00; 0x23; 0x23; 0x23; 0x23; 0x0b; 0x23;
    0x23; 0x23; 0x23; 0x23; 0x00; 0x00; 0x00; 0x00;
    0x00; 0x00; 0x00; 0x00; 0x00; 0x00; 0x00; 0x00;
    0x00; 0x00; 0x00; 0x00; 0x00; 0x00; 0x00; 0x00 ];
  (* block 0x00a4 *)
  [ 0x00; 0x00; 0x00; 0x00; 0x00; 0x00; 0x00; 0x00;
    0x00; 0x00; 0x00; 0x00; 0x00; 0x00; 0x00; 0x00;
    0x00; 0x00; 0x00; 0x00; 0x00; 0x00; 0x00; 0x00;
    0x00; 0x00; 0x00; 0x00; 0x00; 0x00; 0x00; 0x00;
    0x00; 0x00; 0x00; 0x00; 0x00; 0x00; 0x00; 0x00;
    0x00; 0x00; 0x00; 0x00; 0x0b; 0x0b; 0x0b; 0x23;
    0x23; 0x23; 0x23; 0x23; 0x23; 0x23; 0x23; 0x23;
    0x0b; 0x23; 0x23; 0x00; 0x00; 0x00; 0x00; 0x00 ];
  (* block 0x00a5 *)
  [ 0x10; 0x10; 0x10; 0x10; 0x10; 0x10; 0x10; 0x00;
    0x00; 0x10; 0x00; 0x00; 0x10; 0x10; 0x10; 0x10;
    0x10; 0x10; 0x10; 0x10; 0x00; 0x10; 0x10; 0x00;
    0x10; 0x10; 0x10; 0x10; 0x10; 0x10; 0x10; 0x10;
    0x10; 0x10; 0x10; 0x10; 0x10; 0x10; 0x10; 0x10;
    0x10; 0x10; 0x10; 0x10; 0x10; 0x10; 0x10; 0x10;
    0x23; 0x0b; 0x0b; 0x0b; 0x0b; 0x0b; 0x00; 0x0b;
    0x0b; 0x00; 0x00; 0x23; 0x23; 0x23; 0x33; 0x09 ];
  (* block 0x00a6 *)
  [ 0x0b; 0x09; 0x0b; 0x23; 0x00; 0x00; 0x00; 0x00;
    0x00; 0x00; 0x00; 0x00; 0x00; 0x00; 0x00; 0x00;
    0x00; 0x00; 0x00; 0x00; 0x00; 0x00; 0x00; 0x00;
    0x00; 0x00; 0x00; 0x00; 0x00; 0x00; 0x00; 0x00;
    0x00; 0x00; 0x00; 0x00; 0x00; 0x00; 0x00; 0x00;
    0x00; 0x00; 0x00; 0x00; 0x00; 0x00; 0x00; 0x00;
    0x00; 0x00; 0x00; 0x00; 0x00; 0x00; 0x00; 0x00;
    0x00; 0x00; 0x00; 0x00; 0x00; 0x00; 0x00; 0x00 ];
  (* block 0x00a7 *)
  [ 0x00; 0x00; 0x00; 0x00; 0x00; 0x00; 0x00; 0x00;
    0x00; 0x00; 0x00; 0x00; 0x00; 0x00; 0x00; 0x00;
    0x00; 0x0b; 0x0b; 0x0b; 0x23; 0x23; 0x23; 0x23;
    0x00; 0x00; 0x23; 0x23; 0x0b; 0x0b; 0x0b; 0x0b;
    0x23; 0x00; 0x00; 0x00; 0x0b; 0x00; 0x00; 0x00;
    0x00; 0x00; 0x00; 0x00; 0x00; 0x00; 0x00; 0x00;
    0x00; 0x00; 0x00; 0x00; 0x00; 0x00; 0x00; 0x00;
    0x00; 0x00; 0x00; 0x00; 0x00; 0x00; 0x00; 0x00 ];
  (* block 0x00a8 *)
  [ 0x10; 0x23; 0x23; 0x23; 0x23; 0x23; 0x23; 0x23;
    0x23; 0x23; 0x23; 0x10; 0x10; 0x10; 0x10; 0x10;
    0x10; 0x10; 0x10; 0x10; 0x10; 0x10; 0x10; 0x10;
    0x10; 0x10; 0x10; 0x10; 0x10; 0x10; 0x10; 0x10;
    0x10; 0x10; 0x10; 0x10; 0x10; 0x10; 0x10; 0x10;
    0x10; 0x10; 0x10; 0x10; 0x10; 0x10; 0x10; 0x10;
    0x10; 0x10; 0x10; 0x23; 0x23; 0x23; 0x23; 0x23;
    0x23; 0x0b; 0x00; 0x23; 0x23; 0x23; 0x23; 0x00 ];
  (* block 0x00a9 *)
  [ 0x00; 0x00; 0x00; 0x00; 0x00; 0x00; 0x00; 0x33;
    0x00; 0x00; 0x00; 0x00; 0x00; 0x00; 0x00; 0x00;
    0x10; 0x23; 0x23; 0x23; 0x23; 0x23; 0x23; 0x0b;
    0x0b; 0x23; 0x23; 0x23; 0x10; 0x10; 0x10; 0x10;
    0x10; 0x10; 0x10; 0x10; 0x10; 0x10; 0x10; 0x10;
    0x10; 0x10; 0x10; 0x10; 0x10; 0x10; 0x10; 0x10;
    0x10; 0x10; 0x10; 0x10; 0x10; 0x10; 0x10; 0x10;
    0x10; 0x10; 0x10; 0x10; 0x10; 0x10; 0x10; 0x10 ];
  (* block 0x00aa *)
  [ 0x10; 0x10; 0x10; 0x10; 0x09; 0x09; 0x09; 0x09;
    0x09; 0x09; 0x23; 0x23; 0x23; 0x23; 0x23; 0x23;
    0x23; 0x23; 0x23; 0x23; 0x23; 0x23; 0x23; 0x0b;
    0x23; 0x33; 0x00; 0x00; 0x00; 0x00; 0x00; 0x00;
    0x00; 0x00; 0x00; 0x00; 0x00; 0x00; 0x00; 0x00;
    0x00; 0x00; 0x00; 0x00; 0x00; 0x00; 0x00; 0x00;
    0x00; 0x00; 0x00; 0x00; 0x00; 0x00; 0x00; 0x00;
    0x00; 0x00; 0x00; 0x00; 0x00; 0x00; 0x00; 0x00 ];
  (* block 0x00ab *)
  [ 0x00; 0x00; 0x00; 0x00; 0x00; 0x00; 0x00; 0x00;
    0x00; 0x00; 0x00; 0x00; 0x00; 0x00; 0x00; 0x00;
    0x00; 0x00; 0x00; 0x00; 0x00; 0x00; 0x00; 0x00;
    0x00; 0x00; 0x00; 0x00; 0x00; 0x00; 0x00; 0x00;
    0x23; 0x0b; 0x23; 0x23; 0x23; 0x0b; 0x23; 0x0b;
    0x00; 0x00; 0x00; 0x00; 0x00; 0x00; 0x00; 0x00;
    0x00; 0x00; 0x00; 0x00; 0x00; 0x00; 0x00; 0x00;
    0x00; 0x00; 0x00; 0x00; 0x00; 0x00; 0x00; 0x00 ];
  (* block 0x00ac *)
  [ 0x00; 0x00; 0x00; 0x00; 0x00; 0x00; 0x00; 0x00;
    0x00; 0x00; 0x00; 0x00; 0x00; 0x00; 0x00; 0x00;
    0x00; 0x00; 0x00; 0x00; 0x00; 0x00; 0x00; 0x00;
    0x00; 0x00; 0x00; 0x00; 0x00; 0x00; 0x00; 0x00;
    0x00; 0x00; 0x00; 0x00; 0x00; 0x00; 0x00; 0x00;
    0x00; 0x00; 0x00; 0x00; 0x00; 0x00; 0x00; 0x0b;
    0x23; 0x23; 0x23; 0x23; 0x23; 0x23; 0x23; 0x00;
    0x23; 0x23; 0x23; 0x23; 0x23; 0x23; 0x0b; 0x23 ];
  (* block 0x00ad *)
  [ 0x00; 0x00; 0x00; 0x00; 0x00; 0x00; 0x00; 0x00;
    0x00; 0x00; 0x00; 0x00; 0x00; 0x00; 0x00; 0x00;
    0x00; 0x00; 0x23; 0x23; 0x23; 0x23; 0x23; 0x23;
    0x23; 0x23; 0x23; 0x23; 0x23; 0x23; 0x23; 0x23;
    0x23; 0x23; 0x23; 0x23; 0x23; 0x23; 0x23; 0x23;
    0x00; 0x0b; 0x23; 0x23; 0x23; 0x23; 0x23; 0x23;
    0x23; 0x0b; 0x23; 0x23; 0x0b; 0x23; 0x23; 0x00;
    0x00; 0x00; 0x00; 0x00; 0x00; 0x00; 0x00; 0x00 ];
  (* block 0x00ae *)
  [ 0x00; 0x00; 0x00; 0x00; 0x00; 0x00; 0x00; 0x00;
    0x00; 0x00; 0x00; 0x00; 0x00; 0x00; 0x00; 0x00;
    0x00; 0x00; 0x00; 0x00; 0x00; 0x00; 0x00; 0x00;
    0x00; 0x00; 0x00; 0x00; 0x00; 0x00; 0x00; 0x00;
    0x00; 0x00; 0x00; 0x00; 0x00; 0x00; 0x00; 0x00;
    0x00; 0x00; 0x00; 0x00; 0x00; 0x00; 0x00; 0x00;
    0x00; 0x23; 0x23; 0x23; 0x23; 0x23; 0x23; 0x00;
    0x00; 0x00; 0x23; 0x00; 0x23; 0x23; 0x00; 0x23 ];
  (* block 0x00af *)
  [ 0x23; 0x23; 0x23; 0x23; 0x23; 0x23; 0x09; 0x23;
    0x00; 0x00; 0x00; 0x00; 0x00; 0x00; 0x00; 0x00;
    0x00; 0x00; 0x00; 0x00; 0x00; 0x00; 0x00; 0x00;
    0x00; 0x00; 0x00; 0x00; 0x00; 0x00; 0x00; 0x00;
    0x00; 0x00; 0x00; 0x00; 0x00; 0x00; 0x00; 0x00;
    0x00; 0x00; 0x00; 0x00; 0x00; 0x00; 0x00; 0x00;
    0x00; 0x00; 0x00; 0x00; 0x00; 0x00; 0x00; 0x00;
    0x00; 0x00; 0x00; 0x00; 0x00; 0x00; 0x00; 0x00 ];
  (* block 0x00b0 *)
  [ 0x00; 0x00; 0x00; 0x00; 0x00; 0x00; 0x00; 0x00;
    0x00; 0x00; 0x0b; 0x0b; 0x0b; 0x0b; 0x0b; 0x00;
    0x23; 0x23; 0x00; 0x0b; 0x0b; 0x23; 0x0b; 0x23;
    0x00; 0x00; 0x00; 0x00; 0x00; 0x00; 0x00; 0x00;
    0x00; 0x00; 0x00; 0x00; 0x00; 0x00; 0x00; 0x00;
    0x00; 0x00; 0x00; 0x00; 0x00; 0x00; 0x00; 0x00;
    0x00; 0x00; 0x00; 0x00; 0x00; 0x00; 0x00; 0x00;
    0x00; 0x00; 0x00; 0x00; 0x00; 0x00; 0x00; 0x00 ];
  (* block 0x00b1 *)
  [ 0x00; 0x00; 0x00; 0x00; 0x00; 0x00; 0x00; 0x00;
    0x00; 0x00; 0x00; 0x00; 0x00; 0x00; 0x00; 0x00;
    0x00; 0x00; 0x00; 0x00; 0x00; 0x00; 0x00; 0x00;
    0x00; 0x00; 0x00; 0x00; 0x00; 0x00; 0x00; 0x00;
    0x00; 0x00; 0x00; 0x00; 0x00; 0x00; 0x00; 0x00;
    0x00; 0x00; 0x00; 0x00; 0x00; 0x00; 0x00; 0x00;
    0x00; 0x00; 0x00; 0x23; 0x23; 0x0b; 0x0b; 0x00;
    0x00; 0x00; 0x00; 0x00; 0x00; 0x00; 0x00; 0x00 ];
  (* block 0x00b2 *)
  [ 0x23; 0x23; 0x09; 0x0b; 0x10; 0x10; 0x10; 0x10;
    0x10; 0x10; 0x10; 0x10; 0x10; 0x10; 0x10; 0x10;
    0x10; 0x00; 0x10; 0x10; 0x10; 0x10; 0x10; 0x10;
    0x10; 0x10; 0x10; 0x10; 0x10; 0x10; 0x10; 0x10;
    0x10; 0x10; 0x10; 0x10; 0x10; 0x10; 0x10; 0x10;
    0x10; 0x10; 0x10; 0x10; 0x10; 0x10; 0x10; 0x10;
    0x10; 0x10; 0x10; 0x10; 0x0b; 0x0b; 0x23; 0x23;
    0x23; 0x23; 0x23; 0x00; 0x00; 0x00; 0x0b; 0x0b ];
  (* block 0x00b3 *)
  [ 0x23; 0x23; 0x33; 0x00; 0x00; 0x00; 0x00; 0x00;
    0x00; 0x00; 0x00; 0x00; 0x00; 0x00; 0x00; 0x00;
    0x00; 0x00; 0x00; 0x00; 0x00; 0x00; 0x00; 0x00;
    0x00; 0x00; 0x23; 0x00; 0x00; 0x00; 0x00; 0x00;
    0x00; 0x00; 0x00; 0x00; 0x00; 0x00; 0x00; 0x00;
    0x00; 0x00; 0x00; 0x00; 0x00; 0x00; 0x00; 0x00;
    0x00; 0x00; 0x00; 0x00; 0x00; 0x00; 0x00; 0x00;
    0x00; 0x00; 0x00; 0x00; 0x00; 0x00; 0x00; 0x00 ];
  (* block 0x00b4 *)
  [ 0x00; 0x00; 0x00; 0x00; 0x00; 0x00; 0x00; 0x00;
    0x00; 0x00; 0x00; 0x00; 0x00; 0x00; 0x00; 0x00;
    0x00; 0x00; 0x00; 0x00; 0x00; 0x00; 0x00; 0x00;
    0x00; 0x00; 0x00; 0x00; 0x00; 0x00; 0x00; 0x00;
    0x00; 0x00; 0x00; 0x00; 0x00; 0x00; 0x00; 0x00;
    0x00; 0x00; 0x00; 0x00; 0x00; 0x00; 0x00; 0x00;
    0x02; 0x02; 0x02; 0x02; 0x02; 0x02; 0x02; 0x02;
    0x02; 0x02; 0x02; 0x02; 0x02; 0x02; 0x02; 0x02 ];
  (* block 0x00b5 *)
  [ 0x23; 0x00; 0x00; 0x00; 0x00; 0x00; 0x00; 0x23;
    0x23; 0x23; 0x23; 0x23; 0x23; 0x23; 0x23; 0x23;
    0x23; 0x23; 0x23; 0x23; 0x23; 0x23; 0x00; 0x00;
    0x00; 0x00; 0x00; 0x00; 0x00; 0x00; 0x00; 0x00;
    0x00; 0x00; 0x00; 0x00; 0x00; 0x00; 0x00; 0x00;
    0x00; 0x00; 0x00; 0x00; 0x00; 0x00; 0x00; 0x00;
    0x00; 0x00; 0x00; 0x00; 0x00; 0x00; 0x00; 0x00;
    0x00; 0x00; 0x00; 0x00; 0x00; 0x00; 0x00; 0x00 ];
  (* block 0x00b6 *)
  [ 0x00; 0x00; 0x00; 0x00; 0x00; 0x00; 0x00; 0x00;
    0x00; 0x00; 0x00; 0x00; 0x00; 0x00; 0x00; 0x00;
    0x00; 0x00; 0x00; 0x00; 0x00; 0x00; 0x00; 0x00;
    0x00; 0x00; 0x00; 0x00; 0x00; 0x00; 0x23; 0x23;
    0x23; 0x23; 0x23; 0x23; 0x23; 0x23; 0x23; 0x23;
    0x23; 0x23; 0x0b; 0x0b; 0x0b; 0x23; 0x23; 0x23;
    0x00; 0x00; 0x00; 0x00; 0x00; 0x00; 0x00; 0x00;
    0x00; 0x00; 0x00; 0x00; 0x00; 0x00; 0x00; 0x00 ];
  (* block 0x00b7 *)
  [ 0x00; 0x00; 0x00; 0x00; 0x00; 0x00; 0x00; 0x00;
    0x00; 0x00; 0x00; 0x00; 0x00; 0x00; 0x00; 0x00;
    0x00; 0x00; 0x00; 0x00; 0x00; 0x00; 0x00; 0x00;
    0x00; 0x00; 0x00; 0x00; 0x00; 0x00; 0x00; 0x00;
    0x00; 0x00; 0x00; 0x00; 0x00; 0x00; 0x00; 0x00;
    0x00; 0x00; 0x00; 0x00; 0x00; 0x00; 0x00; 0x00;
    0x23; 0x23; 0x23; 0x23; 0x23; 0x00; 0x00; 0x00;
    0x00; 0x00; 0x00; 0x00; 0x00; 0x00; 0x00; 0x00 ];
  (* block 0x00b8 *)
  [ 0x00; 0x00; 0x00; 0x00; 0x00; 0x00; 0x00; 0x00;
    0x00; 0x00; 0x00; 0x00; 0x00; 0x00; 0x00; 0x00;
    0x00; 0x00; 0x00; 0x00; 0x00; 0x00; 0x00; 0x00;
    0x00; 0x00; 0x00; 0x00; 0x00; 0x00; 0x00; 0x00;
    0x00; 0x00; 0x00; 0x00; 0x00; 0x00; 0x00; 0x00;
    0x00; 0x00; 0x00; 0x00; 0x00; 0x00; 0x00; 0x00;
    0x23; 0x23; 0x23; 0x23; 0x23; 0x23; 0x23; 0x00;
    0x00; 0x00; 0x00; 0x00; 0x00; 0x00; 0x00; 0x00 ];
  (* block 0x00b9 *)
  [ 0x00; 0x00; 0x00; 0x00; 0x00; 0x00; 0x00; 0x00;
    0x00; 0x00; 0x00; 0x00; 0x00; 0x00; 0x00; 0x00;
    0x00; 0x00; 0x00; 0x00; 0x00; 0x00; 0x00; 0x00;
    0x00; 0x00; 0x00; 0x00; 0x00; 0x00; 0x00; 0x00;
    0x00; 0x00; 0x00; 0x0d; 0x00; 0x00; 0x00; 0x0d;
    0x0d; 0x0d; 0x0d; 0x00; 0x00; 0x00; 0x00; 0x00;
    0x00; 0x00; 0x00; 0x00; 0x00; 0x00; 0x00; 0x00;
    0x00; 0x00; 0x00; 0x00; 0x00; 0x00; 0x00; 0x00 ];
  (* block 0x00ba *)
  [ 0x00; 0x00; 0x00; 0x00; 0x00; 0x00; 0x00; 0x00;
    0x00; 0x00; 0x00; 0x00; 0x00; 0x00; 0x00; 0x23;
    0x00; 0x0b; 0x0b; 0x0b; 0x0b; 0x0b; 0x0b; 0x0b;
    0x0b; 0x0b; 0x0b; 0x0b; 0x0b; 0x0b; 0x0b; 0x0b;
    0x0b; 0x0b; 0x0b; 0x0b; 0x0b; 0x0b; 0x0b; 0x0b;
    0x0b; 0x0b; 0x0b; 0x0b; 0x0b; 0x0b; 0x0b; 0x0b;
    0x0b; 0x0b; 0x0b; 0x0b; 0x0b; 0x0b; 0x0b; 0x0b;
    0x0b; 0x0b; 0x0b; 0x0b; 0x0b; 0x0b; 0x0b; 0x0b ];
  (* block 0x00bb *)
  [ 0x0b; 0x0b; 0x0b; 0x0b; 0x0b; 0x0b; 0x0b; 0x0b;
    0x00; 0x00; 0x00; 0x00; 0x00; 0x00; 0x00; 0x23;
    0x23; 0x23; 0x23; 0x00; 0x00; 0x00; 0x00; 0x00;
    0x00; 0x00; 0x00; 0x00; 0x00; 0x00; 0x00; 0x00;
    0x00; 0x00; 0x00; 0x00; 0x00; 0x00; 0x00; 0x00;
    0x00; 0x00; 0x00; 0x00; 0x00; 0x00; 0x00; 0x00;
    0x00; 0x00; 0x00; 0x00; 0x00; 0x00; 0x00; 0x00;
    0x00; 0x00; 0x00; 0x00; 0x00; 0x00; 0x00; 0x00 ];
  (* block 0x00bc *)
  [ 0x00; 0x00; 0x00; 0x00; 0x00; 0x00; 0x00; 0x00;
    0x00; 0x00; 0x00; 0x00; 0x00; 0x00; 0x00; 0x00;
    0x00; 0x00; 0x00; 0x00; 0x00; 0x00; 0x00; 0x00;
    0x00; 0x00; 0x00; 0x00; 0x00; 0x00; 0x00; 0x00;
    0x00; 0x00; 0x00; 0x00; 0x23; 0x00; 0x00; 0x00;
    0x00; 0x00; 0x00; 0x00; 0x00; 0x00; 0x00; 0x00;
    0x23; 0x23; 0x00; 0x00; 0x00; 0x00; 0x00; 0x00;
    0x00; 0x00; 0x00; 0x00; 0x00; 0x00; 0x00; 0x00 ];
  (* block 0x00bd *)
  [ 0x00; 0x00; 0x00; 0x00; 0x00; 0x00; 0x00; 0x00;
    0x00; 0x00; 0x00; 0x00; 0x00; 0x00; 0x00; 0x00;
    0x00; 0x00; 0x00; 0x00; 0x00; 0x00; 0x00; 0x00;
    0x00; 0x00; 0x00; 0x00; 0x00; 0x23; 0x23; 0x00;
    0x02; 0x02; 0x02; 0x02; 0x00; 0x00; 0x00; 0x00;
    0x00; 0x00; 0x00; 0x00; 0x00; 0x00; 0x00; 0x00;
    0x00; 0x00; 0x00; 0x00; 0x00; 0x00; 0x00; 0x00;
    0x00; 0x00; 0x00; 0x00; 0x00; 0x00; 0x00; 0x00 ];
  (* block 0x00be *)
  [ 0x23; 0x23; 0x23; 0x23; 0x23; 0x23; 0x23; 0x23;
    0x23; 0x23; 0x23; 0x23; 0x23; 0x23; 0x23; 0x23;
    0x23; 0x23; 0x23; 0x23; 0x23; 0x23; 0x23; 0x23;
    0x23; 0x23; 0x23; 0x23; 0x23; 0x23; 0x23; 0x23;
    0x23; 0x23; 0x23; 0x23; 0x23; 0x23; 0x23; 0x23;
    0x23; 0x23; 0x23; 0x23; 0x23; 0x23; 0x00; 0x00;
    0x23; 0x23; 0x23; 0x23; 0x23; 0x23; 0x23; 0x23;
    0x23; 0x23; 0x23; 0x23; 0x23; 0x23; 0x23; 0x23 ];
  (* block 0x00bf *)
  [ 0x23; 0x23; 0x23; 0x23; 0x23; 0x23; 0x23; 0x00;
    0x00; 0x00; 0x00; 0x00; 0x00; 0x00; 0x00; 0x00;
    0x00; 0x00; 0x00; 0x00; 0x00; 0x00; 0x00; 0x00;
    0x00; 0x00; 0x00; 0x00; 0x00; 0x00; 0x00; 0x00;
    0x00; 0x00; 0x00; 0x00; 0x00; 0x00; 0x00; 0x00;
    0x00; 0x00; 0x00; 0x00; 0x00; 0x00; 0x00; 0x00;
    0x00; 0x00; 0x00; 0x00; 0x00; 0x00; 0x00; 0x00;
    0x00; 0x00; 0x00; 0x00; 0x00; 0x00; 0x00; 0x00 ];
  (* block 0x00c0 *)
  [ 0x00; 0x00; 0x00; 0x00; 0x00; 0x00; 0x00; 0x00;
    0x00; 0x00; 0x00; 0x00; 0x00; 0x00; 0x00; 0x00;
    0x00; 0x00; 0x00; 0x00; 0x00; 0x00; 0x00; 0x00;
    0x00; 0x00; 0x00; 0x00; 0x00; 0x00; 0x00; 0x00;
    0x00; 0x00; 0x00; 0x00; 0x00; 0x23; 0x23; 0x23;
    0x23; 0x23; 0x00; 0x00; 0x00; 0x23; 0x23; 0x23;
    0x23; 0x23; 0x23; 0x02; 0x02; 0x02; 0x02; 0x02;
    0x02; 0x02; 0x02; 0x23; 0x23; 0x23; 0x23; 0x23 ];
  (* block 0x00c1 *)
  [ 0x23; 0x23; 0x23; 0x00; 0x00; 0x23; 0x23; 0x23;
    0x23; 0x23; 0x23; 0x23; 0x00; 0x00; 0x00; 0x00;
    0x00; 0x00; 0x00; 0x00; 0x00; 0x00; 0x00; 0x00;
    0x00; 0x00; 0x00; 0x00; 0x00; 0x00; 0x00; 0x00;
    0x00; 0x00; 0x00; 0x00; 0x00; 0x00; 0x00; 0x00;
    0x00; 0x00; 0x23; 0x23; 0x23; 0x23; 0x00; 0x00;
    0x00; 0x00; 0x00; 0x00; 0x00; 0x00; 0x00; 0x00;
    0x00; 0x00; 0x00; 0x00; 0x00; 0x00; 0x00; 0x00 ];
  (* block 0x00c2 *)
  [ 0x00; 0x00; 0x23; 0x23; 0x23; 0x00; 0x00; 0x00;
    0x00; 0x00; 0x00; 0x00; 0x00; 0x00; 0x00; 0x00;
    0x00; 0x00; 0x00; 0x00; 0x00; 0x00; 0x00; 0x00;
    0x00; 0x00; 0x00; 0x00; 0x00; 0x00; 0x00; 0x00;
    0x00; 0x00; 0x00; 0x00; 0x00; 0x00; 0x00; 0x00;
    0x00; 0x00; 0x00; 0x00; 0x00; 0x00; 0x00; 0x00;
    0x00; 0x00; 0x00; 0x00; 0x00; 0x00; 0x00; 0x00;
    0x00; 0x00; 0x00; 0x00; 0x00; 0x00; 0x00; 0x00 ];
  (* block 0x00c3 *)
  [ 0x23; 0x23; 0x23; 0x23; 0x23; 0x23; 0x23; 0x23;
    0x23; 0x23; 0x23; 0x23; 0x23; 0x23; 0x23; 0x23;
    0x23; 0x23; 0x23; 0x23; 0x23; 0x23; 0x23; 0x23;
    0x23; 0x23; 0x23; 0x23; 0x23; 0x23; 0x23; 0x23;
    0x23; 0x23; 0x23; 0x23; 0x23; 0x23; 0x23; 0x23;
    0x23; 0x23; 0x23; 0x23; 0x23; 0x23; 0x23; 0x23;
    0x23; 0x23; 0x23; 0x23; 0x23; 0x23; 0x23; 0x00;
    0x00; 0x00; 0x00; 0x23; 0x23; 0x23; 0x23; 0x23 ];
  (* block 0x00c4 *)
  [ 0x23; 0x23; 0x23; 0x23; 0x23; 0x23; 0x23; 0x23;
    0x23; 0x23; 0x23; 0x23; 0x23; 0x23; 0x23; 0x23;
    0x23; 0x23; 0x23; 0x23; 0x23; 0x23; 0x23; 0x23;
    0x23; 0x23; 0x23; 0x23; 0x23; 0x23; 0x23; 0x23;
    0x23; 0x23; 0x23; 0x23; 0x23; 0x23; 0x23; 0x23;
    0x23; 0x23; 0x23; 0x23; 0x23; 0x00; 0x00; 0x00;
    0x00; 0x00; 0x00; 0x00; 0x00; 0x23; 0x00; 0x00;
    0x00; 0x00; 0x00; 0x00; 0x00; 0x00; 0x00; 0x00 ];
  (* block 0x00c5 *)
  [ 0x00; 0x00; 0x00; 0x00; 0x23; 0x00; 0x00; 0x00;
    0x00; 0x00; 0x00; 0x00; 0x00; 0x00; 0x00; 0x00;
    0x00; 0x00; 0x00; 0x00; 0x00; 0x00; 0x00; 0x00;
    0x00; 0x00; 0x00; 0x23; 0x23; 0x23; 0x23; 0x23;
    0x00; 0x23; 0x23; 0x23; 0x23; 0x23; 0x23; 0x23;
    0x23; 0x23; 0x23; 0x23; 0x23; 0x23; 0x23; 0x23;
    0x00; 0x00; 0x00; 0x00; 0x00; 0x00; 0x00; 0x00;
    0x00; 0x00; 0x00; 0x00; 0x00; 0x00; 0x00; 0x00 ];
  (* block 0x00c6 *)
  [ 0x23; 0x23; 0x23; 0x23; 0x23; 0x23; 0x23; 0x00;
    0x23; 0x23; 0x23; 0x23; 0x23; 0x23; 0x23; 0x23;
    0x23; 0x23; 0x23; 0x23; 0x23; 0x23; 0x23; 0x23;
    0x23; 0x00; 0x00; 0x23; 0x23; 0x23; 0x23; 0x23;
    0x23; 0x23; 0x00; 0x23; 0x23; 0x00; 0x23; 0x23;
    0x23; 0x23; 0x23; 0x00; 0x00; 0x00; 0x00; 0x00;
    0x00; 0x00; 0x00; 0x00; 0x00; 0x00; 0x00; 0x00;
    0x00; 0x00; 0x00; 0x00; 0x00; 0x00; 0x00; 0x00 ];
  (* block 0x00c7 *)
  [ 0x00; 0x00; 0x00; 0x00; 0x00; 0x00; 0x00; 0x00;
    0x00; 0x00; 0x00; 0x00; 0x00; 0x00; 0x00; 0x23;
    0x00; 0x00; 0x00; 0x00; 0x00; 0x00; 0x00; 0x00;
    0x00; 0x00; 0x00; 0x00; 0x00; 0x00; 0x00; 0x00;
    0x00; 0x00; 0x00; 0x00; 0x00; 0x00; 0x00; 0x00;
    0x00; 0x00; 0x00; 0x00; 0x00; 0x00; 0x00; 0x00;
    0x00; 0x00; 0x00; 0x00; 0x00; 0x00; 0x00; 0x00;
    0x00; 0x00; 0x00; 0x00; 0x00; 0x00; 0x00; 0x00 ];
  (* block 0x00c8 *)
  [ 0x00; 0x00; 0x00; 0x00; 0x00; 0x00; 0x00; 0x00;
    0x00; 0x00; 0x00; 0x00; 0x00; 0x00; 0x00; 0x00;
    0x00; 0x00; 0x00; 0x00; 0x00; 0x00; 0x00; 0x00;
    0x00; 0x00; 0x00; 0x00; 0x00; 0x00; 0x00; 0x00;
    0x00; 0x00; 0x00; 0x00; 0x00; 0x00; 0x00; 0x00;
    0x00; 0x00; 0x00; 0x00; 0x00; 0x00; 0x23; 0x00;
    0x00; 0x00; 0x00; 0x00; 0x00; 0x00; 0x00; 0x00;
    0x00; 0x00; 0x00; 0x00; 0x00; 0x00; 0x00; 0x00 ];
  (* block 0x00c9 *)
  [ 0x00; 0x00; 0x00; 0x00; 0x00; 0x00; 0x00; 0x00;
    0x00; 0x00; 0x00; 0x00; 0x00; 0x00; 0x00; 0x00;
    0x00; 0x00; 0x00; 0x00; 0x00; 0x00; 0x00; 0x00;
    0x00; 0x00; 0x00; 0x00; 0x00; 0x00; 0x00; 0x00;
    0x00; 0x00; 0x00; 0x00; 0x00; 0x00; 0x00; 0x00;
    0x00; 0x00; 0x00; 0x00; 0x23; 0x23; 0x23; 0x23;
    0x00; 0x00; 0x00; 0x00; 0x00; 0x00; 0x00; 0x00;
    0x00; 0x00; 0x00; 0x00; 0x00; 0x00; 0x00; 0x00 ];
  (* block 0x00ca *)
  [ 0x00; 0x00; 0x00; 0x00; 0x00; 0x00; 0x00; 0x00;
    0x00; 0x00; 0x00; 0x00; 0x00; 0x00; 0x00; 0x00;
    0x00; 0x00; 0x00; 0x00; 0x00; 0x00; 0x00; 0x00;
    0x00; 0x00; 0x00; 0x00; 0x00; 0x00; 0x00; 0x00;
    0x00; 0x00; 0x00; 0x00; 0x00; 0x00; 0x00; 0x00;
    0x00; 0x00; 0x00; 0x00; 0x00; 0x00; 0x23; 0x23;
    0x00; 0x00; 0x00; 0x00; 0x00; 0x00; 0x00; 0x00;
    0x00; 0x00; 0x00; 0x00; 0x00; 0x00; 0x00; 0x00 ];
  (* block 0x00cb *)
  [ 0x00; 0x00; 0x00; 0x00; 0x00; 0x00; 0x00; 0x00;
    0x00; 0x00; 0x00; 0x00; 0x00; 0x00; 0x00; 0x00;
    0x00; 0x00; 0x00; 0x00; 0x00; 0x00; 0x00; 0x00;
    0x00; 0x00; 0x00; 0x00; 0x00; 0x00; 0x00; 0x00;
    0x00; 0x00; 0x00; 0x23; 0x00; 0x00; 0x23; 0x00;
    0x00; 0x00; 0x00; 0x00; 0x00; 0x00; 0x23; 0x23;
    0x00; 0x00; 0x00; 0x00; 0x00; 0x23; 0x00; 0x00;
    0x00; 0x00; 0x00; 0x00; 0x00; 0x00; 0x00; 0x00 ];
  (* block 0x00cc *)
  [ 0x00; 0x00; 0x00; 0x00; 0x00; 0x00; 0x00; 0x00;
    0x00; 0x00; 0x00; 0x00; 0x00; 0x00; 0x00; 0x00;
    0x23; 0x23; 0x23; 0x23; 0x23; 0x23; 0x23; 0x00;
    0x00; 0x00; 0x00; 0x00; 0x00; 0x00; 0x00; 0x00;
    0x00; 0x00; 0x00; 0x00; 0x00; 0x00; 0x00; 0x00;
    0x00; 0x00; 0x00; 0x00; 0x00; 0x00; 0x00; 0x00;
    0x00; 0x00; 0x00; 0x00; 0x00; 0x00; 0x00; 0x00;
    0x00; 0x00; 0x00; 0x00; 0x00; 0x00; 0x00; 0x00 ];
  (* block 0x00cd *)
  [ 0x00; 0x00; 0x00; 0x00; 0x23; 0x23; 0x23; 0x23;
    0x23; 0x23; 0x23; 0x00; 0x00; 0x00; 0x00; 0x00;
    0x00; 0x00; 0x00; 0x00; 0x00; 0x00; 0x00; 0x00;
    0x00; 0x00; 0x00; 0x00; 0x00; 0x00; 0x00; 0x00;
    0x00; 0x00; 0x00; 0x00; 0x00; 0x00; 0x00; 0x00;
    0x00; 0x00; 0x00; 0x00; 0x00; 0x00; 0x00; 0x00;
    0x00; 0x00; 0x00; 0x00; 0x00; 0x00; 0x00; 0x00;
    0x00; 0x00; 0x00; 0x00; 0x00; 0x00; 0x00; 0x00 ];
  (* block 0x00ce *)
  [ 0x00; 0x00; 0x00; 0x00; 0x04; 0x00; 0x00; 0x00;
    0x00; 0x00; 0x00; 0x00; 0x00; 0x00; 0x00; 0x00;
    0x00; 0x00; 0x00; 0x00; 0x00; 0x00; 0x00; 0x00;
    0x00; 0x00; 0x00; 0x00; 0x00; 0x00; 0x00; 0x00;
    0x00; 0x00; 0x00; 0x00; 0x00; 0x00; 0x00; 0x00;
    0x00; 0x00; 0x00; 0x00; 0x04; 0x04; 0x04; 0x04;
    0x00; 0x00; 0x00; 0x00; 0x00; 0x00; 0x00; 0x00;
    0x00; 0x00; 0x00; 0x00; 0x00; 0x00; 0x00; 0x00 ];
  (* block 0x00cf *)
  [ 0x00; 0x00; 0x00; 0x00; 0x00; 0x00; 0x00; 0x00;
    0x00; 0x00; 0x00; 0x00; 0x00; 0x00; 0x00; 0x00;
    0x00; 0x00; 0x00; 0x00; 0x04; 0x04; 0x04; 0x04;
    0x04; 0x04; 0x04; 0x04; 0x04; 0x04; 0x04; 0x04;
    0x00; 0x00; 0x00; 0x00; 0x00; 0x00; 0x00; 0x00;
    0x00; 0x00; 0x00; 0x00; 0x00; 0x00; 0x00; 0x04;
    0x04; 0x00; 0x00; 0x00; 0x00; 0x00; 0x00; 0x00;
    0x00; 0x00; 0x00; 0x00; 0x00; 0x00; 0x00; 0x00 ];
  (* block 0x00d0 *)
  [ 0x04; 0x00; 0x00; 0x00; 0x00; 0x00; 0x00; 0x00;
    0x00; 0x00; 0x00; 0x00; 0x00; 0x00; 0x00; 0x04;
    0x04; 0x00; 0x00; 0x00; 0x00; 0x00; 0x00; 0x00;
    0x00; 0x00; 0x00; 0x00; 0x00; 0x00; 0x00; 0x00;
    0x00; 0x00; 0x00; 0x00; 0x00; 0x00; 0x00; 0x00;
    0x00; 0x00; 0x00; 0x00; 0x00; 0x00; 0x00; 0x00;
    0x00; 0x00; 0x00; 0x00; 0x00; 0x00; 0x04; 0x04;
    0x04; 0x04; 0x04; 0x04; 0x04; 0x04; 0x04; 0x04 ];
  (* block 0x00d1 *)
  [ 0x00; 0x00; 0x00; 0x00; 0x00; 0x00; 0x00; 0x00;
    0x00; 0x00; 0x00; 0x00; 0x00; 0x00; 0x00; 0x00;
    0x00; 0x00; 0x00; 0x00; 0x00; 0x00; 0x00; 0x00;
    0x00; 0x00; 0x00; 0x00; 0x00; 0x00; 0x00; 0x00;
    0x00; 0x00; 0x00; 0x00; 0x00; 0x00; 0x00; 0x00;
    0x00; 0x00; 0x00; 0x00; 0x00; 0x00; 0x00; 0x00;
    0x04; 0x04; 0x00; 0x00; 0x00; 0x00; 0x00; 0x00;
    0x00; 0x00; 0x00; 0x00; 0x00; 0x00; 0x04; 0x04 ];
  (* block 0x00d2 *)
  [ 0x00; 0x00; 0x00; 0x00; 0x00; 0x00; 0x00; 0x00;
    0x00; 0x00; 0x00; 0x00; 0x00; 0x00; 0x04; 0x00;
    0x00; 0x04; 0x04; 0x04; 0x04; 0x04; 0x04; 0x04;
    0x04; 0x04; 0x04; 0x00; 0x00; 0x00; 0x00; 0x00;
    0x00; 0x00; 0x00; 0x00; 0x00; 0x00; 0x00; 0x00;
    0x00; 0x00; 0x00; 0x00; 0x00; 0x00; 0x04; 0x04;
    0x04; 0x04; 0x04; 0x04; 0x04; 0x04; 0x04; 0x04;
    0x04; 0x04; 0x04; 0x04; 0x04; 0x04; 0x04; 0x04 ];
  (* block 0x00d3 *)
  [ 0x04; 0x04; 0x04; 0x04; 0x04; 0x04; 0x04; 0x04;
    0x04; 0x04; 0x04; 0x04; 0x04; 0x04; 0x04; 0x04;
    0x04; 0x04; 0x04; 0x04; 0x04; 0x04; 0x04; 0x04;
    0x04; 0x04; 0x04; 0x04; 0x04; 0x04; 0x04; 0x04;
    0x04; 0x04; 0x04; 0x04; 0x04; 0x04; 0x0a; 0x0a;
    0x0a; 0x0a; 0x0a; 0x0a; 0x0a; 0x0a; 0x0a; 0x0a;
    0x0a; 0x0a; 0x0a; 0x0a; 0x0a; 0x0a; 0x0a; 0x0a;
    0x0a; 0x0a; 0x0a; 0x0a; 0x0a; 0x0a; 0x0a; 0x0a ];
  (* block 0x00d4 *)
  [ 0x00; 0x04; 0x04; 0x04; 0x04; 0x04; 0x04; 0x04;
    0x04; 0x04; 0x04; 0x04; 0x04; 0x04; 0x04; 0x04;
    0x00; 0x00; 0x00; 0x00; 0x00; 0x00; 0x00; 0x00;
    0x00; 0x00; 0x04; 0x00; 0x00; 0x00; 0x00; 0x00;
    0x00; 0x00; 0x00; 0x00; 0x00; 0x00; 0x00; 0x00;
    0x00; 0x00; 0x00; 0x00; 0x00; 0x00; 0x00; 0x04;
    0x00; 0x00; 0x04; 0x04; 0x04; 0x04; 0x04; 0x04;
    0x04; 0x04; 0x04; 0x00; 0x04; 0x04; 0x04; 0x04 ];
  (* block 0x00d5 *)
  [ 0x00; 0x00; 0x00; 0x00; 0x00; 0x00; 0x00; 0x00;
    0x00; 0x04; 0x04; 0x04; 0x04; 0x04; 0x04; 0x04;
    0x04; 0x04; 0x04; 0x04; 0x04; 0x04; 0x04; 0x04;
    0x04; 0x04; 0x04; 0x04; 0x04; 0x04; 0x04; 0x04;
    0x00; 0x00; 0x00; 0x00; 0x00; 0x00; 0x04; 0x04;
    0x04; 0x04; 0x04; 0x04; 0x04; 0x04; 0x04; 0x04;
    0x04; 0x04; 0x04; 0x04; 0x04; 0x04; 0x04; 0x04;
    0x04; 0x04; 0x04; 0x04; 0x04; 0x04; 0x04; 0x04 ];
  (* block 0x00d6 *)
  [ 0x04; 0x04; 0x04; 0x04; 0x04; 0x04; 0x04; 0x04;
    0x04; 0x04; 0x04; 0x04; 0x04; 0x04; 0x04; 0x04;
    0x04; 0x04; 0x04; 0x04; 0x04; 0x04; 0x04; 0x04;
    0x04; 0x04; 0x04; 0x04; 0x04; 0x04; 0x04; 0x04;
    0x04; 0x04; 0x04; 0x04; 0x04; 0x04; 0x04; 0x04;
    0x04; 0x04; 0x04; 0x04; 0x04; 0x04; 0x04; 0x04;
    0x04; 0x04; 0x04; 0x04; 0x04; 0x04; 0x04; 0x04;
    0x04; 0x04; 0x04; 0x04; 0x04; 0x04; 0x04; 0x04 ];
  (* block 0x00d7 *)
  [ 0x04; 0x04; 0x04; 0x04; 0x04; 0x04; 0x04; 0x04;
    0x04; 0x04; 0x04; 0x04; 0x04; 0x04; 0x04; 0x04;
    0x04; 0x04; 0x04; 0x04; 0x04; 0x04; 0x04; 0x04;
    0x04; 0x04; 0x04; 0x04; 0x04; 0x04; 0x04; 0x04;
    0x04; 0x04; 0x00; 0x00; 0x04; 0x04; 0x04; 0x04;
    0x04; 0x04; 0x04; 0x04; 0x04; 0x04; 0x04; 0x04;
    0x04; 0x04; 0x04; 0x04; 0x04; 0x04; 0x04; 0x04;
    0x04; 0x04; 0x04; 0x04; 0x04; 0x04; 0x04; 0x04 ];
  (* block 0x00d8 *)
  [ 0x04; 0x04; 0x04; 0x04; 0x04; 0x04; 0x04; 0x04;
    0x04; 0x04; 0x04; 0x04; 0x04; 0x04; 0x04; 0x04;
    0x04; 0x04; 0x04; 0x04; 0x00; 0x00; 0x04; 0x04;
    0x00; 0x04; 0x04; 0x04; 0x00; 0x00; 0x04; 0x04;
    0x04; 0x04; 0x04; 0x04; 0x04; 0x04; 0x04; 0x04;
    0x04; 0x04; 0x04; 0x04; 0x04; 0x04; 0x04; 0x04;
    0x04; 0x04; 0x04; 0x04; 0x04; 0x04; 0x04; 0x04;
    0x04; 0x04; 0x04; 0x04; 0x04; 0x04; 0x04; 0x04 ];
  (* block 0x00d9 *)
  [ 0x04; 0x04; 0x04; 0x04; 0x04; 0x04; 0x04; 0x04;
    0x04; 0x04; 0x04; 0x04; 0x04; 0x04; 0x04; 0x04;
    0x04; 0x04; 0x04; 0x04; 0x04; 0x04; 0x04; 0x04;
    0x04; 0x04; 0x04; 0x04; 0x04; 0x04; 0x04; 0x04;
    0x04; 0x04; 0x04; 0x04; 0x04; 0x04; 0x04; 0x04;
    0x04; 0x04; 0x04; 0x04; 0x04; 0x04; 0x04; 0x04;
    0x04; 0x00; 0x00; 0x04; 0x04; 0x04; 0x00; 0x04;
    0x04; 0x04; 0x04; 0x23; 0x23; 0x23; 0x23; 0x23 ];
  (* block 0x00da *)
  [ 0x04; 0x04; 0x04; 0x04; 0x04; 0x04; 0x04; 0x04;
    0x04; 0x04; 0x04; 0x04; 0x04; 0x04; 0x04; 0x04;
    0x04; 0x04; 0x04; 0x04; 0x04; 0x04; 0x04; 0x04;
    0x04; 0x04; 0x04; 0x04; 0x04; 0x04; 0x04; 0x04;
    0x04; 0x04; 0x04; 0x04; 0x04; 0x04; 0x04; 0x04;
    0x04; 0x04; 0x04; 0x04; 0x04; 0x04; 0x04; 0x04;
    0x04; 0x04; 0x04; 0x04; 0x04; 0x04; 0x04; 0x04;
    0x04; 0x04; 0x04; 0x04; 0x04; 0x04; 0x00; 0x04 ];
  (* block 0x00db *)
  [ 0x04; 0x04; 0x04; 0x04; 0x04; 0x04; 0x04; 0x04;
    0x04; 0x04; 0x04; 0x04; 0x04; 0x04; 0x04; 0x04;
    0x04; 0x04; 0x04; 0x04; 0x04; 0x04; 0x04; 0x04;
    0x04; 0x04; 0x04; 0x04; 0x04; 0x04; 0x04; 0x04;
    0x04; 0x04; 0x04; 0x04; 0x04; 0x04; 0x04; 0x04;
    0x04; 0x04; 0x04; 0x04; 0x04; 0x04; 0x04; 0x04;
    0x04; 0x04; 0x04; 0x04; 0x04; 0x04; 0x04; 0x04;
    0x04; 0x04; 0x04; 0x04; 0x04; 0x04; 0x00; 0x00 ];
  (* block 0x00dc *)
  [ 0x00; 0x00; 0x00; 0x00; 0x00; 0x00; 0x00; 0x00;
    0x00; 0x04; 0x04; 0x04; 0x04; 0x04; 0x04; 0x00;
    0x04; 0x04; 0x04; 0x04; 0x04; 0x04; 0x04; 0x04;
    0x04; 0x04; 0x04; 0x04; 0x04; 0x04; 0x04; 0x04;
    0x04; 0x04; 0x04; 0x04; 0x04; 0x04; 0x04; 0x04;
    0x00; 0x00; 0x00; 0x00; 0x00; 0x00; 0x00; 0x04;
    0x04; 0x00; 0x00; 0x04; 0x04; 0x04; 0x04; 0x04;
    0x04; 0x04; 0x04; 0x00; 0x00; 0x00; 0x00; 0x00 ];
  (* block 0x00dd *)
  [ 0x00; 0x00; 0x00; 0x00; 0x00; 0x00; 0x00; 0x04;
    0x00; 0x00; 0x04; 0x04; 0x04; 0x04; 0x00; 0x00;
    0x04; 0x00; 0x00; 0x00; 0x00; 0x04; 0x04; 0x00;
    0x00; 0x00; 0x00; 0x00; 0x00; 0x00; 0x00; 0x00;
    0x00; 0x00; 0x00; 0x00; 0x04; 0x04; 0x00; 0x00;
    0x04; 0x00; 0x00; 0x00; 0x00; 0x00; 0x00; 0x00;
    0x00; 0x04; 0x04; 0x00; 0x00; 0x00; 0x00; 0x00;
    0x00; 0x00; 0x00; 0x00; 0x04; 0x00; 0x00; 0x00 ];
  (* block 0x00de *)
  [ 0x00; 0x00; 0x04; 0x04; 0x04; 0x00; 0x00; 0x00;
    0x00; 0x00; 0x00; 0x00; 0x00; 0x00; 0x00; 0x00;
    0x00; 0x04; 0x04; 0x04; 0x00; 0x00; 0x00; 0x00;
    0x00; 0x00; 0x00; 0x00; 0x04; 0x04; 0x04; 0x00;
    0x00; 0x04; 0x00; 0x04; 0x00; 0x00; 0x00; 0x00;
    0x04; 0x00; 0x00; 0x00; 0x00; 0x00; 0x00; 0x04;
    0x00; 0x00; 0x00; 0x04; 0x00; 0x00; 0x00; 0x00;
    0x00; 0x00; 0x04; 0x04; 0x04; 0x04; 0x04; 0x04 ];
  (* block 0x00df *)
  [ 0x04; 0x04; 0x04; 0x04; 0x04; 0x04; 0x04; 0x04;
    0x04; 0x04; 0x04; 0x04; 0x04; 0x04; 0x04; 0x04;
    0x00; 0x00; 0x00; 0x00; 0x00; 0x00; 0x00; 0x00;
    0x00; 0x00; 0x00; 0x00; 0x00; 0x00; 0x00; 0x00;
    0x00; 0x00; 0x00; 0x00; 0x00; 0x00; 0x00; 0x00;
    0x00; 0x00; 0x00; 0x00; 0x00; 0x00; 0x00; 0x00;
    0x00; 0x00; 0x00; 0x00; 0x00; 0x00; 0x00; 0x00;
    0x00; 0x00; 0x00; 0x00; 0x00; 0x00; 0x00; 0x00 ];
  (* block 0x00e0 *)
  [ 0x04; 0x04; 0x04; 0x04; 0x04; 0x04; 0x00; 0x00;
    0x00; 0x00; 0x00; 0x04; 0x04; 0x04; 0x04; 0x04;
    0x04; 0x04; 0x04; 0x00; 0x00; 0x04; 0x04; 0x04;
    0x04; 0x04; 0x04; 0x04; 0x04; 0x04; 0x04; 0x04;
    0x04; 0x04; 0x04; 0x04; 0x04; 0x04; 0x00; 0x00;
    0x00; 0x04; 0x00; 0x04; 0x04; 0x04; 0x04; 0x04;
    0x04; 0x00; 0x00; 0x04; 0x04; 0x04; 0x04; 0x04;
    0x04; 0x04; 0x04; 0x04; 0x04; 0x04; 0x04; 0x04 ];
  (* block 0x00e1 *)
  [ 0x00; 0x00; 0x00; 0x00; 0x00; 0x00; 0x00; 0x00;
    0x00; 0x00; 0x00; 0x00; 0x00; 0x00; 0x00; 0x00;
    0x00; 0x00; 0x00; 0x00; 0x00; 0x00; 0x00; 0x00;
    0x00; 0x00; 0x04; 0x04; 0x04; 0x04; 0x04; 0x04;
    0x04; 0x04; 0x04; 0x04; 0x04; 0x04; 0x04; 0x04;
    0x04; 0x04; 0x04; 0x04; 0x04; 0x04; 0x04; 0x04;
    0x04; 0x04; 0x04; 0x04; 0x04; 0x04; 0x04; 0x04;
    0x04; 0x04; 0x04; 0x04; 0x04; 0x04; 0x04; 0x04 ];
  (* block 0x00e2 *)
  [ 0x00; 0x00; 0x00; 0x00; 0x00; 0x00; 0x00; 0x00;
    0x00; 0x00; 0x00; 0x00; 0x04; 0x04; 0x04; 0x04;
    0x00; 0x00; 0x00; 0x00; 0x00; 0x00; 0x00; 0x00;
    0x00; 0x00; 0x00; 0x00; 0x00; 0x00; 0x00; 0x00;
    0x00; 0x00; 0x00; 0x00; 0x00; 0x00; 0x00; 0x00;
    0x00; 0x00; 0x00; 0x00; 0x00; 0x00; 0x00; 0x00;
    0x00; 0x00; 0x00; 0x00; 0x00; 0x00; 0x00; 0x00;
    0x00; 0x00; 0x00; 0x00; 0x00; 0x00; 0x00; 0x00 ];
  (* block 0x00e3 *)
  [ 0x00; 0x00; 0x00; 0x00; 0x00; 0x00; 0x00; 0x00;
    0x04; 0x04; 0x04; 0x04; 0x04; 0x04; 0x04; 0x04;
    0x00; 0x00; 0x00; 0x00; 0x00; 0x00; 0x00; 0x00;
    0x00; 0x00; 0x04; 0x04; 0x04; 0x04; 0x04; 0x04;
    0x00; 0x00; 0x00; 0x00; 0x00; 0x00; 0x00; 0x00;
    0x00; 0x00; 0x00; 0x00; 0x00; 0x00; 0x00; 0x00;
    0x00; 0x00; 0x00; 0x00; 0x00; 0x00; 0x00; 0x00;
    0x00; 0x00; 0x00; 0x00; 0x00; 0x00; 0x00; 0x00 ];
  (* block 0x00e4 *)
  [ 0x00; 0x00; 0x00; 0x00; 0x00; 0x00; 0x00; 0x00;
    0x04; 0x04; 0x04; 0x04; 0x04; 0x04; 0x04; 0x04;
    0x00; 0x00; 0x00; 0x00; 0x00; 0x00; 0x00; 0x00;
    0x00; 0x00; 0x00; 0x00; 0x00; 0x00; 0x00; 0x00;
    0x00; 0x00; 0x00; 0x00; 0x00; 0x00; 0x00; 0x00;
    0x00; 0x00; 0x00; 0x00; 0x00; 0x00; 0x04; 0x04;
    0x00; 0x00; 0x00; 0x00; 0x00; 0x00; 0x00; 0x00;
    0x00; 0x00; 0x00; 0x00; 0x04; 0x04; 0x04; 0x04 ];
  (* block 0x00e5 *)
  [ 0x00; 0x00; 0x04; 0x04; 0x04; 0x04; 0x04; 0x04;
    0x04; 0x04; 0x04; 0x04; 0x04; 0x04; 0x04; 0x04;
    0x00; 0x00; 0x00; 0x00; 0x00; 0x00; 0x00; 0x00;
    0x00; 0x04; 0x04; 0x04; 0x04; 0x04; 0x04; 0x04;
    0x04; 0x04; 0x04; 0x04; 0x04; 0x04; 0x04; 0x04;
    0x04; 0x04; 0x04; 0x04; 0x04; 0x04; 0x04; 0x04;
    0x04; 0x04; 0x04; 0x04; 0x04; 0x04; 0x04; 0x04;
    0x04; 0x04; 0x04; 0x04; 0x04; 0x04; 0x04; 0x04 ];
  (* block 0x00e6 *)
  [ 0x00; 0x00; 0x00; 0x00; 0x00; 0x00; 0x00; 0x00;
    0x00; 0x00; 0x00; 0x00; 0x04; 0x04; 0x04; 0x04;
    0x04; 0x04; 0x04; 0x04; 0x04; 0x04; 0x04; 0x04;
    0x04; 0x04; 0x04; 0x04; 0x04; 0x04; 0x04; 0x04;
    0x04; 0x04; 0x04; 0x04; 0x04; 0x04; 0x04; 0x04;
    0x04; 0x04; 0x04; 0x04; 0x04; 0x04; 0x04; 0x04;
    0x04; 0x04; 0x04; 0x04; 0x04; 0x04; 0x04; 0x04;
    0x04; 0x04; 0x04; 0x00; 0x04; 0x04; 0x04; 0x04 ];
  (* block 0x00e7 *)
  [ 0x04; 0x04; 0x04; 0x04; 0x04; 0x04; 0x00; 0x04;
    0x04; 0x04; 0x04; 0x04; 0x04; 0x04; 0x04; 0x04;
    0x04; 0x04; 0x04; 0x04; 0x04; 0x04; 0x04; 0x04;
    0x04; 0x04; 0x04; 0x04; 0x04; 0x04; 0x04; 0x04;
    0x04; 0x04; 0x04; 0x04; 0x04; 0x04; 0x04; 0x04;
    0x04; 0x04; 0x04; 0x04; 0x04; 0x04; 0x04; 0x04;
    0x04; 0x04; 0x04; 0x04; 0x04; 0x04; 0x04; 0x04;
    0x04; 0x04; 0x04; 0x04; 0x04; 0x04; 0x04; 0x04 ];
  (* block 0x00e8 *)
  [ 0x00; 0x00; 0x00; 0x00; 0x00; 0x00; 0x00; 0x00;
    0x00; 0x00; 0x00; 0x00; 0x00; 0x00; 0x00; 0x00;
    0x00; 0x00; 0x00; 0x00; 0x00; 0x00; 0x00; 0x00;
    0x04; 0x04; 0x04; 0x04; 0x04; 0x04; 0x04; 0x04;
    0x00; 0x00; 0x00; 0x00; 0x00; 0x00; 0x00; 0x00;
    0x00; 0x00; 0x00; 0x00; 0x00; 0x00; 0x04; 0x04;
    0x04; 0x04; 0x04; 0x04; 0x04; 0x04; 0x04; 0x04;
    0x04; 0x04; 0x04; 0x04; 0x04; 0x04; 0x04; 0x04 ];
  (* block 0x00e9 *)
  [ 0x02; 0x02; 0x02; 0x02; 0x02; 0x02; 0x02; 0x02;
    0x02; 0x02; 0x02; 0x02; 0x02; 0x02; 0x02; 0x02;
    0x02; 0x02; 0x02; 0x02; 0x02; 0x02; 0x02; 0x02;
    0x02; 0x02; 0x02; 0x02; 0x02; 0x02; 0x02; 0x02;
    0x23; 0x23; 0x23; 0x23; 0x23; 0x23; 0x23; 0x23;
    0x23; 0x23; 0x23; 0x23; 0x23; 0x23; 0x23; 0x23;
    0x23; 0x23; 0x23; 0x23; 0x23; 0x23; 0x23; 0x23;
    0x23; 0x23; 0x23; 0x23; 0x23; 0x23; 0x23; 0x23 ];
  (* block 0x00ea *)
  [ 0x02; 0x02; 0x02; 0x02; 0x02; 0x02; 0x02; 0x02;
    0x02; 0x02; 0x02; 0x02; 0x02; 0x02; 0x02; 0x02;
    0x02; 0x02; 0x02; 0x02; 0x02; 0x02; 0x02; 0x02;
    0x02; 0x02; 0x02; 0x02; 0x02; 0x02; 0x02; 0x02;
    0x02; 0x02; 0x02; 0x02; 0x02; 0x02; 0x02; 0x02;
    0x02; 0x02; 0x02; 0x02; 0x02; 0x02; 0x02; 0x02;
    0x02; 0x02; 0x02; 0x02; 0x02; 0x02; 0x02; 0x02;
    0x02; 0x02; 0x02; 0x02; 0x02; 0x02; 0x02; 0x02 ];
  (* block 0x00eb *)
  [ 0x23; 0x23; 0x23; 0x23; 0x23; 0x23; 0x23; 0x23;
    0x23; 0x23; 0x23; 0x23; 0x23; 0x23; 0x23; 0x23;
    0x23; 0x23; 0x23; 0x23; 0x23; 0x23; 0x23; 0x23;
    0x23; 0x23; 0x23; 0x23; 0x23; 0x23; 0x23; 0x23;
    0x23; 0x23; 0x23; 0x23; 0x23; 0x23; 0x23; 0x23;
    0x23; 0x23; 0x23; 0x23; 0x23; 0x23; 0x23; 0x23;
    0x02; 0x02; 0x02; 0x02; 0x02; 0x02; 0x02; 0x02;
    0x02; 0x02; 0x02; 0x02; 0x02; 0x02; 0x02; 0x02 ]
]%N.
