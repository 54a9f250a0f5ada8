(* GENERATED by tools/gen_tables.py from encoding/cp949/lookup_from.go; do not edit. *)
From Coq Require Import ZArith List.
From Verif Require Import Base.
Import ListNotations.
Local Open Scope Z_scope.

(* encoding/cp949/lookup_from.go: [It c u] is lookupItem{cp949: c, ucs2: u}. *)

(* encoding/cp949/lookup_from.go:9-258 *)
Definition fromTable_000 : list lookupItem := [
  It 0x8141 0xac02;
  It 0x8142 0xac03;
  It 0x8143 0xac05;
  It 0x8144 0xac06;
  It 0x8145 0xac0b;
  It 0x8146 0xac0c;
  It 0x8147 0xac0d;
  It 0x8148 0xac0e;
  It 0x8149 0xac0f;
  It 0x814a 0xac18;
  It 0x814b 0xac1e;
  It 0x814c 0xac1f;
  It 0x814d 0xac21;
  It 0x814e 0xac22;
  It 0x814f 0xac23;
  It 0x8150 0xac25;
  It 0x8151 0xac26;
  It 0x8152 0xac27;
  It 0x8153 0xac28;
  It 0x8154 0xac29;
  It 0x8155 0xac2a;
  It 0x8156 0xac2b;
  It 0x8157 0xac2e;
  It 0x8158 0xac32;
  It 0x8159 0xac33;
  It 0x815a 0xac34;
  It 0x8161 0xac35;
  It 0x8162 0xac36;
  It 0x8163 0xac37;
  It 0x8164 0xac3a;
  It 0x8165 0xac3b;
  It 0x8166 0xac3d;
  It 0x8167 0xac3e;
  It 0x8168 0xac3f;
  It 0x8169 0xac41;
  It 0x816a 0xac42;
  It 0x816b 0xac43;
  It 0x816c 0xac44;
  It 0x816d 0xac45;
  It 0x816e 0xac46;
  It 0x816f 0xac47;
  It 0x8170 0xac48;
  It 0x8171 0xac49;
  It 0x8172 0xac4a;
  It 0x8173 0xac4c;
  It 0x8174 0xac4e;
  It 0x8175 0xac4f;
  It 0x8176 0xac50;
  It 0x8177 0xac51;
  It 0x8178 0xac52;
  It 0x8179 0xac53;
  It 0x817a 0xac55;
  It 0x8181 0xac56;
  It 0x8182 0xac57;
  It 0x8183 0xac59;
  It 0x8184 0xac5a;
  It 0x8185 0xac5b;
  It 0x8186 0xac5d;
  It 0x8187 0xac5e;
  It 0x8188 0xac5f;
  It 0x8189 0xac60;
  It 0x818a 0xac61;
  It 0x818b 0xac62;
  It 0x818c 0xac63;
  It 0x818d 0xac64;
  It 0x818e 0xac65;
  It 0x818f 0xac66;
  It 0x8190 0xac67;
  It 0x8191 0xac68;
  It 0x8192 0xac69;
  It 0x8193 0xac6a;
  It 0x8194 0xac6b;
  It 0x8195 0xac6c;
  It 0x8196 0xac6d;
  It 0x8197 0xac6e;
  It 0x8198 0xac6f;
  It 0x8199 0xac72;
  It 0x819a 0xac73;
  It 0x819b 0xac75;
  It 0x819c 0xac76;
  It 0x819d 0xac79;
  It 0x819e 0xac7b;
  It 0x819f 0xac7c;
  It 0x81a0 0xac7d;
  It 0x81a1 0xac7e;
  It 0x81a2 0xac7f;
  It 0x81a3 0xac82;
  It 0x81a4 0xac87;
  It 0x81a5 0xac88;
  It 0x81a6 0xac8d;
  It 0x81a7 0xac8e;
  It 0x81a8 0xac8f;
  It 0x81a9 0xac91;
  It 0x81aa 0xac92;
  It 0x81ab 0xac93;
  It 0x81ac 0xac95;
  It 0x81ad 0xac96;
  It 0x81ae 0xac97;
  It 0x81af 0xac98;
  It 0x81b0 0xac99;
  It 0x81b1 0xac9a;
  It 0x81b2 0xac9b;
  It 0x81b3 0xac9e;
  It 0x81b4 0xaca2;
  It 0x81b5 0xaca3;
  It 0x81b6 0xaca4;
  It 0x81b7 0xaca5;
  It 0x81b8 0xaca6;
  It 0x81b9 0xaca7;
  It 0x81ba 0xacab;
  It 0x81bb 0xacad;
  It 0x81bc 0xacae;
  It 0x81bd 0xacb1;
  It 0x81be 0xacb2;
  It 0x81bf 0xacb3;
  It 0x81c0 0xacb4;
  It 0x81c1 0xacb5;
  It 0x81c2 0xacb6;
  It 0x81c3 0xacb7;
  It 0x81c4 0xacba;
  It 0x81c5 0xacbe;
  It 0x81c6 0xacbf;
  It 0x81c7 0xacc0;
  It 0x81c8 0xacc2;
  It 0x81c9 0xacc3;
  It 0x81ca 0xacc5;
  It 0x81cb 0xacc6;
  It 0x81cc 0xacc7;
  It 0x81cd 0xacc9;
  It 0x81ce 0xacca;
  It 0x81cf 0xaccb;
  It 0x81d0 0xaccd;
  It 0x81d1 0xacce;
  It 0x81d2 0xaccf;
  It 0x81d3 0xacd0;
  It 0x81d4 0xacd1;
  It 0x81d5 0xacd2;
  It 0x81d6 0xacd3;
  It 0x81d7 0xacd4;
  It 0x81d8 0xacd6;
  It 0x81d9 0xacd8;
  It 0x81da 0xacd9;
  It 0x81db 0xacda;
  It 0x81dc 0xacdb;
  It 0x81dd 0xacdc;
  It 0x81de 0xacdd;
  It 0x81df 0xacde;
  It 0x81e0 0xacdf;
  It 0x81e1 0xace2;
  It 0x81e2 0xace3;
  It 0x81e3 0xace5;
  It 0x81e4 0xace6;
  It 0x81e5 0xace9;
  It 0x81e6 0xaceb;
  It 0x81e7 0xaced;
  It 0x81e8 0xacee;
  It 0x81e9 0xacf2;
  It 0x81ea 0xacf4;
  It 0x81eb 0xacf7;
  It 0x81ec 0xacf8;
  It 0x81ed 0xacf9;
  It 0x81ee 0xacfa;
  It 0x81ef 0xacfb;
  It 0x81f0 0xacfe;
  It 0x81f1 0xacff;
  It 0x81f2 0xad01;
  It 0x81f3 0xad02;
  It 0x81f4 0xad03;
  It 0x81f5 0xad05;
  It 0x81f6 0xad07;
  It 0x81f7 0xad08;
  It 0x81f8 0xad09;
  It 0x81f9 0xad0a;
  It 0x81fa 0xad0b;
  It 0x81fb 0xad0e;
  It 0x81fc 0xad10;
  It 0x81fd 0xad12;
  It 0x81fe 0xad13;
  It 0x8241 0xad14;
  It 0x8242 0xad15;
  It 0x8243 0xad16;
  It 0x8244 0xad17;
  It 0x8245 0xad19;
  It 0x8246 0xad1a;
  It 0x8247 0xad1b;
  It 0x8248 0xad1d;
  It 0x8249 0xad1e;
  It 0x824a 0xad1f;
  It 0x824b 0xad21;
  It 0x824c 0xad22;
  It 0x824d 0xad23;
  It 0x824e 0xad24;
  It 0x824f 0xad25;
  It 0x8250 0xad26;
  It 0x8251 0xad27;
  It 0x8252 0xad28;
  It 0x8253 0xad2a;
  It 0x8254 0xad2b;
  It 0x8255 0xad2e;
  It 0x8256 0xad2f;
  It 0x8257 0xad30;
  It 0x8258 0xad31;
  It 0x8259 0xad32;
  It 0x825a 0xad33;
  It 0x8261 0xad36;
  It 0x8262 0xad37;
  It 0x8263 0xad39;
  It 0x8264 0xad3a;
  It 0x8265 0xad3b;
  It 0x8266 0xad3d;
  It 0x8267 0xad3e;
  It 0x8268 0xad3f;
  It 0x8269 0xad40;
  It 0x826a 0xad41;
  It 0x826b 0xad42;
  It 0x826c 0xad43;
  It 0x826d 0xad46;
  It 0x826e 0xad48;
  It 0x826f 0xad4a;
  It 0x8270 0xad4b;
  It 0x8271 0xad4c;
  It 0x8272 0xad4d;
  It 0x8273 0xad4e;
  It 0x8274 0xad4f;
  It 0x8275 0xad51;
  It 0x8276 0xad52;
  It 0x8277 0xad53;
  It 0x8278 0xad55;
  It 0x8279 0xad56;
  It 0x827a 0xad57;
  It 0x8281 0xad59;
  It 0x8282 0xad5a;
  It 0x8283 0xad5b;
  It 0x8284 0xad5c;
  It 0x8285 0xad5d;
  It 0x8286 0xad5e;
  It 0x8287 0xad5f;
  It 0x8288 0xad60;
  It 0x8289 0xad62;
  It 0x828a 0xad64;
  It 0x828b 0xad65;
  It 0x828c 0xad66;
  It 0x828d 0xad67;
  It 0x828e 0xad68;
  It 0x828f 0xad69;
  It 0x8290 0xad6a;
  It 0x8291 0xad6b;
  It 0x8292 0xad6e;
  It 0x8293 0xad6f;
  It 0x8294 0xad71
].

(* encoding/cp949/lookup_from.go:259-508 *)
Definition fromTable_001 : list lookupItem := [
  It 0x8295 0xad72;
  It 0x8296 0xad77;
  It 0x8297 0xad78;
  It 0x8298 0xad79;
  It 0x8299 0xad7a;
  It 0x829a 0xad7e;
  It 0x829b 0xad80;
  It 0x829c 0xad83;
  It 0x829d 0xad84;
  It 0x829e 0xad85;
  It 0x829f 0xad86;
  It 0x82a0 0xad87;
  It 0x82a1 0xad8a;
  It 0x82a2 0xad8b;
  It 0x82a3 0xad8d;
  It 0x82a4 0xad8e;
  It 0x82a5 0xad8f;
  It 0x82a6 0xad91;
  It 0x82a7 0xad92;
  It 0x82a8 0xad93;
  It 0x82a9 0xad94;
  It 0x82aa 0xad95;
  It 0x82ab 0xad96;
  It 0x82ac 0xad97;
  It 0x82ad 0xad98;
  It 0x82ae 0xad99;
  It 0x82af 0xad9a;
  It 0x82b0 0xad9b;
  It 0x82b1 0xad9e;
  It 0x82b2 0xad9f;
  It 0x82b3 0xada0;
  It 0x82b4 0xada1;
  It 0x82b5 0xada2;
  It 0x82b6 0xada3;
  It 0x82b7 0xada5;
  It 0x82b8 0xada6;
  It 0x82b9 0xada7;
  It 0x82ba 0xada8;
  It 0x82bb 0xada9;
  It 0x82bc 0xadaa;
  It 0x82bd 0xadab;
  It 0x82be 0xadac;
  It 0x82bf 0xadad;
  It 0x82c0 0xadae;
  It 0x82c1 0xadaf;
  It 0x82c2 0xadb0;
  It 0x82c3 0xadb1;
  It 0x82c4 0xadb2;
  It 0x82c5 0xadb3;
  It 0x82c6 0xadb4;
  It 0x82c7 0xadb5;
  It 0x82c8 0xadb6;
  It 0x82c9 0xadb8;
  It 0x82ca 0xadb9;
  It 0x82cb 0xadba;
  It 0x82cc 0xadbb;
  It 0x82cd 0xadbc;
  It 0x82ce 0xadbd;
  It 0x82cf 0xadbe;
  It 0x82d0 0xadbf;
  It 0x82d1 0xadc2;
  It 0x82d2 0xadc3;
  It 0x82d3 0xadc5;
  It 0x82d4 0xadc6;
  It 0x82d5 0xadc7;
  It 0x82d6 0xadc9;
  It 0x82d7 0xadca;
  It 0x82d8 0xadcb;
  It 0x82d9 0xadcc;
  It 0x82da 0xadcd;
  It 0x82db 0xadce;
  It 0x82dc 0xadcf;
  It 0x82dd 0xadd2;
  It 0x82de 0xadd4;
  It 0x82df 0xadd5;
  It 0x82e0 0xadd6;
  It 0x82e1 0xadd7;
  It 0x82e2 0xadd8;
  It 0x82e3 0xadd9;
  It 0x82e4 0xadda;
  It 0x82e5 0xaddb;
  It 0x82e6 0xaddd;
  It 0x82e7 0xadde;
  It 0x82e8 0xaddf;
  It 0x82e9 0xade1;
  It 0x82ea 0xade2;
  It 0x82eb 0xade3;
  It 0x82ec 0xade5;
  It 0x82ed 0xade6;
  It 0x82ee 0xade7;
  It 0x82ef 0xade8;
  It 0x82f0 0xade9;
  It 0x82f1 0xadea;
  It 0x82f2 0xadeb;
  It 0x82f3 0xadec;
  It 0x82f4 0xaded;
  It 0x82f5 0xadee;
  It 0x82f6 0xadef;
  It 0x82f7 0xadf0;
  It 0x82f8 0xadf1;
  It 0x82f9 0xadf2;
  It 0x82fa 0xadf3;
  It 0x82fb 0xadf4;
  It 0x82fc 0xadf5;
  It 0x82fd 0xadf6;
  It 0x82fe 0xadf7;
  It 0x8341 0xadfa;
  It 0x8342 0xadfb;
  It 0x8343 0xadfd;
  It 0x8344 0xadfe;
  It 0x8345 0xae02;
  It 0x8346 0xae03;
  It 0x8347 0xae04;
  It 0x8348 0xae05;
  It 0x8349 0xae06;
  It 0x834a 0xae07;
  It 0x834b 0xae0a;
  It 0x834c 0xae0c;
  It 0x834d 0xae0e;
  It 0x834e 0xae0f;
  It 0x834f 0xae10;
  It 0x8350 0xae11;
  It 0x8351 0xae12;
  It 0x8352 0xae13;
  It 0x8353 0xae15;
  It 0x8354 0xae16;
  It 0x8355 0xae17;
  It 0x8356 0xae18;
  It 0x8357 0xae19;
  It 0x8358 0xae1a;
  It 0x8359 0xae1b;
  It 0x835a 0xae1c;
  It 0x8361 0xae1d;
  It 0x8362 0xae1e;
  It 0x8363 0xae1f;
  It 0x8364 0xae20;
  It 0x8365 0xae21;
  It 0x8366 0xae22;
  It 0x8367 0xae23;
  It 0x8368 0xae24;
  It 0x8369 0xae25;
  It 0x836a 0xae26;
  It 0x836b 0xae27;
  It 0x836c 0xae28;
  It 0x836d 0xae29;
  It 0x836e 0xae2a;
  It 0x836f 0xae2b;
  It 0x8370 0xae2c;
  It 0x8371 0xae2d;
  It 0x8372 0xae2e;
  It 0x8373 0xae2f;
  It 0x8374 0xae32;
  It 0x8375 0xae33;
  It 0x8376 0xae35;
  It 0x8377 0xae36;
  It 0x8378 0xae39;
  It 0x8379 0xae3b;
  It 0x837a 0xae3c;
  It 0x8381 0xae3d;
  It 0x8382 0xae3e;
  It 0x8383 0xae3f;
  It 0x8384 0xae42;
  It 0x8385 0xae44;
  It 0x8386 0xae47;
  It 0x8387 0xae48;
  It 0x8388 0xae49;
  It 0x8389 0xae4b;
  It 0x838a 0xae4f;
  It 0x838b 0xae51;
  It 0x838c 0xae52;
  It 0x838d 0xae53;
  It 0x838e 0xae55;
  It 0x838f 0xae57;
  It 0x8390 0xae58;
  It 0x8391 0xae59;
  It 0x8392 0xae5a;
  It 0x8393 0xae5b;
  It 0x8394 0xae5e;
  It 0x8395 0xae62;
  It 0x8396 0xae63;
  It 0x8397 0xae64;
  It 0x8398 0xae66;
  It 0x8399 0xae67;
  It 0x839a 0xae6a;
  It 0x839b 0xae6b;
  It 0x839c 0xae6d;
  It 0x839d 0xae6e;
  It 0x839e 0xae6f;
  It 0x839f 0xae71;
  It 0x83a0 0xae72;
  It 0x83a1 0xae73;
  It 0x83a2 0xae74;
  It 0x83a3 0xae75;
  It 0x83a4 0xae76;
  It 0x83a5 0xae77;
  It 0x83a6 0xae7a;
  It 0x83a7 0xae7e;
  It 0x83a8 0xae7f;
  It 0x83a9 0xae80;
  It 0x83aa 0xae81;
  It 0x83ab 0xae82;
  It 0x83ac 0xae83;
  It 0x83ad 0xae86;
  It 0x83ae 0xae87;
  It 0x83af 0xae88;
  It 0x83b0 0xae89;
  It 0x83b1 0xae8a;
  It 0x83b2 0xae8b;
  It 0x83b3 0xae8d;
  It 0x83b4 0xae8e;
  It 0x83b5 0xae8f;
  It 0x83b6 0xae90;
  It 0x83b7 0xae91;
  It 0x83b8 0xae92;
  It 0x83b9 0xae93;
  It 0x83ba 0xae94;
  It 0x83bb 0xae95;
  It 0x83bc 0xae96;
  It 0x83bd 0xae97;
  It 0x83be 0xae98;
  It 0x83bf 0xae99;
  It 0x83c0 0xae9a;
  It 0x83c1 0xae9b;
  It 0x83c2 0xae9c;
  It 0x83c3 0xae9d;
  It 0x83c4 0xae9e;
  It 0x83c5 0xae9f;
  It 0x83c6 0xaea0;
  It 0x83c7 0xaea1;
  It 0x83c8 0xaea2;
  It 0x83c9 0xaea3;
  It 0x83ca 0xaea4;
  It 0x83cb 0xaea5;
  It 0x83cc 0xaea6;
  It 0x83cd 0xaea7;
  It 0x83ce 0xaea8;
  It 0x83cf 0xaea9;
  It 0x83d0 0xaeaa;
  It 0x83d1 0xaeab;
  It 0x83d2 0xaeac;
  It 0x83d3 0xaead;
  It 0x83d4 0xaeae;
  It 0x83d5 0xaeaf;
  It 0x83d6 0xaeb0;
  It 0x83d7 0xaeb1;
  It 0x83d8 0xaeb2;
  It 0x83d9 0xaeb3;
  It 0x83da 0xaeb4;
  It 0x83db 0xaeb5;
  It 0x83dc 0xaeb6
].

(* encoding/cp949/lookup_from.go:509-758 *)
Definition fromTable_002 : list lookupItem := [
  It 0x83dd 0xaeb7;
  It 0x83de 0xaeb8;
  It 0x83df 0xaeb9;
  It 0x83e0 0xaeba;
  It 0x83e1 0xaebb;
  It 0x83e2 0xaebf;
  It 0x83e3 0xaec1;
  It 0x83e4 0xaec2;
  It 0x83e5 0xaec3;
  It 0x83e6 0xaec5;
  It 0x83e7 0xaec6;
  It 0x83e8 0xaec7;
  It 0x83e9 0xaec8;
  It 0x83ea 0xaec9;
  It 0x83eb 0xaeca;
  It 0x83ec 0xaecb;
  It 0x83ed 0xaece;
  It 0x83ee 0xaed2;
  It 0x83ef 0xaed3;
  It 0x83f0 0xaed4;
  It 0x83f1 0xaed5;
  It 0x83f2 0xaed6;
  It 0x83f3 0xaed7;
  It 0x83f4 0xaeda;
  It 0x83f5 0xaedb;
  It 0x83f6 0xaedd;
  It 0x83f7 0xaede;
  It 0x83f8 0xaedf;
  It 0x83f9 0xaee0;
  It 0x83fa 0xaee1;
  It 0x83fb 0xaee2;
  It 0x83fc 0xaee3;
  It 0x83fd 0xaee4;
  It 0x83fe 0xaee5;
  It 0x8441 0xaee6;
  It 0x8442 0xaee7;
  It 0x8443 0xaee9;
  It 0x8444 0xaeea;
  It 0x8445 0xaeec;
  It 0x8446 0xaeee;
  It 0x8447 0xaeef;
  It 0x8448 0xaef0;
  It 0x8449 0xaef1;
  It 0x844a 0xaef2;
  It 0x844b 0xaef3;
  It 0x844c 0xaef5;
  It 0x844d 0xaef6;
  It 0x844e 0xaef7;
  It 0x844f 0xaef9;
  It 0x8450 0xaefa;
  It 0x8451 0xaefb;
  It 0x8452 0xaefd;
  It 0x8453 0xaefe;
  It 0x8454 0xaeff;
  It 0x8455 0xaf00;
  It 0x8456 0xaf01;
  It 0x8457 0xaf02;
  It 0x8458 0xaf03;
  It 0x8459 0xaf04;
  It 0x845a 0xaf05;
  It 0x8461 0xaf06;
  It 0x8462 0xaf09;
  It 0x8463 0xaf0a;
  It 0x8464 0xaf0b;
  It 0x8465 0xaf0c;
  It 0x8466 0xaf0e;
  It 0x8467 0xaf0f;
  It 0x8468 0xaf11;
  It 0x8469 0xaf12;
  It 0x846a 0xaf13;
  It 0x846b 0xaf14;
  It 0x846c 0xaf15;
  It 0x846d 0xaf16;
  It 0x846e 0xaf17;
  It 0x846f 0xaf18;
  It 0x8470 0xaf19;
  It 0x8471 0xaf1a;
  It 0x8472 0xaf1b;
  It 0x8473 0xaf1c;
  It 0x8474 0xaf1d;
  It 0x8475 0xaf1e;
  It 0x8476 0xaf1f;
  It 0x8477 0xaf20;
  It 0x8478 0xaf21;
  It 0x8479 0xaf22;
  It 0x847a 0xaf23;
  It 0x8481 0xaf24;
  It 0x8482 0xaf25;
  It 0x8483 0xaf26;
  It 0x8484 0xaf27;
  It 0x8485 0xaf28;
  It 0x8486 0xaf29;
  It 0x8487 0xaf2a;
  It 0x8488 0xaf2b;
  It 0x8489 0xaf2e;
  It 0x848a 0xaf2f;
  It 0x848b 0xaf31;
  It 0x848c 0xaf33;
  It 0x848d 0xaf35;
  It 0x848e 0xaf36;
  It 0x848f 0xaf37;
  It 0x8490 0xaf38;
  It 0x8491 0xaf39;
  It 0x8492 0xaf3a;
  It 0x8493 0xaf3b;
  It 0x8494 0xaf3e;
  It 0x8495 0xaf40;
  It 0x8496 0xaf44;
  It 0x8497 0xaf45;
  It 0x8498 0xaf46;
  It 0x8499 0xaf47;
  It 0x849a 0xaf4a;
  It 0x849b 0xaf4b;
  It 0x849c 0xaf4c;
  It 0x849d 0xaf4d;
  It 0x849e 0xaf4e;
  It 0x849f 0xaf4f;
  It 0x84a0 0xaf51;
  It 0x84a1 0xaf52;
  It 0x84a2 0xaf53;
  It 0x84a3 0xaf54;
  It 0x84a4 0xaf55;
  It 0x84a5 0xaf56;
  It 0x84a6 0xaf57;
  It 0x84a7 0xaf58;
  It 0x84a8 0xaf59;
  It 0x84a9 0xaf5a;
  It 0x84aa 0xaf5b;
  It 0x84ab 0xaf5e;
  It 0x84ac 0xaf5f;
  It 0x84ad 0xaf60;
  It 0x84ae 0xaf61;
  It 0x84af 0xaf62;
  It 0x84b0 0xaf63;
  It 0x84b1 0xaf66;
  It 0x84b2 0xaf67;
  It 0x84b3 0xaf68;
  It 0x84b4 0xaf69;
  It 0x84b5 0xaf6a;
  It 0x84b6 0xaf6b;
  It 0x84b7 0xaf6c;
  It 0x84b8 0xaf6d;
  It 0x84b9 0xaf6e;
  It 0x84ba 0xaf6f;
  It 0x84bb 0xaf70;
  It 0x84bc 0xaf71;
  It 0x84bd 0xaf72;
  It 0x84be 0xaf73;
  It 0x84bf 0xaf74;
  It 0x84c0 0xaf75;
  It 0x84c1 0xaf76;
  It 0x84c2 0xaf77;
  It 0x84c3 0xaf78;
  It 0x84c4 0xaf7a;
  It 0x84c5 0xaf7b;
  It 0x84c6 0xaf7c;
  It 0x84c7 0xaf7d;
  It 0x84c8 0xaf7e;
  It 0x84c9 0xaf7f;
  It 0x84ca 0xaf81;
  It 0x84cb 0xaf82;
  It 0x84cc 0xaf83;
  It 0x84cd 0xaf85;
  It 0x84ce 0xaf86;
  It 0x84cf 0xaf87;
  It 0x84d0 0xaf89;
  It 0x84d1 0xaf8a;
  It 0x84d2 0xaf8b;
  It 0x84d3 0xaf8c;
  It 0x84d4 0xaf8d;
  It 0x84d5 0xaf8e;
  It 0x84d6 0xaf8f;
  It 0x84d7 0xaf92;
  It 0x84d8 0xaf93;
  It 0x84d9 0xaf94;
  It 0x84da 0xaf96;
  It 0x84db 0xaf97;
  It 0x84dc 0xaf98;
  It 0x84dd 0xaf99;
  It 0x84de 0xaf9a;
  It 0x84df 0xaf9b;
  It 0x84e0 0xaf9d;
  It 0x84e1 0xaf9e;
  It 0x84e2 0xaf9f;
  It 0x84e3 0xafa0;
  It 0x84e4 0xafa1;
  It 0x84e5 0xafa2;
  It 0x84e6 0xafa3;
  It 0x84e7 0xafa4;
  It 0x84e8 0xafa5;
  It 0x84e9 0xafa6;
  It 0x84ea 0xafa7;
  It 0x84eb 0xafa8;
  It 0x84ec 0xafa9;
  It 0x84ed 0xafaa;
  It 0x84ee 0xafab;
  It 0x84ef 0xafac;
  It 0x84f0 0xafad;
  It 0x84f1 0xafae;
  It 0x84f2 0xafaf;
  It 0x84f3 0xafb0;
  It 0x84f4 0xafb1;
  It 0x84f5 0xafb2;
  It 0x84f6 0xafb3;
  It 0x84f7 0xafb4;
  It 0x84f8 0xafb5;
  It 0x84f9 0xafb6;
  It 0x84fa 0xafb7;
  It 0x84fb 0xafba;
  It 0x84fc 0xafbb;
  It 0x84fd 0xafbd;
  It 0x84fe 0xafbe;
  It 0x8541 0xafbf;
  It 0x8542 0xafc1;
  It 0x8543 0xafc2;
  It 0x8544 0xafc3;
  It 0x8545 0xafc4;
  It 0x8546 0xafc5;
  It 0x8547 0xafc6;
  It 0x8548 0xafca;
  It 0x8549 0xafcc;
  It 0x854a 0xafcf;
  It 0x854b 0xafd0;
  It 0x854c 0xafd1;
  It 0x854d 0xafd2;
  It 0x854e 0xafd3;
  It 0x854f 0xafd5;
  It 0x8550 0xafd6;
  It 0x8551 0xafd7;
  It 0x8552 0xafd8;
  It 0x8553 0xafd9;
  It 0x8554 0xafda;
  It 0x8555 0xafdb;
  It 0x8556 0xafdd;
  It 0x8557 0xafde;
  It 0x8558 0xafdf;
  It 0x8559 0xafe0;
  It 0x855a 0xafe1;
  It 0x8561 0xafe2;
  It 0x8562 0xafe3;
  It 0x8563 0xafe4;
  It 0x8564 0xafe5;
  It 0x8565 0xafe6;
  It 0x8566 0xafe7;
  It 0x8567 0xafea;
  It 0x8568 0xafeb;
  It 0x8569 0xafec;
  It 0x856a 0xafed;
  It 0x856b 0xafee;
  It 0x856c 0xafef
].

(* encoding/cp949/lookup_from.go:759-1008 *)
Definition fromTable_003 : list lookupItem := [
  It 0x856d 0xaff2;
  It 0x856e 0xaff3;
  It 0x856f 0xaff5;
  It 0x8570 0xaff6;
  It 0x8571 0xaff7;
  It 0x8572 0xaff9;
  It 0x8573 0xaffa;
  It 0x8574 0xaffb;
  It 0x8575 0xaffc;
  It 0x8576 0xaffd;
  It 0x8577 0xaffe;
  It 0x8578 0xafff;
  It 0x8579 0xb002;
  It 0x857a 0xb003;
  It 0x8581 0xb005;
  It 0x8582 0xb006;
  It 0x8583 0xb007;
  It 0x8584 0xb008;
  It 0x8585 0xb009;
  It 0x8586 0xb00a;
  It 0x8587 0xb00b;
  It 0x8588 0xb00d;
  It 0x8589 0xb00e;
  It 0x858a 0xb00f;
  It 0x858b 0xb011;
  It 0x858c 0xb012;
  It 0x858d 0xb013;
  It 0x858e 0xb015;
  It 0x858f 0xb016;
  It 0x8590 0xb017;
  It 0x8591 0xb018;
  It 0x8592 0xb019;
  It 0x8593 0xb01a;
  It 0x8594 0xb01b;
  It 0x8595 0xb01e;
  It 0x8596 0xb01f;
  It 0x8597 0xb020;
  It 0x8598 0xb021;
  It 0x8599 0xb022;
  It 0x859a 0xb023;
  It 0x859b 0xb024;
  It 0x859c 0xb025;
  It 0x859d 0xb026;
  It 0x859e 0xb027;
  It 0x859f 0xb029;
  It 0x85a0 0xb02a;
  It 0x85a1 0xb02b;
  It 0x85a2 0xb02c;
  It 0x85a3 0xb02d;
  It 0x85a4 0xb02e;
  It 0x85a5 0xb02f;
  It 0x85a6 0xb030;
  It 0x85a7 0xb031;
  It 0x85a8 0xb032;
  It 0x85a9 0xb033;
  It 0x85aa 0xb034;
  It 0x85ab 0xb035;
  It 0x85ac 0xb036;
  It 0x85ad 0xb037;
  It 0x85ae 0xb038;
  It 0x85af 0xb039;
  It 0x85b0 0xb03a;
  It 0x85b1 0xb03b;
  It 0x85b2 0xb03c;
  It 0x85b3 0xb03d;
  It 0x85b4 0xb03e;
  It 0x85b5 0xb03f;
  It 0x85b6 0xb040;
  It 0x85b7 0xb041;
  It 0x85b8 0xb042;
  It 0x85b9 0xb043;
  It 0x85ba 0xb046;
  It 0x85bb 0xb047;
  It 0x85bc 0xb049;
  It 0x85bd 0xb04b;
  It 0x85be 0xb04d;
  It 0x85bf 0xb04f;
  It 0x85c0 0xb050;
  It 0x85c1 0xb051;
  It 0x85c2 0xb052;
  It 0x85c3 0xb056;
  It 0x85c4 0xb058;
  It 0x85c5 0xb05a;
  It 0x85c6 0xb05b;
  It 0x85c7 0xb05c;
  It 0x85c8 0xb05e;
  It 0x85c9 0xb05f;
  It 0x85ca 0xb060;
  It 0x85cb 0xb061;
  It 0x85cc 0xb062;
  It 0x85cd 0xb063;
  It 0x85ce 0xb064;
  It 0x85cf 0xb065;
  It 0x85d0 0xb066;
  It 0x85d1 0xb067;
  It 0x85d2 0xb068;
  It 0x85d3 0xb069;
  It 0x85d4 0xb06a;
  It 0x85d5 0xb06b;
  It 0x85d6 0xb06c;
  It 0x85d7 0xb06d;
  It 0x85d8 0xb06e;
  It 0x85d9 0xb06f;
  It 0x85da 0xb070;
  It 0x85db 0xb071;
  It 0x85dc 0xb072;
  It 0x85dd 0xb073;
  It 0x85de 0xb074;
  It 0x85df 0xb075;
  It 0x85e0 0xb076;
  It 0x85e1 0xb077;
  It 0x85e2 0xb078;
  It 0x85e3 0xb079;
  It 0x85e4 0xb07a;
  It 0x85e5 0xb07b;
  It 0x85e6 0xb07e;
  It 0x85e7 0xb07f;
  It 0x85e8 0xb081;
  It 0x85e9 0xb082;
  It 0x85ea 0xb083;
  It 0x85eb 0xb085;
  It 0x85ec 0xb086;
  It 0x85ed 0xb087;
  It 0x85ee 0xb088;
  It 0x85ef 0xb089;
  It 0x85f0 0xb08a;
  It 0x85f1 0xb08b;
  It 0x85f2 0xb08e;
  It 0x85f3 0xb090;
  It 0x85f4 0xb092;
  It 0x85f5 0xb093;
  It 0x85f6 0xb094;
  It 0x85f7 0xb095;
  It 0x85f8 0xb096;
  It 0x85f9 0xb097;
  It 0x85fa 0xb09b;
  It 0x85fb 0xb09d;
  It 0x85fc 0xb09e;
  It 0x85fd 0xb0a3;
  It 0x85fe 0xb0a4;
  It 0x8641 0xb0a5;
  It 0x8642 0xb0a6;
  It 0x8643 0xb0a7;
  It 0x8644 0xb0aa;
  It 0x8645 0xb0b0;
  It 0x8646 0xb0b2;
  It 0x8647 0xb0b6;
  It 0x8648 0xb0b7;
  It 0x8649 0xb0b9;
  It 0x864a 0xb0ba;
  It 0x864b 0xb0bb;
  It 0x864c 0xb0bd;
  It 0x864d 0xb0be;
  It 0x864e 0xb0bf;
  It 0x864f 0xb0c0;
  It 0x8650 0xb0c1;
  It 0x8651 0xb0c2;
  It 0x8652 0xb0c3;
  It 0x8653 0xb0c6;
  It 0x8654 0xb0ca;
  It 0x8655 0xb0cb;
  It 0x8656 0xb0cc;
  It 0x8657 0xb0cd;
  It 0x8658 0xb0ce;
  It 0x8659 0xb0cf;
  It 0x865a 0xb0d2;
  It 0x8661 0xb0d3;
  It 0x8662 0xb0d5;
  It 0x8663 0xb0d6;
  It 0x8664 0xb0d7;
  It 0x8665 0xb0d9;
  It 0x8666 0xb0da;
  It 0x8667 0xb0db;
  It 0x8668 0xb0dc;
  It 0x8669 0xb0dd;
  It 0x866a 0xb0de;
  It 0x866b 0xb0df;
  It 0x866c 0xb0e1;
  It 0x866d 0xb0e2;
  It 0x866e 0xb0e3;
  It 0x866f 0xb0e4;
  It 0x8670 0xb0e6;
  It 0x8671 0xb0e7;
  It 0x8672 0xb0e8;
  It 0x8673 0xb0e9;
  It 0x8674 0xb0ea;
  It 0x8675 0xb0eb;
  It 0x8676 0xb0ec;
  It 0x8677 0xb0ed;
  It 0x8678 0xb0ee;
  It 0x8679 0xb0ef;
  It 0x867a 0xb0f0;
  It 0x8681 0xb0f1;
  It 0x8682 0xb0f2;
  It 0x8683 0xb0f3;
  It 0x8684 0xb0f4;
  It 0x8685 0xb0f5;
  It 0x8686 0xb0f6;
  It 0x8687 0xb0f7;
  It 0x8688 0xb0f8;
  It 0x8689 0xb0f9;
  It 0x868a 0xb0fa;
  It 0x868b 0xb0fb;
  It 0x868c 0xb0fc;
  It 0x868d 0xb0fd;
  It 0x868e 0xb0fe;
  It 0x868f 0xb0ff;
  It 0x8690 0xb100;
  It 0x8691 0xb101;
  It 0x8692 0xb102;
  It 0x8693 0xb103;
  It 0x8694 0xb104;
  It 0x8695 0xb105;
  It 0x8696 0xb106;
  It 0x8697 0xb107;
  It 0x8698 0xb10a;
  It 0x8699 0xb10d;
  It 0x869a 0xb10e;
  It 0x869b 0xb10f;
  It 0x869c 0xb111;
  It 0x869d 0xb114;
  It 0x869e 0xb115;
  It 0x869f 0xb116;
  It 0x86a0 0xb117;
  It 0x86a1 0xb11a;
  It 0x86a2 0xb11e;
  It 0x86a3 0xb11f;
  It 0x86a4 0xb120;
  It 0x86a5 0xb121;
  It 0x86a6 0xb122;
  It 0x86a7 0xb126;
  It 0x86a8 0xb127;
  It 0x86a9 0xb129;
  It 0x86aa 0xb12a;
  It 0x86ab 0xb12b;
  It 0x86ac 0xb12d;
  It 0x86ad 0xb12e;
  It 0x86ae 0xb12f;
  It 0x86af 0xb130;
  It 0x86b0 0xb131;
  It 0x86b1 0xb132;
  It 0x86b2 0xb133;
  It 0x86b3 0xb136;
  It 0x86b4 0xb13a;
  It 0x86b5 0xb13b;
  It 0x86b6 0xb13c;
  It 0x86b7 0xb13d;
  It 0x86b8 0xb13e;
  It 0x86b9 0xb13f;
  It 0x86ba 0xb142
].

(* encoding/cp949/lookup_from.go:1009-1258 *)
Definition fromTable_004 : list lookupItem := [
  It 0x86bb 0xb143;
  It 0x86bc 0xb145;
  It 0x86bd 0xb146;
  It 0x86be 0xb147;
  It 0x86bf 0xb149;
  It 0x86c0 0xb14a;
  It 0x86c1 0xb14b;
  It 0x86c2 0xb14c;
  It 0x86c3 0xb14d;
  It 0x86c4 0xb14e;
  It 0x86c5 0xb14f;
  It 0x86c6 0xb152;
  It 0x86c7 0xb153;
  It 0x86c8 0xb156;
  It 0x86c9 0xb157;
  It 0x86ca 0xb159;
  It 0x86cb 0xb15a;
  It 0x86cc 0xb15b;
  It 0x86cd 0xb15d;
  It 0x86ce 0xb15e;
  It 0x86cf 0xb15f;
  It 0x86d0 0xb161;
  It 0x86d1 0xb162;
  It 0x86d2 0xb163;
  It 0x86d3 0xb164;
  It 0x86d4 0xb165;
  It 0x86d5 0xb166;
  It 0x86d6 0xb167;
  It 0x86d7 0xb168;
  It 0x86d8 0xb169;
  It 0x86d9 0xb16a;
  It 0x86da 0xb16b;
  It 0x86db 0xb16c;
  It 0x86dc 0xb16d;
  It 0x86dd 0xb16e;
  It 0x86de 0xb16f;
  It 0x86df 0xb170;
  It 0x86e0 0xb171;
  It 0x86e1 0xb172;
  It 0x86e2 0xb173;
  It 0x86e3 0xb174;
  It 0x86e4 0xb175;
  It 0x86e5 0xb176;
  It 0x86e6 0xb177;
  It 0x86e7 0xb17a;
  It 0x86e8 0xb17b;
  It 0x86e9 0xb17d;
  It 0x86ea 0xb17e;
  It 0x86eb 0xb17f;
  It 0x86ec 0xb181;
  It 0x86ed 0xb183;
  It 0x86ee 0xb184;
  It 0x86ef 0xb185;
  It 0x86f0 0xb186;
  It 0x86f1 0xb187;
  It 0x86f2 0xb18a;
  It 0x86f3 0xb18c;
  It 0x86f4 0xb18e;
  It 0x86f5 0xb18f;
  It 0x86f6 0xb190;
  It 0x86f7 0xb191;
  It 0x86f8 0xb195;
  It 0x86f9 0xb196;
  It 0x86fa 0xb197;
  It 0x86fb 0xb199;
  It 0x86fc 0xb19a;
  It 0x86fd 0xb19b;
  It 0x86fe 0xb19d;
  It 0x8741 0xb19e;
  It 0x8742 0xb19f;
  It 0x8743 0xb1a0;
  It 0x8744 0xb1a1;
  It 0x8745 0xb1a2;
  It 0x8746 0xb1a3;
  It 0x8747 0xb1a4;
  It 0x8748 0xb1a5;
  It 0x8749 0xb1a6;
  It 0x874a 0xb1a7;
  It 0x874b 0xb1a9;
  It 0x874c 0xb1aa;
  It 0x874d 0xb1ab;
  It 0x874e 0xb1ac;
  It 0x874f 0xb1ad;
  It 0x8750 0xb1ae;
  It 0x8751 0xb1af;
  It 0x8752 0xb1b0;
  It 0x8753 0xb1b1;
  It 0x8754 0xb1b2;
  It 0x8755 0xb1b3;
  It 0x8756 0xb1b4;
  It 0x8757 0xb1b5;
  It 0x8758 0xb1b6;
  It 0x8759 0xb1b7;
  It 0x875a 0xb1b8;
  It 0x8761 0xb1b9;
  It 0x8762 0xb1ba;
  It 0x8763 0xb1bb;
  It 0x8764 0xb1bc;
  It 0x8765 0xb1bd;
  It 0x8766 0xb1be;
  It 0x8767 0xb1bf;
  It 0x8768 0xb1c0;
  It 0x8769 0xb1c1;
  It 0x876a 0xb1c2;
  It 0x876b 0xb1c3;
  It 0x876c 0xb1c4;
  It 0x876d 0xb1c5;
  It 0x876e 0xb1c6;
  It 0x876f 0xb1c7;
  It 0x8770 0xb1c8;
  It 0x8771 0xb1c9;
  It 0x8772 0xb1ca;
  It 0x8773 0xb1cb;
  It 0x8774 0xb1cd;
  It 0x8775 0xb1ce;
  It 0x8776 0xb1cf;
  It 0x8777 0xb1d1;
  It 0x8778 0xb1d2;
  It 0x8779 0xb1d3;
  It 0x877a 0xb1d5;
  It 0x8781 0xb1d6;
  It 0x8782 0xb1d7;
  It 0x8783 0xb1d8;
  It 0x8784 0xb1d9;
  It 0x8785 0xb1da;
  It 0x8786 0xb1db;
  It 0x8787 0xb1de;
  It 0x8788 0xb1e0;
  It 0x8789 0xb1e1;
  It 0x878a 0xb1e2;
  It 0x878b 0xb1e3;
  It 0x878c 0xb1e4;
  It 0x878d 0xb1e5;
  It 0x878e 0xb1e6;
  It 0x878f 0xb1e7;
  It 0x8790 0xb1ea;
  It 0x8791 0xb1eb;
  It 0x8792 0xb1ed;
  It 0x8793 0xb1ee;
  It 0x8794 0xb1ef;
  It 0x8795 0xb1f1;
  It 0x8796 0xb1f2;
  It 0x8797 0xb1f3;
  It 0x8798 0xb1f4;
  It 0x8799 0xb1f5;
  It 0x879a 0xb1f6;
  It 0x879b 0xb1f7;
  It 0x879c 0xb1f8;
  It 0x879d 0xb1fa;
  It 0x879e 0xb1fc;
  It 0x879f 0xb1fe;
  It 0x87a0 0xb1ff;
  It 0x87a1 0xb200;
  It 0x87a2 0xb201;
  It 0x87a3 0xb202;
  It 0x87a4 0xb203;
  It 0x87a5 0xb206;
  It 0x87a6 0xb207;
  It 0x87a7 0xb209;
  It 0x87a8 0xb20a;
  It 0x87a9 0xb20d;
  It 0x87aa 0xb20e;
  It 0x87ab 0xb20f;
  It 0x87ac 0xb210;
  It 0x87ad 0xb211;
  It 0x87ae 0xb212;
  It 0x87af 0xb213;
  It 0x87b0 0xb216;
  It 0x87b1 0xb218;
  It 0x87b2 0xb21a;
  It 0x87b3 0xb21b;
  It 0x87b4 0xb21c;
  It 0x87b5 0xb21d;
  It 0x87b6 0xb21e;
  It 0x87b7 0xb21f;
  It 0x87b8 0xb221;
  It 0x87b9 0xb222;
  It 0x87ba 0xb223;
  It 0x87bb 0xb224;
  It 0x87bc 0xb225;
  It 0x87bd 0xb226;
  It 0x87be 0xb227;
  It 0x87bf 0xb228;
  It 0x87c0 0xb229;
  It 0x87c1 0xb22a;
  It 0x87c2 0xb22b;
  It 0x87c3 0xb22c;
  It 0x87c4 0xb22d;
  It 0x87c5 0xb22e;
  It 0x87c6 0xb22f;
  It 0x87c7 0xb230;
  It 0x87c8 0xb231;
  It 0x87c9 0xb232;
  It 0x87ca 0xb233;
  It 0x87cb 0xb235;
  It 0x87cc 0xb236;
  It 0x87cd 0xb237;
  It 0x87ce 0xb238;
  It 0x87cf 0xb239;
  It 0x87d0 0xb23a;
  It 0x87d1 0xb23b;
  It 0x87d2 0xb23d;
  It 0x87d3 0xb23e;
  It 0x87d4 0xb23f;
  It 0x87d5 0xb240;
  It 0x87d6 0xb241;
  It 0x87d7 0xb242;
  It 0x87d8 0xb243;
  It 0x87d9 0xb244;
  It 0x87da 0xb245;
  It 0x87db 0xb246;
  It 0x87dc 0xb247;
  It 0x87dd 0xb248;
  It 0x87de 0xb249;
  It 0x87df 0xb24a;
  It 0x87e0 0xb24b;
  It 0x87e1 0xb24c;
  It 0x87e2 0xb24d;
  It 0x87e3 0xb24e;
  It 0x87e4 0xb24f;
  It 0x87e5 0xb250;
  It 0x87e6 0xb251;
  It 0x87e7 0xb252;
  It 0x87e8 0xb253;
  It 0x87e9 0xb254;
  It 0x87ea 0xb255;
  It 0x87eb 0xb256;
  It 0x87ec 0xb257;
  It 0x87ed 0xb259;
  It 0x87ee 0xb25a;
  It 0x87ef 0xb25b;
  It 0x87f0 0xb25d;
  It 0x87f1 0xb25e;
  It 0x87f2 0xb25f;
  It 0x87f3 0xb261;
  It 0x87f4 0xb262;
  It 0x87f5 0xb263;
  It 0x87f6 0xb264;
  It 0x87f7 0xb265;
  It 0x87f8 0xb266;
  It 0x87f9 0xb267;
  It 0x87fa 0xb26a;
  It 0x87fb 0xb26b;
  It 0x87fc 0xb26c;
  It 0x87fd 0xb26d;
  It 0x87fe 0xb26e;
  It 0x8841 0xb26f;
  It 0x8842 0xb270;
  It 0x8843 0xb271;
  It 0x8844 0xb272
].

(* encoding/cp949/lookup_from.go:1259-1508 *)
Definition fromTable_005 : list lookupItem := [
  It 0x8845 0xb273;
  It 0x8846 0xb276;
  It 0x8847 0xb277;
  It 0x8848 0xb278;
  It 0x8849 0xb279;
  It 0x884a 0xb27a;
  It 0x884b 0xb27b;
  It 0x884c 0xb27d;
  It 0x884d 0xb27e;
  It 0x884e 0xb27f;
  It 0x884f 0xb280;
  It 0x8850 0xb281;
  It 0x8851 0xb282;
  It 0x8852 0xb283;
  It 0x8853 0xb286;
  It 0x8854 0xb287;
  It 0x8855 0xb288;
  It 0x8856 0xb28a;
  It 0x8857 0xb28b;
  It 0x8858 0xb28c;
  It 0x8859 0xb28d;
  It 0x885a 0xb28e;
  It 0x8861 0xb28f;
  It 0x8862 0xb292;
  It 0x8863 0xb293;
  It 0x8864 0xb295;
  It 0x8865 0xb296;
  It 0x8866 0xb297;
  It 0x8867 0xb29b;
  It 0x8868 0xb29c;
  It 0x8869 0xb29d;
  It 0x886a 0xb29e;
  It 0x886b 0xb29f;
  It 0x886c 0xb2a2;
  It 0x886d 0xb2a4;
  It 0x886e 0xb2a7;
  It 0x886f 0xb2a8;
  It 0x8870 0xb2a9;
  It 0x8871 0xb2ab;
  It 0x8872 0xb2ad;
  It 0x8873 0xb2ae;
  It 0x8874 0xb2af;
  It 0x8875 0xb2b1;
  It 0x8876 0xb2b2;
  It 0x8877 0xb2b3;
  It 0x8878 0xb2b5;
  It 0x8879 0xb2b6;
  It 0x887a 0xb2b7;
  It 0x8881 0xb2b8;
  It 0x8882 0xb2b9;
  It 0x8883 0xb2ba;
  It 0x8884 0xb2bb;
  It 0x8885 0xb2bc;
  It 0x8886 0xb2bd;
  It 0x8887 0xb2be;
  It 0x8888 0xb2bf;
  It 0x8889 0xb2c0;
  It 0x888a 0xb2c1;
  It 0x888b 0xb2c2;
  It 0x888c 0xb2c3;
  It 0x888d 0xb2c4;
  It 0x888e 0xb2c5;
  It 0x888f 0xb2c6;
  It 0x8890 0xb2c7;
  It 0x8891 0xb2ca;
  It 0x8892 0xb2cb;
  It 0x8893 0xb2cd;
  It 0x8894 0xb2ce;
  It 0x8895 0xb2cf;
  It 0x8896 0xb2d1;
  It 0x8897 0xb2d3;
  It 0x8898 0xb2d4;
  It 0x8899 0xb2d5;
  It 0x889a 0xb2d6;
  It 0x889b 0xb2d7;
  It 0x889c 0xb2da;
  It 0x889d 0xb2dc;
  It 0x889e 0xb2de;
  It 0x889f 0xb2df;
  It 0x88a0 0xb2e0;
  It 0x88a1 0xb2e1;
  It 0x88a2 0xb2e3;
  It 0x88a3 0xb2e7;
  It 0x88a4 0xb2e9;
  It 0x88a5 0xb2ea;
  It 0x88a6 0xb2f0;
  It 0x88a7 0xb2f1;
  It 0x88a8 0xb2f2;
  It 0x88a9 0xb2f6;
  It 0x88aa 0xb2fc;
  It 0x88ab 0xb2fd;
  It 0x88ac 0xb2fe;
  It 0x88ad 0xb302;
  It 0x88ae 0xb303;
  It 0x88af 0xb305;
  It 0x88b0 0xb306;
  It 0x88b1 0xb307;
  It 0x88b2 0xb309;
  It 0x88b3 0xb30a;
  It 0x88b4 0xb30b;
  It 0x88b5 0xb30c;
  It 0x88b6 0xb30d;
  It 0x88b7 0xb30e;
  It 0x88b8 0xb30f;
  It 0x88b9 0xb312;
  It 0x88ba 0xb316;
  It 0x88bb 0xb317;
  It 0x88bc 0xb318;
  It 0x88bd 0xb319;
  It 0x88be 0xb31a;
  It 0x88bf 0xb31b;
  It 0x88c0 0xb31d;
  It 0x88c1 0xb31e;
  It 0x88c2 0xb31f;
  It 0x88c3 0xb320;
  It 0x88c4 0xb321;
  It 0x88c5 0xb322;
  It 0x88c6 0xb323;
  It 0x88c7 0xb324;
  It 0x88c8 0xb325;
  It 0x88c9 0xb326;
  It 0x88ca 0xb327;
  It 0x88cb 0xb328;
  It 0x88cc 0xb329;
  It 0x88cd 0xb32a;
  It 0x88ce 0xb32b;
  It 0x88cf 0xb32c;
  It 0x88d0 0xb32d;
  It 0x88d1 0xb32e;
  It 0x88d2 0xb32f;
  It 0x88d3 0xb330;
  It 0x88d4 0xb331;
  It 0x88d5 0xb332;
  It 0x88d6 0xb333;
  It 0x88d7 0xb334;
  It 0x88d8 0xb335;
  It 0x88d9 0xb336;
  It 0x88da 0xb337;
  It 0x88db 0xb338;
  It 0x88dc 0xb339;
  It 0x88dd 0xb33a;
  It 0x88de 0xb33b;
  It 0x88df 0xb33c;
  It 0x88e0 0xb33d;
  It 0x88e1 0xb33e;
  It 0x88e2 0xb33f;
  It 0x88e3 0xb340;
  It 0x88e4 0xb341;
  It 0x88e5 0xb342;
  It 0x88e6 0xb343;
  It 0x88e7 0xb344;
  It 0x88e8 0xb345;
  It 0x88e9 0xb346;
  It 0x88ea 0xb347;
  It 0x88eb 0xb348;
  It 0x88ec 0xb349;
  It 0x88ed 0xb34a;
  It 0x88ee 0xb34b;
  It 0x88ef 0xb34c;
  It 0x88f0 0xb34d;
  It 0x88f1 0xb34e;
  It 0x88f2 0xb34f;
  It 0x88f3 0xb350;
  It 0x88f4 0xb351;
  It 0x88f5 0xb352;
  It 0x88f6 0xb353;
  It 0x88f7 0xb357;
  It 0x88f8 0xb359;
  It 0x88f9 0xb35a;
  It 0x88fa 0xb35d;
  It 0x88fb 0xb360;
  It 0x88fc 0xb361;
  It 0x88fd 0xb362;
  It 0x88fe 0xb363;
  It 0x8941 0xb366;
  It 0x8942 0xb368;
  It 0x8943 0xb36a;
  It 0x8944 0xb36c;
  It 0x8945 0xb36d;
  It 0x8946 0xb36f;
  It 0x8947 0xb372;
  It 0x8948 0xb373;
  It 0x8949 0xb375;
  It 0x894a 0xb376;
  It 0x894b 0xb377;
  It 0x894c 0xb379;
  It 0x894d 0xb37a;
  It 0x894e 0xb37b;
  It 0x894f 0xb37c;
  It 0x8950 0xb37d;
  It 0x8951 0xb37e;
  It 0x8952 0xb37f;
  It 0x8953 0xb382;
  It 0x8954 0xb386;
  It 0x8955 0xb387;
  It 0x8956 0xb388;
  It 0x8957 0xb389;
  It 0x8958 0xb38a;
  It 0x8959 0xb38b;
  It 0x895a 0xb38d;
  It 0x8961 0xb38e;
  It 0x8962 0xb38f;
  It 0x8963 0xb391;
  It 0x8964 0xb392;
  It 0x8965 0xb393;
  It 0x8966 0xb395;
  It 0x8967 0xb396;
  It 0x8968 0xb397;
  It 0x8969 0xb398;
  It 0x896a 0xb399;
  It 0x896b 0xb39a;
  It 0x896c 0xb39b;
  It 0x896d 0xb39c;
  It 0x896e 0xb39d;
  It 0x896f 0xb39e;
  It 0x8970 0xb39f;
  It 0x8971 0xb3a2;
  It 0x8972 0xb3a3;
  It 0x8973 0xb3a4;
  It 0x8974 0xb3a5;
  It 0x8975 0xb3a6;
  It 0x8976 0xb3a7;
  It 0x8977 0xb3a9;
  It 0x8978 0xb3aa;
  It 0x8979 0xb3ab;
  It 0x897a 0xb3ad;
  It 0x8981 0xb3ae;
  It 0x8982 0xb3af;
  It 0x8983 0xb3b0;
  It 0x8984 0xb3b1;
  It 0x8985 0xb3b2;
  It 0x8986 0xb3b3;
  It 0x8987 0xb3b4;
  It 0x8988 0xb3b5;
  It 0x8989 0xb3b6;
  It 0x898a 0xb3b7;
  It 0x898b 0xb3b8;
  It 0x898c 0xb3b9;
  It 0x898d 0xb3ba;
  It 0x898e 0xb3bb;
  It 0x898f 0xb3bc;
  It 0x8990 0xb3bd;
  It 0x8991 0xb3be;
  It 0x8992 0xb3bf;
  It 0x8993 0xb3c0;
  It 0x8994 0xb3c1;
  It 0x8995 0xb3c2;
  It 0x8996 0xb3c3;
  It 0x8997 0xb3c6;
  It 0x8998 0xb3c7
].

(* encoding/cp949/lookup_from.go:1509-1758 *)
Definition fromTable_006 : list lookupItem := [
  It 0x8999 0xb3c9;
  It 0x899a 0xb3ca;
  It 0x899b 0xb3cd;
  It 0x899c 0xb3cf;
  It 0x899d 0xb3d1;
  It 0x899e 0xb3d2;
  It 0x899f 0xb3d3;
  It 0x89a0 0xb3d6;
  It 0x89a1 0xb3d8;
  It 0x89a2 0xb3da;
  It 0x89a3 0xb3dc;
  It 0x89a4 0xb3de;
  It 0x89a5 0xb3df;
  It 0x89a6 0xb3e1;
  It 0x89a7 0xb3e2;
  It 0x89a8 0xb3e3;
  It 0x89a9 0xb3e5;
  It 0x89aa 0xb3e6;
  It 0x89ab 0xb3e7;
  It 0x89ac 0xb3e9;
  It 0x89ad 0xb3ea;
  It 0x89ae 0xb3eb;
  It 0x89af 0xb3ec;
  It 0x89b0 0xb3ed;
  It 0x89b1 0xb3ee;
  It 0x89b2 0xb3ef;
  It 0x89b3 0xb3f0;
  It 0x89b4 0xb3f1;
  It 0x89b5 0xb3f2;
  It 0x89b6 0xb3f3;
  It 0x89b7 0xb3f4;
  It 0x89b8 0xb3f5;
  It 0x89b9 0xb3f6;
  It 0x89ba 0xb3f7;
  It 0x89bb 0xb3f8;
  It 0x89bc 0xb3f9;
  It 0x89bd 0xb3fa;
  It 0x89be 0xb3fb;
  It 0x89bf 0xb3fd;
  It 0x89c0 0xb3fe;
  It 0x89c1 0xb3ff;
  It 0x89c2 0xb400;
  It 0x89c3 0xb401;
  It 0x89c4 0xb402;
  It 0x89c5 0xb403;
  It 0x89c6 0xb404;
  It 0x89c7 0xb405;
  It 0x89c8 0xb406;
  It 0x89c9 0xb407;
  It 0x89ca 0xb408;
  It 0x89cb 0xb409;
  It 0x89cc 0xb40a;
  It 0x89cd 0xb40b;
  It 0x89ce 0xb40c;
  It 0x89cf 0xb40d;
  It 0x89d0 0xb40e;
  It 0x89d1 0xb40f;
  It 0x89d2 0xb411;
  It 0x89d3 0xb412;
  It 0x89d4 0xb413;
  It 0x89d5 0xb414;
  It 0x89d6 0xb415;
  It 0x89d7 0xb416;
  It 0x89d8 0xb417;
  It 0x89d9 0xb419;
  It 0x89da 0xb41a;
  It 0x89db 0xb41b;
  It 0x89dc 0xb41d;
  It 0x89dd 0xb41e;
  It 0x89de 0xb41f;
  It 0x89df 0xb421;
  It 0x89e0 0xb422;
  It 0x89e1 0xb423;
  It 0x89e2 0xb424;
  It 0x89e3 0xb425;
  It 0x89e4 0xb426;
  It 0x89e5 0xb427;
  It 0x89e6 0xb42a;
  It 0x89e7 0xb42c;
  It 0x89e8 0xb42d;
  It 0x89e9 0xb42e;
  It 0x89ea 0xb42f;
  It 0x89eb 0xb430;
  It 0x89ec 0xb431;
  It 0x89ed 0xb432;
  It 0x89ee 0xb433;
  It 0x89ef 0xb435;
  It 0x89f0 0xb436;
  It 0x89f1 0xb437;
  It 0x89f2 0xb438;
  It 0x89f3 0xb439;
  It 0x89f4 0xb43a;
  It 0x89f5 0xb43b;
  It 0x89f6 0xb43c;
  It 0x89f7 0xb43d;
  It 0x89f8 0xb43e;
  It 0x89f9 0xb43f;
  It 0x89fa 0xb440;
  It 0x89fb 0xb441;
  It 0x89fc 0xb442;
  It 0x89fd 0xb443;
  It 0x89fe 0xb444;
  It 0x8a41 0xb445;
  It 0x8a42 0xb446;
  It 0x8a43 0xb447;
  It 0x8a44 0xb448;
  It 0x8a45 0xb449;
  It 0x8a46 0xb44a;
  It 0x8a47 0xb44b;
  It 0x8a48 0xb44c;
  It 0x8a49 0xb44d;
  It 0x8a4a 0xb44e;
  It 0x8a4b 0xb44f;
  It 0x8a4c 0xb452;
  It 0x8a4d 0xb453;
  It 0x8a4e 0xb455;
  It 0x8a4f 0xb456;
  It 0x8a50 0xb457;
  It 0x8a51 0xb459;
  It 0x8a52 0xb45a;
  It 0x8a53 0xb45b;
  It 0x8a54 0xb45c;
  It 0x8a55 0xb45d;
  It 0x8a56 0xb45e;
  It 0x8a57 0xb45f;
  It 0x8a58 0xb462;
  It 0x8a59 0xb464;
  It 0x8a5a 0xb466;
  It 0x8a61 0xb467;
  It 0x8a62 0xb468;
  It 0x8a63 0xb469;
  It 0x8a64 0xb46a;
  It 0x8a65 0xb46b;
  It 0x8a66 0xb46d;
  It 0x8a67 0xb46e;
  It 0x8a68 0xb46f;
  It 0x8a69 0xb470;
  It 0x8a6a 0xb471;
  It 0x8a6b 0xb472;
  It 0x8a6c 0xb473;
  It 0x8a6d 0xb474;
  It 0x8a6e 0xb475;
  It 0x8a6f 0xb476;
  It 0x8a70 0xb477;
  It 0x8a71 0xb478;
  It 0x8a72 0xb479;
  It 0x8a73 0xb47a;
  It 0x8a74 0xb47b;
  It 0x8a75 0xb47c;
  It 0x8a76 0xb47d;
  It 0x8a77 0xb47e;
  It 0x8a78 0xb47f;
  It 0x8a79 0xb481;
  It 0x8a7a 0xb482;
  It 0x8a81 0xb483;
  It 0x8a82 0xb484;
  It 0x8a83 0xb485;
  It 0x8a84 0xb486;
  It 0x8a85 0xb487;
  It 0x8a86 0xb489;
  It 0x8a87 0xb48a;
  It 0x8a88 0xb48b;
  It 0x8a89 0xb48c;
  It 0x8a8a 0xb48d;
  It 0x8a8b 0xb48e;
  It 0x8a8c 0xb48f;
  It 0x8a8d 0xb490;
  It 0x8a8e 0xb491;
  It 0x8a8f 0xb492;
  It 0x8a90 0xb493;
  It 0x8a91 0xb494;
  It 0x8a92 0xb495;
  It 0x8a93 0xb496;
  It 0x8a94 0xb497;
  It 0x8a95 0xb498;
  It 0x8a96 0xb499;
  It 0x8a97 0xb49a;
  It 0x8a98 0xb49b;
  It 0x8a99 0xb49c;
  It 0x8a9a 0xb49e;
  It 0x8a9b 0xb49f;
  It 0x8a9c 0xb4a0;
  It 0x8a9d 0xb4a1;
  It 0x8a9e 0xb4a2;
  It 0x8a9f 0xb4a3;
  It 0x8aa0 0xb4a5;
  It 0x8aa1 0xb4a6;
  It 0x8aa2 0xb4a7;
  It 0x8aa3 0xb4a9;
  It 0x8aa4 0xb4aa;
  It 0x8aa5 0xb4ab;
  It 0x8aa6 0xb4ad;
  It 0x8aa7 0xb4ae;
  It 0x8aa8 0xb4af;
  It 0x8aa9 0xb4b0;
  It 0x8aaa 0xb4b1;
  It 0x8aab 0xb4b2;
  It 0x8aac 0xb4b3;
  It 0x8aad 0xb4b4;
  It 0x8aae 0xb4b6;
  It 0x8aaf 0xb4b8;
  It 0x8ab0 0xb4ba;
  It 0x8ab1 0xb4bb;
  It 0x8ab2 0xb4bc;
  It 0x8ab3 0xb4bd;
  It 0x8ab4 0xb4be;
  It 0x8ab5 0xb4bf;
  It 0x8ab6 0xb4c1;
  It 0x8ab7 0xb4c2;
  It 0x8ab8 0xb4c3;
  It 0x8ab9 0xb4c5;
  It 0x8aba 0xb4c6;
  It 0x8abb 0xb4c7;
  It 0x8abc 0xb4c9;
  It 0x8abd 0xb4ca;
  It 0x8abe 0xb4cb;
  It 0x8abf 0xb4cc;
  It 0x8ac0 0xb4cd;
  It 0x8ac1 0xb4ce;
  It 0x8ac2 0xb4cf;
  It 0x8ac3 0xb4d1;
  It 0x8ac4 0xb4d2;
  It 0x8ac5 0xb4d3;
  It 0x8ac6 0xb4d4;
  It 0x8ac7 0xb4d6;
  It 0x8ac8 0xb4d7;
  It 0x8ac9 0xb4d8;
  It 0x8aca 0xb4d9;
  It 0x8acb 0xb4da;
  It 0x8acc 0xb4db;
  It 0x8acd 0xb4de;
  It 0x8ace 0xb4df;
  It 0x8acf 0xb4e1;
  It 0x8ad0 0xb4e2;
  It 0x8ad1 0xb4e5;
  It 0x8ad2 0xb4e7;
  It 0x8ad3 0xb4e8;
  It 0x8ad4 0xb4e9;
  It 0x8ad5 0xb4ea;
  It 0x8ad6 0xb4eb;
  It 0x8ad7 0xb4ee;
  It 0x8ad8 0xb4f0;
  It 0x8ad9 0xb4f2;
  It 0x8ada 0xb4f3;
  It 0x8adb 0xb4f4;
  It 0x8adc 0xb4f5;
  It 0x8add 0xb4f6;
  It 0x8ade 0xb4f7;
  It 0x8adf 0xb4f9;
  It 0x8ae0 0xb4fa
].

(* encoding/cp949/lookup_from.go:1759-2008 *)
Definition fromTable_007 : list lookupItem := [
  It 0x8ae1 0xb4fb;
  It 0x8ae2 0xb4fc;
  It 0x8ae3 0xb4fd;
  It 0x8ae4 0xb4fe;
  It 0x8ae5 0xb4ff;
  It 0x8ae6 0xb500;
  It 0x8ae7 0xb501;
  It 0x8ae8 0xb502;
  It 0x8ae9 0xb503;
  It 0x8aea 0xb504;
  It 0x8aeb 0xb505;
  It 0x8aec 0xb506;
  It 0x8aed 0xb507;
  It 0x8aee 0xb508;
  It 0x8aef 0xb509;
  It 0x8af0 0xb50a;
  It 0x8af1 0xb50b;
  It 0x8af2 0xb50c;
  It 0x8af3 0xb50d;
  It 0x8af4 0xb50e;
  It 0x8af5 0xb50f;
  It 0x8af6 0xb510;
  It 0x8af7 0xb511;
  It 0x8af8 0xb512;
  It 0x8af9 0xb513;
  It 0x8afa 0xb516;
  It 0x8afb 0xb517;
  It 0x8afc 0xb519;
  It 0x8afd 0xb51a;
  It 0x8afe 0xb51d;
  It 0x8b41 0xb51e;
  It 0x8b42 0xb51f;
  It 0x8b43 0xb520;
  It 0x8b44 0xb521;
  It 0x8b45 0xb522;
  It 0x8b46 0xb523;
  It 0x8b47 0xb526;
  It 0x8b48 0xb52b;
  It 0x8b49 0xb52c;
  It 0x8b4a 0xb52d;
  It 0x8b4b 0xb52e;
  It 0x8b4c 0xb52f;
  It 0x8b4d 0xb532;
  It 0x8b4e 0xb533;
  It 0x8b4f 0xb535;
  It 0x8b50 0xb536;
  It 0x8b51 0xb537;
  It 0x8b52 0xb539;
  It 0x8b53 0xb53a;
  It 0x8b54 0xb53b;
  It 0x8b55 0xb53c;
  It 0x8b56 0xb53d;
  It 0x8b57 0xb53e;
  It 0x8b58 0xb53f;
  It 0x8b59 0xb542;
  It 0x8b5a 0xb546;
  It 0x8b61 0xb547;
  It 0x8b62 0xb548;
  It 0x8b63 0xb549;
  It 0x8b64 0xb54a;
  It 0x8b65 0xb54e;
  It 0x8b66 0xb54f;
  It 0x8b67 0xb551;
  It 0x8b68 0xb552;
  It 0x8b69 0xb553;
  It 0x8b6a 0xb555;
  It 0x8b6b 0xb556;
  It 0x8b6c 0xb557;
  It 0x8b6d 0xb558;
  It 0x8b6e 0xb559;
  It 0x8b6f 0xb55a;
  It 0x8b70 0xb55b;
  It 0x8b71 0xb55e;
  It 0x8b72 0xb562;
  It 0x8b73 0xb563;
  It 0x8b74 0xb564;
  It 0x8b75 0xb565;
  It 0x8b76 0xb566;
  It 0x8b77 0xb567;
  It 0x8b78 0xb568;
  It 0x8b79 0xb569;
  It 0x8b7a 0xb56a;
  It 0x8b81 0xb56b;
  It 0x8b82 0xb56c;
  It 0x8b83 0xb56d;
  It 0x8b84 0xb56e;
  It 0x8b85 0xb56f;
  It 0x8b86 0xb570;
  It 0x8b87 0xb571;
  It 0x8b88 0xb572;
  It 0x8b89 0xb573;
  It 0x8b8a 0xb574;
  It 0x8b8b 0xb575;
  It 0x8b8c 0xb576;
  It 0x8b8d 0xb577;
  It 0x8b8e 0xb578;
  It 0x8b8f 0xb579;
  It 0x8b90 0xb57a;
  It 0x8b91 0xb57b;
  It 0x8b92 0xb57c;
  It 0x8b93 0xb57d;
  It 0x8b94 0xb57e;
  It 0x8b95 0xb57f;
  It 0x8b96 0xb580;
  It 0x8b97 0xb581;
  It 0x8b98 0xb582;
  It 0x8b99 0xb583;
  It 0x8b9a 0xb584;
  It 0x8b9b 0xb585;
  It 0x8b9c 0xb586;
  It 0x8b9d 0xb587;
  It 0x8b9e 0xb588;
  It 0x8b9f 0xb589;
  It 0x8ba0 0xb58a;
  It 0x8ba1 0xb58b;
  It 0x8ba2 0xb58c;
  It 0x8ba3 0xb58d;
  It 0x8ba4 0xb58e;
  It 0x8ba5 0xb58f;
  It 0x8ba6 0xb590;
  It 0x8ba7 0xb591;
  It 0x8ba8 0xb592;
  It 0x8ba9 0xb593;
  It 0x8baa 0xb594;
  It 0x8bab 0xb595;
  It 0x8bac 0xb596;
  It 0x8bad 0xb597;
  It 0x8bae 0xb598;
  It 0x8baf 0xb599;
  It 0x8bb0 0xb59a;
  It 0x8bb1 0xb59b;
  It 0x8bb2 0xb59c;
  It 0x8bb3 0xb59d;
  It 0x8bb4 0xb59e;
  It 0x8bb5 0xb59f;
  It 0x8bb6 0xb5a2;
  It 0x8bb7 0xb5a3;
  It 0x8bb8 0xb5a5;
  It 0x8bb9 0xb5a6;
  It 0x8bba 0xb5a7;
  It 0x8bbb 0xb5a9;
  It 0x8bbc 0xb5ac;
  It 0x8bbd 0xb5ad;
  It 0x8bbe 0xb5ae;
  It 0x8bbf 0xb5af;
  It 0x8bc0 0xb5b2;
  It 0x8bc1 0xb5b6;
  It 0x8bc2 0xb5b7;
  It 0x8bc3 0xb5b8;
  It 0x8bc4 0xb5b9;
  It 0x8bc5 0xb5ba;
  It 0x8bc6 0xb5be;
  It 0x8bc7 0xb5bf;
  It 0x8bc8 0xb5c1;
  It 0x8bc9 0xb5c2;
  It 0x8bca 0xb5c3;
  It 0x8bcb 0xb5c5;
  It 0x8bcc 0xb5c6;
  It 0x8bcd 0xb5c7;
  It 0x8bce 0xb5c8;
  It 0x8bcf 0xb5c9;
  It 0x8bd0 0xb5ca;
  It 0x8bd1 0xb5cb;
  It 0x8bd2 0xb5ce;
  It 0x8bd3 0xb5d2;
  It 0x8bd4 0xb5d3;
  It 0x8bd5 0xb5d4;
  It 0x8bd6 0xb5d5;
  It 0x8bd7 0xb5d6;
  It 0x8bd8 0xb5d7;
  It 0x8bd9 0xb5d9;
  It 0x8bda 0xb5da;
  It 0x8bdb 0xb5db;
  It 0x8bdc 0xb5dc;
  It 0x8bdd 0xb5dd;
  It 0x8bde 0xb5de;
  It 0x8bdf 0xb5df;
  It 0x8be0 0xb5e0;
  It 0x8be1 0xb5e1;
  It 0x8be2 0xb5e2;
  It 0x8be3 0xb5e3;
  It 0x8be4 0xb5e4;
  It 0x8be5 0xb5e5;
  It 0x8be6 0xb5e6;
  It 0x8be7 0xb5e7;
  It 0x8be8 0xb5e8;
  It 0x8be9 0xb5e9;
  It 0x8bea 0xb5ea;
  It 0x8beb 0xb5eb;
  It 0x8bec 0xb5ed;
  It 0x8bed 0xb5ee;
  It 0x8bee 0xb5ef;
  It 0x8bef 0xb5f0;
  It 0x8bf0 0xb5f1;
  It 0x8bf1 0xb5f2;
  It 0x8bf2 0xb5f3;
  It 0x8bf3 0xb5f4;
  It 0x8bf4 0xb5f5;
  It 0x8bf5 0xb5f6;
  It 0x8bf6 0xb5f7;
  It 0x8bf7 0xb5f8;
  It 0x8bf8 0xb5f9;
  It 0x8bf9 0xb5fa;
  It 0x8bfa 0xb5fb;
  It 0x8bfb 0xb5fc;
  It 0x8bfc 0xb5fd;
  It 0x8bfd 0xb5fe;
  It 0x8bfe 0xb5ff;
  It 0x8c41 0xb600;
  It 0x8c42 0xb601;
  It 0x8c43 0xb602;
  It 0x8c44 0xb603;
  It 0x8c45 0xb604;
  It 0x8c46 0xb605;
  It 0x8c47 0xb606;
  It 0x8c48 0xb607;
  It 0x8c49 0xb608;
  It 0x8c4a 0xb609;
  It 0x8c4b 0xb60a;
  It 0x8c4c 0xb60b;
  It 0x8c4d 0xb60c;
  It 0x8c4e 0xb60d;
  It 0x8c4f 0xb60e;
  It 0x8c50 0xb60f;
  It 0x8c51 0xb612;
  It 0x8c52 0xb613;
  It 0x8c53 0xb615;
  It 0x8c54 0xb616;
  It 0x8c55 0xb617;
  It 0x8c56 0xb619;
  It 0x8c57 0xb61a;
  It 0x8c58 0xb61b;
  It 0x8c59 0xb61c;
  It 0x8c5a 0xb61d;
  It 0x8c61 0xb61e;
  It 0x8c62 0xb61f;
  It 0x8c63 0xb620;
  It 0x8c64 0xb621;
  It 0x8c65 0xb622;
  It 0x8c66 0xb623;
  It 0x8c67 0xb624;
  It 0x8c68 0xb626;
  It 0x8c69 0xb627;
  It 0x8c6a 0xb628;
  It 0x8c6b 0xb629;
  It 0x8c6c 0xb62a;
  It 0x8c6d 0xb62b;
  It 0x8c6e 0xb62d;
  It 0x8c6f 0xb62e;
  It 0x8c70 0xb62f
].

(* encoding/cp949/lookup_from.go:2009-2258 *)
Definition fromTable_008 : list lookupItem := [
  It 0x8c71 0xb630;
  It 0x8c72 0xb631;
  It 0x8c73 0xb632;
  It 0x8c74 0xb633;
  It 0x8c75 0xb635;
  It 0x8c76 0xb636;
  It 0x8c77 0xb637;
  It 0x8c78 0xb638;
  It 0x8c79 0xb639;
  It 0x8c7a 0xb63a;
  It 0x8c81 0xb63b;
  It 0x8c82 0xb63c;
  It 0x8c83 0xb63d;
  It 0x8c84 0xb63e;
  It 0x8c85 0xb63f;
  It 0x8c86 0xb640;
  It 0x8c87 0xb641;
  It 0x8c88 0xb642;
  It 0x8c89 0xb643;
  It 0x8c8a 0xb644;
  It 0x8c8b 0xb645;
  It 0x8c8c 0xb646;
  It 0x8c8d 0xb647;
  It 0x8c8e 0xb649;
  It 0x8c8f 0xb64a;
  It 0x8c90 0xb64b;
  It 0x8c91 0xb64c;
  It 0x8c92 0xb64d;
  It 0x8c93 0xb64e;
  It 0x8c94 0xb64f;
  It 0x8c95 0xb650;
  It 0x8c96 0xb651;
  It 0x8c97 0xb652;
  It 0x8c98 0xb653;
  It 0x8c99 0xb654;
  It 0x8c9a 0xb655;
  It 0x8c9b 0xb656;
  It 0x8c9c 0xb657;
  It 0x8c9d 0xb658;
  It 0x8c9e 0xb659;
  It 0x8c9f 0xb65a;
  It 0x8ca0 0xb65b;
  It 0x8ca1 0xb65c;
  It 0x8ca2 0xb65d;
  It 0x8ca3 0xb65e;
  It 0x8ca4 0xb65f;
  It 0x8ca5 0xb660;
  It 0x8ca6 0xb661;
  It 0x8ca7 0xb662;
  It 0x8ca8 0xb663;
  It 0x8ca9 0xb665;
  It 0x8caa 0xb666;
  It 0x8cab 0xb667;
  It 0x8cac 0xb669;
  It 0x8cad 0xb66a;
  It 0x8cae 0xb66b;
  It 0x8caf 0xb66c;
  It 0x8cb0 0xb66d;
  It 0x8cb1 0xb66e;
  It 0x8cb2 0xb66f;
  It 0x8cb3 0xb670;
  It 0x8cb4 0xb671;
  It 0x8cb5 0xb672;
  It 0x8cb6 0xb673;
  It 0x8cb7 0xb674;
  It 0x8cb8 0xb675;
  It 0x8cb9 0xb676;
  It 0x8cba 0xb677;
  It 0x8cbb 0xb678;
  It 0x8cbc 0xb679;
  It 0x8cbd 0xb67a;
  It 0x8cbe 0xb67b;
  It 0x8cbf 0xb67c;
  It 0x8cc0 0xb67d;
  It 0x8cc1 0xb67e;
  It 0x8cc2 0xb67f;
  It 0x8cc3 0xb680;
  It 0x8cc4 0xb681;
  It 0x8cc5 0xb682;
  It 0x8cc6 0xb683;
  It 0x8cc7 0xb684;
  It 0x8cc8 0xb685;
  It 0x8cc9 0xb686;
  It 0x8cca 0xb687;
  It 0x8ccb 0xb688;
  It 0x8ccc 0xb689;
  It 0x8ccd 0xb68a;
  It 0x8cce 0xb68b;
  It 0x8ccf 0xb68c;
  It 0x8cd0 0xb68d;
  It 0x8cd1 0xb68e;
  It 0x8cd2 0xb68f;
  It 0x8cd3 0xb690;
  It 0x8cd4 0xb691;
  It 0x8cd5 0xb692;
  It 0x8cd6 0xb693;
  It 0x8cd7 0xb694;
  It 0x8cd8 0xb695;
  It 0x8cd9 0xb696;
  It 0x8cda 0xb697;
  It 0x8cdb 0xb698;
  It 0x8cdc 0xb699;
  It 0x8cdd 0xb69a;
  It 0x8cde 0xb69b;
  It 0x8cdf 0xb69e;
  It 0x8ce0 0xb69f;
  It 0x8ce1 0xb6a1;
  It 0x8ce2 0xb6a2;
  It 0x8ce3 0xb6a3;
  It 0x8ce4 0xb6a5;
  It 0x8ce5 0xb6a6;
  It 0x8ce6 0xb6a7;
  It 0x8ce7 0xb6a8;
  It 0x8ce8 0xb6a9;
  It 0x8ce9 0xb6aa;
  It 0x8cea 0xb6ad;
  It 0x8ceb 0xb6ae;
  It 0x8cec 0xb6af;
  It 0x8ced 0xb6b0;
  It 0x8cee 0xb6b2;
  It 0x8cef 0xb6b3;
  It 0x8cf0 0xb6b4;
  It 0x8cf1 0xb6b5;
  It 0x8cf2 0xb6b6;
  It 0x8cf3 0xb6b7;
  It 0x8cf4 0xb6b8;
  It 0x8cf5 0xb6b9;
  It 0x8cf6 0xb6ba;
  It 0x8cf7 0xb6bb;
  It 0x8cf8 0xb6bc;
  It 0x8cf9 0xb6bd;
  It 0x8cfa 0xb6be;
  It 0x8cfb 0xb6bf;
  It 0x8cfc 0xb6c0;
  It 0x8cfd 0xb6c1;
  It 0x8cfe 0xb6c2;
  It 0x8d41 0xb6c3;
  It 0x8d42 0xb6c4;
  It 0x8d43 0xb6c5;
  It 0x8d44 0xb6c6;
  It 0x8d45 0xb6c7;
  It 0x8d46 0xb6c8;
  It 0x8d47 0xb6c9;
  It 0x8d48 0xb6ca;
  It 0x8d49 0xb6cb;
  It 0x8d4a 0xb6cc;
  It 0x8d4b 0xb6cd;
  It 0x8d4c 0xb6ce;
  It 0x8d4d 0xb6cf;
  It 0x8d4e 0xb6d0;
  It 0x8d4f 0xb6d1;
  It 0x8d50 0xb6d2;
  It 0x8d51 0xb6d3;
  It 0x8d52 0xb6d5;
  It 0x8d53 0xb6d6;
  It 0x8d54 0xb6d7;
  It 0x8d55 0xb6d8;
  It 0x8d56 0xb6d9;
  It 0x8d57 0xb6da;
  It 0x8d58 0xb6db;
  It 0x8d59 0xb6dc;
  It 0x8d5a 0xb6dd;
  It 0x8d61 0xb6de;
  It 0x8d62 0xb6df;
  It 0x8d63 0xb6e0;
  It 0x8d64 0xb6e1;
  It 0x8d65 0xb6e2;
  It 0x8d66 0xb6e3;
  It 0x8d67 0xb6e4;
  It 0x8d68 0xb6e5;
  It 0x8d69 0xb6e6;
  It 0x8d6a 0xb6e7;
  It 0x8d6b 0xb6e8;
  It 0x8d6c 0xb6e9;
  It 0x8d6d 0xb6ea;
  It 0x8d6e 0xb6eb;
  It 0x8d6f 0xb6ec;
  It 0x8d70 0xb6ed;
  It 0x8d71 0xb6ee;
  It 0x8d72 0xb6ef;
  It 0x8d73 0xb6f1;
  It 0x8d74 0xb6f2;
  It 0x8d75 0xb6f3;
  It 0x8d76 0xb6f5;
  It 0x8d77 0xb6f6;
  It 0x8d78 0xb6f7;
  It 0x8d79 0xb6f9;
  It 0x8d7a 0xb6fa;
  It 0x8d81 0xb6fb;
  It 0x8d82 0xb6fc;
  It 0x8d83 0xb6fd;
  It 0x8d84 0xb6fe;
  It 0x8d85 0xb6ff;
  It 0x8d86 0xb702;
  It 0x8d87 0xb703;
  It 0x8d88 0xb704;
  It 0x8d89 0xb706;
  It 0x8d8a 0xb707;
  It 0x8d8b 0xb708;
  It 0x8d8c 0xb709;
  It 0x8d8d 0xb70a;
  It 0x8d8e 0xb70b;
  It 0x8d8f 0xb70c;
  It 0x8d90 0xb70d;
  It 0x8d91 0xb70e;
  It 0x8d92 0xb70f;
  It 0x8d93 0xb710;
  It 0x8d94 0xb711;
  It 0x8d95 0xb712;
  It 0x8d96 0xb713;
  It 0x8d97 0xb714;
  It 0x8d98 0xb715;
  It 0x8d99 0xb716;
  It 0x8d9a 0xb717;
  It 0x8d9b 0xb718;
  It 0x8d9c 0xb719;
  It 0x8d9d 0xb71a;
  It 0x8d9e 0xb71b;
  It 0x8d9f 0xb71c;
  It 0x8da0 0xb71d;
  It 0x8da1 0xb71e;
  It 0x8da2 0xb71f;
  It 0x8da3 0xb720;
  It 0x8da4 0xb721;
  It 0x8da5 0xb722;
  It 0x8da6 0xb723;
  It 0x8da7 0xb724;
  It 0x8da8 0xb725;
  It 0x8da9 0xb726;
  It 0x8daa 0xb727;
  It 0x8dab 0xb72a;
  It 0x8dac 0xb72b;
  It 0x8dad 0xb72d;
  It 0x8dae 0xb72e;
  It 0x8daf 0xb731;
  It 0x8db0 0xb732;
  It 0x8db1 0xb733;
  It 0x8db2 0xb734;
  It 0x8db3 0xb735;
  It 0x8db4 0xb736;
  It 0x8db5 0xb737;
  It 0x8db6 0xb73a;
  It 0x8db7 0xb73c;
  It 0x8db8 0xb73d;
  It 0x8db9 0xb73e;
  It 0x8dba 0xb73f;
  It 0x8dbb 0xb740;
  It 0x8dbc 0xb741;
  It 0x8dbd 0xb742;
  It 0x8dbe 0xb743
].

(* encoding/cp949/lookup_from.go:2259-2508 *)
Definition fromTable_009 : list lookupItem := [
  It 0x8dbf 0xb745;
  It 0x8dc0 0xb746;
  It 0x8dc1 0xb747;
  It 0x8dc2 0xb749;
  It 0x8dc3 0xb74a;
  It 0x8dc4 0xb74b;
  It 0x8dc5 0xb74d;
  It 0x8dc6 0xb74e;
  It 0x8dc7 0xb74f;
  It 0x8dc8 0xb750;
  It 0x8dc9 0xb751;
  It 0x8dca 0xb752;
  It 0x8dcb 0xb753;
  It 0x8dcc 0xb756;
  It 0x8dcd 0xb757;
  It 0x8dce 0xb758;
  It 0x8dcf 0xb759;
  It 0x8dd0 0xb75a;
  It 0x8dd1 0xb75b;
  It 0x8dd2 0xb75c;
  It 0x8dd3 0xb75d;
  It 0x8dd4 0xb75e;
  It 0x8dd5 0xb75f;
  It 0x8dd6 0xb761;
  It 0x8dd7 0xb762;
  It 0x8dd8 0xb763;
  It 0x8dd9 0xb765;
  It 0x8dda 0xb766;
  It 0x8ddb 0xb767;
  It 0x8ddc 0xb769;
  It 0x8ddd 0xb76a;
  It 0x8dde 0xb76b;
  It 0x8ddf 0xb76c;
  It 0x8de0 0xb76d;
  It 0x8de1 0xb76e;
  It 0x8de2 0xb76f;
  It 0x8de3 0xb772;
  It 0x8de4 0xb774;
  It 0x8de5 0xb776;
  It 0x8de6 0xb777;
  It 0x8de7 0xb778;
  It 0x8de8 0xb779;
  It 0x8de9 0xb77a;
  It 0x8dea 0xb77b;
  It 0x8deb 0xb77e;
  It 0x8dec 0xb77f;
  It 0x8ded 0xb781;
  It 0x8dee 0xb782;
  It 0x8def 0xb783;
  It 0x8df0 0xb785;
  It 0x8df1 0xb786;
  It 0x8df2 0xb787;
  It 0x8df3 0xb788;
  It 0x8df4 0xb789;
  It 0x8df5 0xb78a;
  It 0x8df6 0xb78b;
  It 0x8df7 0xb78e;
  It 0x8df8 0xb793;
  It 0x8df9 0xb794;
  It 0x8dfa 0xb795;
  It 0x8dfb 0xb79a;
  It 0x8dfc 0xb79b;
  It 0x8dfd 0xb79d;
  It 0x8dfe 0xb79e;
  It 0x8e41 0xb79f;
  It 0x8e42 0xb7a1;
  It 0x8e43 0xb7a2;
  It 0x8e44 0xb7a3;
  It 0x8e45 0xb7a4;
  It 0x8e46 0xb7a5;
  It 0x8e47 0xb7a6;
  It 0x8e48 0xb7a7;
  It 0x8e49 0xb7aa;
  It 0x8e4a 0xb7ae;
  It 0x8e4b 0xb7af;
  It 0x8e4c 0xb7b0;
  It 0x8e4d 0xb7b1;
  It 0x8e4e 0xb7b2;
  It 0x8e4f 0xb7b3;
  It 0x8e50 0xb7b6;
  It 0x8e51 0xb7b7;
  It 0x8e52 0xb7b9;
  It 0x8e53 0xb7ba;
  It 0x8e54 0xb7bb;
  It 0x8e55 0xb7bc;
  It 0x8e56 0xb7bd;
  It 0x8e57 0xb7be;
  It 0x8e58 0xb7bf;
  It 0x8e59 0xb7c0;
  It 0x8e5a 0xb7c1;
  It 0x8e61 0xb7c2;
  It 0x8e62 0xb7c3;
  It 0x8e63 0xb7c4;
  It 0x8e64 0xb7c5;
  It 0x8e65 0xb7c6;
  It 0x8e66 0xb7c8;
  It 0x8e67 0xb7ca;
  It 0x8e68 0xb7cb;
  It 0x8e69 0xb7cc;
  It 0x8e6a 0xb7cd;
  It 0x8e6b 0xb7ce;
  It 0x8e6c 0xb7cf;
  It 0x8e6d 0xb7d0;
  It 0x8e6e 0xb7d1;
  It 0x8e6f 0xb7d2;
  It 0x8e70 0xb7d3;
  It 0x8e71 0xb7d4;
  It 0x8e72 0xb7d5;
  It 0x8e73 0xb7d6;
  It 0x8e74 0xb7d7;
  It 0x8e75 0xb7d8;
  It 0x8e76 0xb7d9;
  It 0x8e77 0xb7da;
  It 0x8e78 0xb7db;
  It 0x8e79 0xb7dc;
  It 0x8e7a 0xb7dd;
  It 0x8e81 0xb7de;
  It 0x8e82 0xb7df;
  It 0x8e83 0xb7e0;
  It 0x8e84 0xb7e1;
  It 0x8e85 0xb7e2;
  It 0x8e86 0xb7e3;
  It 0x8e87 0xb7e4;
  It 0x8e88 0xb7e5;
  It 0x8e89 0xb7e6;
  It 0x8e8a 0xb7e7;
  It 0x8e8b 0xb7e8;
  It 0x8e8c 0xb7e9;
  It 0x8e8d 0xb7ea;
  It 0x8e8e 0xb7eb;
  It 0x8e8f 0xb7ee;
  It 0x8e90 0xb7ef;
  It 0x8e91 0xb7f1;
  It 0x8e92 0xb7f2;
  It 0x8e93 0xb7f3;
  It 0x8e94 0xb7f5;
  It 0x8e95 0xb7f6;
  It 0x8e96 0xb7f7;
  It 0x8e97 0xb7f8;
  It 0x8e98 0xb7f9;
  It 0x8e99 0xb7fa;
  It 0x8e9a 0xb7fb;
  It 0x8e9b 0xb7fe;
  It 0x8e9c 0xb802;
  It 0x8e9d 0xb803;
  It 0x8e9e 0xb804;
  It 0x8e9f 0xb805;
  It 0x8ea0 0xb806;
  It 0x8ea1 0xb80a;
  It 0x8ea2 0xb80b;
  It 0x8ea3 0xb80d;
  It 0x8ea4 0xb80e;
  It 0x8ea5 0xb80f;
  It 0x8ea6 0xb811;
  It 0x8ea7 0xb812;
  It 0x8ea8 0xb813;
  It 0x8ea9 0xb814;
  It 0x8eaa 0xb815;
  It 0x8eab 0xb816;
  It 0x8eac 0xb817;
  It 0x8ead 0xb81a;
  It 0x8eae 0xb81c;
  It 0x8eaf 0xb81e;
  It 0x8eb0 0xb81f;
  It 0x8eb1 0xb820;
  It 0x8eb2 0xb821;
  It 0x8eb3 0xb822;
  It 0x8eb4 0xb823;
  It 0x8eb5 0xb826;
  It 0x8eb6 0xb827;
  It 0x8eb7 0xb829;
  It 0x8eb8 0xb82a;
  It 0x8eb9 0xb82b;
  It 0x8eba 0xb82d;
  It 0x8ebb 0xb82e;
  It 0x8ebc 0xb82f;
  It 0x8ebd 0xb830;
  It 0x8ebe 0xb831;
  It 0x8ebf 0xb832;
  It 0x8ec0 0xb833;
  It 0x8ec1 0xb836;
  It 0x8ec2 0xb83a;
  It 0x8ec3 0xb83b;
  It 0x8ec4 0xb83c;
  It 0x8ec5 0xb83d;
  It 0x8ec6 0xb83e;
  It 0x8ec7 0xb83f;
  It 0x8ec8 0xb841;
  It 0x8ec9 0xb842;
  It 0x8eca 0xb843;
  It 0x8ecb 0xb845;
  It 0x8ecc 0xb846;
  It 0x8ecd 0xb847;
  It 0x8ece 0xb848;
  It 0x8ecf 0xb849;
  It 0x8ed0 0xb84a;
  It 0x8ed1 0xb84b;
  It 0x8ed2 0xb84c;
  It 0x8ed3 0xb84d;
  It 0x8ed4 0xb84e;
  It 0x8ed5 0xb84f;
  It 0x8ed6 0xb850;
  It 0x8ed7 0xb852;
  It 0x8ed8 0xb854;
  It 0x8ed9 0xb855;
  It 0x8eda 0xb856;
  It 0x8edb 0xb857;
  It 0x8edc 0xb858;
  It 0x8edd 0xb859;
  It 0x8ede 0xb85a;
  It 0x8edf 0xb85b;
  It 0x8ee0 0xb85e;
  It 0x8ee1 0xb85f;
  It 0x8ee2 0xb861;
  It 0x8ee3 0xb862;
  It 0x8ee4 0xb863;
  It 0x8ee5 0xb865;
  It 0x8ee6 0xb866;
  It 0x8ee7 0xb867;
  It 0x8ee8 0xb868;
  It 0x8ee9 0xb869;
  It 0x8eea 0xb86a;
  It 0x8eeb 0xb86b;
  It 0x8eec 0xb86e;
  It 0x8eed 0xb870;
  It 0x8eee 0xb872;
  It 0x8eef 0xb873;
  It 0x8ef0 0xb874;
  It 0x8ef1 0xb875;
  It 0x8ef2 0xb876;
  It 0x8ef3 0xb877;
  It 0x8ef4 0xb879;
  It 0x8ef5 0xb87a;
  It 0x8ef6 0xb87b;
  It 0x8ef7 0xb87d;
  It 0x8ef8 0xb87e;
  It 0x8ef9 0xb87f;
  It 0x8efa 0xb880;
  It 0x8efb 0xb881;
  It 0x8efc 0xb882;
  It 0x8efd 0xb883;
  It 0x8efe 0xb884;
  It 0x8f41 0xb885;
  It 0x8f42 0xb886;
  It 0x8f43 0xb887;
  It 0x8f44 0xb888;
  It 0x8f45 0xb889;
  It 0x8f46 0xb88a;
  It 0x8f47 0xb88b;
  It 0x8f48 0xb88c
].

(* encoding/cp949/lookup_from.go:2509-2758 *)
Definition fromTable_010 : list lookupItem := [
  It 0x8f49 0xb88e;
  It 0x8f4a 0xb88f;
  It 0x8f4b 0xb890;
  It 0x8f4c 0xb891;
  It 0x8f4d 0xb892;
  It 0x8f4e 0xb893;
  It 0x8f4f 0xb894;
  It 0x8f50 0xb895;
  It 0x8f51 0xb896;
  It 0x8f52 0xb897;
  It 0x8f53 0xb898;
  It 0x8f54 0xb899;
  It 0x8f55 0xb89a;
  It 0x8f56 0xb89b;
  It 0x8f57 0xb89c;
  It 0x8f58 0xb89d;
  It 0x8f59 0xb89e;
  It 0x8f5a 0xb89f;
  It 0x8f61 0xb8a0;
  It 0x8f62 0xb8a1;
  It 0x8f63 0xb8a2;
  It 0x8f64 0xb8a3;
  It 0x8f65 0xb8a4;
  It 0x8f66 0xb8a5;
  It 0x8f67 0xb8a6;
  It 0x8f68 0xb8a7;
  It 0x8f69 0xb8a9;
  It 0x8f6a 0xb8aa;
  It 0x8f6b 0xb8ab;
  It 0x8f6c 0xb8ac;
  It 0x8f6d 0xb8ad;
  It 0x8f6e 0xb8ae;
  It 0x8f6f 0xb8af;
  It 0x8f70 0xb8b1;
  It 0x8f71 0xb8b2;
  It 0x8f72 0xb8b3;
  It 0x8f73 0xb8b5;
  It 0x8f74 0xb8b6;
  It 0x8f75 0xb8b7;
  It 0x8f76 0xb8b9;
  It 0x8f77 0xb8ba;
  It 0x8f78 0xb8bb;
  It 0x8f79 0xb8bc;
  It 0x8f7a 0xb8bd;
  It 0x8f81 0xb8be;
  It 0x8f82 0xb8bf;
  It 0x8f83 0xb8c2;
  It 0x8f84 0xb8c4;
  It 0x8f85 0xb8c6;
  It 0x8f86 0xb8c7;
  It 0x8f87 0xb8c8;
  It 0x8f88 0xb8c9;
  It 0x8f89 0xb8ca;
  It 0x8f8a 0xb8cb;
  It 0x8f8b 0xb8cd;
  It 0x8f8c 0xb8ce;
  It 0x8f8d 0xb8cf;
  It 0x8f8e 0xb8d1;
  It 0x8f8f 0xb8d2;
  It 0x8f90 0xb8d3;
  It 0x8f91 0xb8d5;
  It 0x8f92 0xb8d6;
  It 0x8f93 0xb8d7;
  It 0x8f94 0xb8d8;
  It 0x8f95 0xb8d9;
  It 0x8f96 0xb8da;
  It 0x8f97 0xb8db;
  It 0x8f98 0xb8dc;
  It 0x8f99 0xb8de;
  It 0x8f9a 0xb8e0;
  It 0x8f9b 0xb8e2;
  It 0x8f9c 0xb8e3;
  It 0x8f9d 0xb8e4;
  It 0x8f9e 0xb8e5;
  It 0x8f9f 0xb8e6;
  It 0x8fa0 0xb8e7;
  It 0x8fa1 0xb8ea;
  It 0x8fa2 0xb8eb;
  It 0x8fa3 0xb8ed;
  It 0x8fa4 0xb8ee;
  It 0x8fa5 0xb8ef;
  It 0x8fa6 0xb8f1;
  It 0x8fa7 0xb8f2;
  It 0x8fa8 0xb8f3;
  It 0x8fa9 0xb8f4;
  It 0x8faa 0xb8f5;
  It 0x8fab 0xb8f6;
  It 0x8fac 0xb8f7;
  It 0x8fad 0xb8fa;
  It 0x8fae 0xb8fc;
  It 0x8faf 0xb8fe;
  It 0x8fb0 0xb8ff;
  It 0x8fb1 0xb900;
  It 0x8fb2 0xb901;
  It 0x8fb3 0xb902;
  It 0x8fb4 0xb903;
  It 0x8fb5 0xb905;
  It 0x8fb6 0xb906;
  It 0x8fb7 0xb907;
  It 0x8fb8 0xb908;
  It 0x8fb9 0xb909;
  It 0x8fba 0xb90a;
  It 0x8fbb 0xb90b;
  It 0x8fbc 0xb90c;
  It 0x8fbd 0xb90d;
  It 0x8fbe 0xb90e;
  It 0x8fbf 0xb90f;
  It 0x8fc0 0xb910;
  It 0x8fc1 0xb911;
  It 0x8fc2 0xb912;
  It 0x8fc3 0xb913;
  It 0x8fc4 0xb914;
  It 0x8fc5 0xb915;
  It 0x8fc6 0xb916;
  It 0x8fc7 0xb917;
  It 0x8fc8 0xb919;
  It 0x8fc9 0xb91a;
  It 0x8fca 0xb91b;
  It 0x8fcb 0xb91c;
  It 0x8fcc 0xb91d;
  It 0x8fcd 0xb91e;
  It 0x8fce 0xb91f;
  It 0x8fcf 0xb921;
  It 0x8fd0 0xb922;
  It 0x8fd1 0xb923;
  It 0x8fd2 0xb924;
  It 0x8fd3 0xb925;
  It 0x8fd4 0xb926;
  It 0x8fd5 0xb927;
  It 0x8fd6 0xb928;
  It 0x8fd7 0xb929;
  It 0x8fd8 0xb92a;
  It 0x8fd9 0xb92b;
  It 0x8fda 0xb92c;
  It 0x8fdb 0xb92d;
  It 0x8fdc 0xb92e;
  It 0x8fdd 0xb92f;
  It 0x8fde 0xb930;
  It 0x8fdf 0xb931;
  It 0x8fe0 0xb932;
  It 0x8fe1 0xb933;
  It 0x8fe2 0xb934;
  It 0x8fe3 0xb935;
  It 0x8fe4 0xb936;
  It 0x8fe5 0xb937;
  It 0x8fe6 0xb938;
  It 0x8fe7 0xb939;
  It 0x8fe8 0xb93a;
  It 0x8fe9 0xb93b;
  It 0x8fea 0xb93e;
  It 0x8feb 0xb93f;
  It 0x8fec 0xb941;
  It 0x8fed 0xb942;
  It 0x8fee 0xb943;
  It 0x8fef 0xb945;
  It 0x8ff0 0xb946;
  It 0x8ff1 0xb947;
  It 0x8ff2 0xb948;
  It 0x8ff3 0xb949;
  It 0x8ff4 0xb94a;
  It 0x8ff5 0xb94b;
  It 0x8ff6 0xb94d;
  It 0x8ff7 0xb94e;
  It 0x8ff8 0xb950;
  It 0x8ff9 0xb952;
  It 0x8ffa 0xb953;
  It 0x8ffb 0xb954;
  It 0x8ffc 0xb955;
  It 0x8ffd 0xb956;
  It 0x8ffe 0xb957;
  It 0x9041 0xb95a;
  It 0x9042 0xb95b;
  It 0x9043 0xb95d;
  It 0x9044 0xb95e;
  It 0x9045 0xb95f;
  It 0x9046 0xb961;
  It 0x9047 0xb962;
  It 0x9048 0xb963;
  It 0x9049 0xb964;
  It 0x904a 0xb965;
  It 0x904b 0xb966;
  It 0x904c 0xb967;
  It 0x904d 0xb96a;
  It 0x904e 0xb96c;
  It 0x904f 0xb96e;
  It 0x9050 0xb96f;
  It 0x9051 0xb970;
  It 0x9052 0xb971;
  It 0x9053 0xb972;
  It 0x9054 0xb973;
  It 0x9055 0xb976;
  It 0x9056 0xb977;
  It 0x9057 0xb979;
  It 0x9058 0xb97a;
  It 0x9059 0xb97b;
  It 0x905a 0xb97d;
  It 0x9061 0xb97e;
  It 0x9062 0xb97f;
  It 0x9063 0xb980;
  It 0x9064 0xb981;
  It 0x9065 0xb982;
  It 0x9066 0xb983;
  It 0x9067 0xb986;
  It 0x9068 0xb988;
  It 0x9069 0xb98b;
  It 0x906a 0xb98c;
  It 0x906b 0xb98f;
  It 0x906c 0xb990;
  It 0x906d 0xb991;
  It 0x906e 0xb992;
  It 0x906f 0xb993;
  It 0x9070 0xb994;
  It 0x9071 0xb995;
  It 0x9072 0xb996;
  It 0x9073 0xb997;
  It 0x9074 0xb998;
  It 0x9075 0xb999;
  It 0x9076 0xb99a;
  It 0x9077 0xb99b;
  It 0x9078 0xb99c;
  It 0x9079 0xb99d;
  It 0x907a 0xb99e;
  It 0x9081 0xb99f;
  It 0x9082 0xb9a0;
  It 0x9083 0xb9a1;
  It 0x9084 0xb9a2;
  It 0x9085 0xb9a3;
  It 0x9086 0xb9a4;
  It 0x9087 0xb9a5;
  It 0x9088 0xb9a6;
  It 0x9089 0xb9a7;
  It 0x908a 0xb9a8;
  It 0x908b 0xb9a9;
  It 0x908c 0xb9aa;
  It 0x908d 0xb9ab;
  It 0x908e 0xb9ae;
  It 0x908f 0xb9af;
  It 0x9090 0xb9b1;
  It 0x9091 0xb9b2;
  It 0x9092 0xb9b3;
  It 0x9093 0xb9b5;
  It 0x9094 0xb9b6;
  It 0x9095 0xb9b7;
  It 0x9096 0xb9b8;
  It 0x9097 0xb9b9;
  It 0x9098 0xb9ba;
  It 0x9099 0xb9bb;
  It 0x909a 0xb9be;
  It 0x909b 0xb9c0;
  It 0x909c 0xb9c2
].

(* encoding/cp949/lookup_from.go:2759-3008 *)
Definition fromTable_011 : list lookupItem := [
  It 0x909d 0xb9c3;
  It 0x909e 0xb9c4;
  It 0x909f 0xb9c5;
  It 0x90a0 0xb9c6;
  It 0x90a1 0xb9c7;
  It 0x90a2 0xb9ca;
  It 0x90a3 0xb9cb;
  It 0x90a4 0xb9cd;
  It 0x90a5 0xb9d3;
  It 0x90a6 0xb9d4;
  It 0x90a7 0xb9d5;
  It 0x90a8 0xb9d6;
  It 0x90a9 0xb9d7;
  It 0x90aa 0xb9da;
  It 0x90ab 0xb9dc;
  It 0x90ac 0xb9df;
  It 0x90ad 0xb9e0;
  It 0x90ae 0xb9e2;
  It 0x90af 0xb9e6;
  It 0x90b0 0xb9e7;
  It 0x90b1 0xb9e9;
  It 0x90b2 0xb9ea;
  It 0x90b3 0xb9eb;
  It 0x90b4 0xb9ed;
  It 0x90b5 0xb9ee;
  It 0x90b6 0xb9ef;
  It 0x90b7 0xb9f0;
  It 0x90b8 0xb9f1;
  It 0x90b9 0xb9f2;
  It 0x90ba 0xb9f3;
  It 0x90bb 0xb9f6;
  It 0x90bc 0xb9fb;
  It 0x90bd 0xb9fc;
  It 0x90be 0xb9fd;
  It 0x90bf 0xb9fe;
  It 0x90c0 0xb9ff;
  It 0x90c1 0xba02;
  It 0x90c2 0xba03;
  It 0x90c3 0xba04;
  It 0x90c4 0xba05;
  It 0x90c5 0xba06;
  It 0x90c6 0xba07;
  It 0x90c7 0xba09;
  It 0x90c8 0xba0a;
  It 0x90c9 0xba0b;
  It 0x90ca 0xba0c;
  It 0x90cb 0xba0d;
  It 0x90cc 0xba0e;
  It 0x90cd 0xba0f;
  It 0x90ce 0xba10;
  It 0x90cf 0xba11;
  It 0x90d0 0xba12;
  It 0x90d1 0xba13;
  It 0x90d2 0xba14;
  It 0x90d3 0xba16;
  It 0x90d4 0xba17;
  It 0x90d5 0xba18;
  It 0x90d6 0xba19;
  It 0x90d7 0xba1a;
  It 0x90d8 0xba1b;
  It 0x90d9 0xba1c;
  It 0x90da 0xba1d;
  It 0x90db 0xba1e;
  It 0x90dc 0xba1f;
  It 0x90dd 0xba20;
  It 0x90de 0xba21;
  It 0x90df 0xba22;
  It 0x90e0 0xba23;
  It 0x90e1 0xba24;
  It 0x90e2 0xba25;
  It 0x90e3 0xba26;
  It 0x90e4 0xba27;
  It 0x90e5 0xba28;
  It 0x90e6 0xba29;
  It 0x90e7 0xba2a;
  It 0x90e8 0xba2b;
  It 0x90e9 0xba2c;
  It 0x90ea 0xba2d;
  It 0x90eb 0xba2e;
  It 0x90ec 0xba2f;
  It 0x90ed 0xba30;
  It 0x90ee 0xba31;
  It 0x90ef 0xba32;
  It 0x90f0 0xba33;
  It 0x90f1 0xba34;
  It 0x90f2 0xba35;
  It 0x90f3 0xba36;
  It 0x90f4 0xba37;
  It 0x90f5 0xba3a;
  It 0x90f6 0xba3b;
  It 0x90f7 0xba3d;
  It 0x90f8 0xba3e;
  It 0x90f9 0xba3f;
  It 0x90fa 0xba41;
  It 0x90fb 0xba43;
  It 0x90fc 0xba44;
  It 0x90fd 0xba45;
  It 0x90fe 0xba46;
  It 0x9141 0xba47;
  It 0x9142 0xba4a;
  It 0x9143 0xba4c;
  It 0x9144 0xba4f;
  It 0x9145 0xba50;
  It 0x9146 0xba51;
  It 0x9147 0xba52;
  It 0x9148 0xba56;
  It 0x9149 0xba57;
  It 0x914a 0xba59;
  It 0x914b 0xba5a;
  It 0x914c 0xba5b;
  It 0x914d 0xba5d;
  It 0x914e 0xba5e;
  It 0x914f 0xba5f;
  It 0x9150 0xba60;
  It 0x9151 0xba61;
  It 0x9152 0xba62;
  It 0x9153 0xba63;
  It 0x9154 0xba66;
  It 0x9155 0xba6a;
  It 0x9156 0xba6b;
  It 0x9157 0xba6c;
  It 0x9158 0xba6d;
  It 0x9159 0xba6e;
  It 0x915a 0xba6f;
  It 0x9161 0xba72;
  It 0x9162 0xba73;
  It 0x9163 0xba75;
  It 0x9164 0xba76;
  It 0x9165 0xba77;
  It 0x9166 0xba79;
  It 0x9167 0xba7a;
  It 0x9168 0xba7b;
  It 0x9169 0xba7c;
  It 0x916a 0xba7d;
  It 0x916b 0xba7e;
  It 0x916c 0xba7f;
  It 0x916d 0xba80;
  It 0x916e 0xba81;
  It 0x916f 0xba82;
  It 0x9170 0xba86;
  It 0x9171 0xba88;
  It 0x9172 0xba89;
  It 0x9173 0xba8a;
  It 0x9174 0xba8b;
  It 0x9175 0xba8d;
  It 0x9176 0xba8e;
  It 0x9177 0xba8f;
  It 0x9178 0xba90;
  It 0x9179 0xba91;
  It 0x917a 0xba92;
  It 0x9181 0xba93;
  It 0x9182 0xba94;
  It 0x9183 0xba95;
  It 0x9184 0xba96;
  It 0x9185 0xba97;
  It 0x9186 0xba98;
  It 0x9187 0xba99;
  It 0x9188 0xba9a;
  It 0x9189 0xba9b;
  It 0x918a 0xba9c;
  It 0x918b 0xba9d;
  It 0x918c 0xba9e;
  It 0x918d 0xba9f;
  It 0x918e 0xbaa0;
  It 0x918f 0xbaa1;
  It 0x9190 0xbaa2;
  It 0x9191 0xbaa3;
  It 0x9192 0xbaa4;
  It 0x9193 0xbaa5;
  It 0x9194 0xbaa6;
  It 0x9195 0xbaa7;
  It 0x9196 0xbaaa;
  It 0x9197 0xbaad;
  It 0x9198 0xbaae;
  It 0x9199 0xbaaf;
  It 0x919a 0xbab1;
  It 0x919b 0xbab3;
  It 0x919c 0xbab4;
  It 0x919d 0xbab5;
  It 0x919e 0xbab6;
  It 0x919f 0xbab7;
  It 0x91a0 0xbaba;
  It 0x91a1 0xbabc;
  It 0x91a2 0xbabe;
  It 0x91a3 0xbabf;
  It 0x91a4 0xbac0;
  It 0x91a5 0xbac1;
  It 0x91a6 0xbac2;
  It 0x91a7 0xbac3;
  It 0x91a8 0xbac5;
  It 0x91a9 0xbac6;
  It 0x91aa 0xbac7;
  It 0x91ab 0xbac9;
  It 0x91ac 0xbaca;
  It 0x91ad 0xbacb;
  It 0x91ae 0xbacc;
  It 0x91af 0xbacd;
  It 0x91b0 0xbace;
  It 0x91b1 0xbacf;
  It 0x91b2 0xbad0;
  It 0x91b3 0xbad1;
  It 0x91b4 0xbad2;
  It 0x91b5 0xbad3;
  It 0x91b6 0xbad4;
  It 0x91b7 0xbad5;
  It 0x91b8 0xbad6;
  It 0x91b9 0xbad7;
  It 0x91ba 0xbada;
  It 0x91bb 0xbadb;
  It 0x91bc 0xbadc;
  It 0x91bd 0xbadd;
  It 0x91be 0xbade;
  It 0x91bf 0xbadf;
  It 0x91c0 0xbae0;
  It 0x91c1 0xbae1;
  It 0x91c2 0xbae2;
  It 0x91c3 0xbae3;
  It 0x91c4 0xbae4;
  It 0x91c5 0xbae5;
  It 0x91c6 0xbae6;
  It 0x91c7 0xbae7;
  It 0x91c8 0xbae8;
  It 0x91c9 0xbae9;
  It 0x91ca 0xbaea;
  It 0x91cb 0xbaeb;
  It 0x91cc 0xbaec;
  It 0x91cd 0xbaed;
  It 0x91ce 0xbaee;
  It 0x91cf 0xbaef;
  It 0x91d0 0xbaf0;
  It 0x91d1 0xbaf1;
  It 0x91d2 0xbaf2;
  It 0x91d3 0xbaf3;
  It 0x91d4 0xbaf4;
  It 0x91d5 0xbaf5;
  It 0x91d6 0xbaf6;
  It 0x91d7 0xbaf7;
  It 0x91d8 0xbaf8;
  It 0x91d9 0xbaf9;
  It 0x91da 0xbafa;
  It 0x91db 0xbafb;
  It 0x91dc 0xbafd;
  It 0x91dd 0xbafe;
  It 0x91de 0xbaff;
  It 0x91df 0xbb01;
  It 0x91e0 0xbb02;
  It 0x91e1 0xbb03;
  It 0x91e2 0xbb05;
  It 0x91e3 0xbb06;
  It 0x91e4 0xbb07
].

(* encoding/cp949/lookup_from.go:3009-3258 *)
Definition fromTable_012 : list lookupItem := [
  It 0x91e5 0xbb08;
  It 0x91e6 0xbb09;
  It 0x91e7 0xbb0a;
  It 0x91e8 0xbb0b;
  It 0x91e9 0xbb0c;
  It 0x91ea 0xbb0e;
  It 0x91eb 0xbb10;
  It 0x91ec 0xbb12;
  It 0x91ed 0xbb13;
  It 0x91ee 0xbb14;
  It 0x91ef 0xbb15;
  It 0x91f0 0xbb16;
  It 0x91f1 0xbb17;
  It 0x91f2 0xbb19;
  It 0x91f3 0xbb1a;
  It 0x91f4 0xbb1b;
  It 0x91f5 0xbb1d;
  It 0x91f6 0xbb1e;
  It 0x91f7 0xbb1f;
  It 0x91f8 0xbb21;
  It 0x91f9 0xbb22;
  It 0x91fa 0xbb23;
  It 0x91fb 0xbb24;
  It 0x91fc 0xbb25;
  It 0x91fd 0xbb26;
  It 0x91fe 0xbb27;
  It 0x9241 0xbb28;
  It 0x9242 0xbb2a;
  It 0x9243 0xbb2c;
  It 0x9244 0xbb2d;
  It 0x9245 0xbb2e;
  It 0x9246 0xbb2f;
  It 0x9247 0xbb30;
  It 0x9248 0xbb31;
  It 0x9249 0xbb32;
  It 0x924a 0xbb33;
  It 0x924b 0xbb37;
  It 0x924c 0xbb39;
  It 0x924d 0xbb3a;
  It 0x924e 0xbb3f;
  It 0x924f 0xbb40;
  It 0x9250 0xbb41;
  It 0x9251 0xbb42;
  It 0x9252 0xbb43;
  It 0x9253 0xbb46;
  It 0x9254 0xbb48;
  It 0x9255 0xbb4a;
  It 0x9256 0xbb4b;
  It 0x9257 0xbb4c;
  It 0x9258 0xbb4e;
  It 0x9259 0xbb51;
  It 0x925a 0xbb52;
  It 0x9261 0xbb53;
  It 0x9262 0xbb55;
  It 0x9263 0xbb56;
  It 0x9264 0xbb57;
  It 0x9265 0xbb59;
  It 0x9266 0xbb5a;
  It 0x9267 0xbb5b;
  It 0x9268 0xbb5c;
  It 0x9269 0xbb5d;
  It 0x926a 0xbb5e;
  It 0x926b 0xbb5f;
  It 0x926c 0xbb60;
  It 0x926d 0xbb62;
  It 0x926e 0xbb64;
  It 0x926f 0xbb65;
  It 0x9270 0xbb66;
  It 0x9271 0xbb67;
  It 0x9272 0xbb68;
  It 0x9273 0xbb69;
  It 0x9274 0xbb6a;
  It 0x9275 0xbb6b;
  It 0x9276 0xbb6d;
  It 0x9277 0xbb6e;
  It 0x9278 0xbb6f;
  It 0x9279 0xbb70;
  It 0x927a 0xbb71;
  It 0x9281 0xbb72;
  It 0x9282 0xbb73;
  It 0x9283 0xbb74;
  It 0x9284 0xbb75;
  It 0x9285 0xbb76;
  It 0x9286 0xbb77;
  It 0x9287 0xbb78;
  It 0x9288 0xbb79;
  It 0x9289 0xbb7a;
  It 0x928a 0xbb7b;
  It 0x928b 0xbb7c;
  It 0x928c 0xbb7d;
  It 0x928d 0xbb7e;
  It 0x928e 0xbb7f;
  It 0x928f 0xbb80;
  It 0x9290 0xbb81;
  It 0x9291 0xbb82;
  It 0x9292 0xbb83;
  It 0x9293 0xbb84;
  It 0x9294 0xbb85;
  It 0x9295 0xbb86;
  It 0x9296 0xbb87;
  It 0x9297 0xbb89;
  It 0x9298 0xbb8a;
  It 0x9299 0xbb8b;
  It 0x929a 0xbb8d;
  It 0x929b 0xbb8e;
  It 0x929c 0xbb8f;
  It 0x929d 0xbb91;
  It 0x929e 0xbb92;
  It 0x929f 0xbb93;
  It 0x92a0 0xbb94;
  It 0x92a1 0xbb95;
  It 0x92a2 0xbb96;
  It 0x92a3 0xbb97;
  It 0x92a4 0xbb98;
  It 0x92a5 0xbb99;
  It 0x92a6 0xbb9a;
  It 0x92a7 0xbb9b;
  It 0x92a8 0xbb9c;
  It 0x92a9 0xbb9d;
  It 0x92aa 0xbb9e;
  It 0x92ab 0xbb9f;
  It 0x92ac 0xbba0;
  It 0x92ad 0xbba1;
  It 0x92ae 0xbba2;
  It 0x92af 0xbba3;
  It 0x92b0 0xbba5;
  It 0x92b1 0xbba6;
  It 0x92b2 0xbba7;
  It 0x92b3 0xbba9;
  It 0x92b4 0xbbaa;
  It 0x92b5 0xbbab;
  It 0x92b6 0xbbad;
  It 0x92b7 0xbbae;
  It 0x92b8 0xbbaf;
  It 0x92b9 0xbbb0;
  It 0x92ba 0xbbb1;
  It 0x92bb 0xbbb2;
  It 0x92bc 0xbbb3;
  It 0x92bd 0xbbb5;
  It 0x92be 0xbbb6;
  It 0x92bf 0xbbb8;
  It 0x92c0 0xbbb9;
  It 0x92c1 0xbbba;
  It 0x92c2 0xbbbb;
  It 0x92c3 0xbbbc;
  It 0x92c4 0xbbbd;
  It 0x92c5 0xbbbe;
  It 0x92c6 0xbbbf;
  It 0x92c7 0xbbc1;
  It 0x92c8 0xbbc2;
  It 0x92c9 0xbbc3;
  It 0x92ca 0xbbc5;
  It 0x92cb 0xbbc6;
  It 0x92cc 0xbbc7;
  It 0x92cd 0xbbc9;
  It 0x92ce 0xbbca;
  It 0x92cf 0xbbcb;
  It 0x92d0 0xbbcc;
  It 0x92d1 0xbbcd;
  It 0x92d2 0xbbce;
  It 0x92d3 0xbbcf;
  It 0x92d4 0xbbd1;
  It 0x92d5 0xbbd2;
  It 0x92d6 0xbbd4;
  It 0x92d7 0xbbd5;
  It 0x92d8 0xbbd6;
  It 0x92d9 0xbbd7;
  It 0x92da 0xbbd8;
  It 0x92db 0xbbd9;
  It 0x92dc 0xbbda;
  It 0x92dd 0xbbdb;
  It 0x92de 0xbbdc;
  It 0x92df 0xbbdd;
  It 0x92e0 0xbbde;
  It 0x92e1 0xbbdf;
  It 0x92e2 0xbbe0;
  It 0x92e3 0xbbe1;
  It 0x92e4 0xbbe2;
  It 0x92e5 0xbbe3;
  It 0x92e6 0xbbe4;
  It 0x92e7 0xbbe5;
  It 0x92e8 0xbbe6;
  It 0x92e9 0xbbe7;
  It 0x92ea 0xbbe8;
  It 0x92eb 0xbbe9;
  It 0x92ec 0xbbea;
  It 0x92ed 0xbbeb;
  It 0x92ee 0xbbec;
  It 0x92ef 0xbbed;
  It 0x92f0 0xbbee;
  It 0x92f1 0xbbef;
  It 0x92f2 0xbbf0;
  It 0x92f3 0xbbf1;
  It 0x92f4 0xbbf2;
  It 0x92f5 0xbbf3;
  It 0x92f6 0xbbf4;
  It 0x92f7 0xbbf5;
  It 0x92f8 0xbbf6;
  It 0x92f9 0xbbf7;
  It 0x92fa 0xbbfa;
  It 0x92fb 0xbbfb;
  It 0x92fc 0xbbfd;
  It 0x92fd 0xbbfe;
  It 0x92fe 0xbc01;
  It 0x9341 0xbc03;
  It 0x9342 0xbc04;
  It 0x9343 0xbc05;
  It 0x9344 0xbc06;
  It 0x9345 0xbc07;
  It 0x9346 0xbc0a;
  It 0x9347 0xbc0e;
  It 0x9348 0xbc10;
  It 0x9349 0xbc12;
  It 0x934a 0xbc13;
  It 0x934b 0xbc19;
  It 0x934c 0xbc1a;
  It 0x934d 0xbc20;
  It 0x934e 0xbc21;
  It 0x934f 0xbc22;
  It 0x9350 0xbc23;
  It 0x9351 0xbc26;
  It 0x9352 0xbc28;
  It 0x9353 0xbc2a;
  It 0x9354 0xbc2b;
  It 0x9355 0xbc2c;
  It 0x9356 0xbc2e;
  It 0x9357 0xbc2f;
  It 0x9358 0xbc32;
  It 0x9359 0xbc33;
  It 0x935a 0xbc35;
  It 0x9361 0xbc36;
  It 0x9362 0xbc37;
  It 0x9363 0xbc39;
  It 0x9364 0xbc3a;
  It 0x9365 0xbc3b;
  It 0x9366 0xbc3c;
  It 0x9367 0xbc3d;
  It 0x9368 0xbc3e;
  It 0x9369 0xbc3f;
  It 0x936a 0xbc42;
  It 0x936b 0xbc46;
  It 0x936c 0xbc47;
  It 0x936d 0xbc48;
  It 0x936e 0xbc4a;
  It 0x936f 0xbc4b;
  It 0x9370 0xbc4e;
  It 0x9371 0xbc4f;
  It 0x9372 0xbc51;
  It 0x9373 0xbc52;
  It 0x9374 0xbc53
].

(* encoding/cp949/lookup_from.go:3259-3508 *)
Definition fromTable_013 : list lookupItem := [
  It 0x9375 0xbc54;
  It 0x9376 0xbc55;
  It 0x9377 0xbc56;
  It 0x9378 0xbc57;
  It 0x9379 0xbc58;
  It 0x937a 0xbc59;
  It 0x9381 0xbc5a;
  It 0x9382 0xbc5b;
  It 0x9383 0xbc5c;
  It 0x9384 0xbc5e;
  It 0x9385 0xbc5f;
  It 0x9386 0xbc60;
  It 0x9387 0xbc61;
  It 0x9388 0xbc62;
  It 0x9389 0xbc63;
  It 0x938a 0xbc64;
  It 0x938b 0xbc65;
  It 0x938c 0xbc66;
  It 0x938d 0xbc67;
  It 0x938e 0xbc68;
  It 0x938f 0xbc69;
  It 0x9390 0xbc6a;
  It 0x9391 0xbc6b;
  It 0x9392 0xbc6c;
  It 0x9393 0xbc6d;
  It 0x9394 0xbc6e;
  It 0x9395 0xbc6f;
  It 0x9396 0xbc70;
  It 0x9397 0xbc71;
  It 0x9398 0xbc72;
  It 0x9399 0xbc73;
  It 0x939a 0xbc74;
  It 0x939b 0xbc75;
  It 0x939c 0xbc76;
  It 0x939d 0xbc77;
  It 0x939e 0xbc78;
  It 0x939f 0xbc79;
  It 0x93a0 0xbc7a;
  It 0x93a1 0xbc7b;
  It 0x93a2 0xbc7c;
  It 0x93a3 0xbc7d;
  It 0x93a4 0xbc7e;
  It 0x93a5 0xbc7f;
  It 0x93a6 0xbc80;
  It 0x93a7 0xbc81;
  It 0x93a8 0xbc82;
  It 0x93a9 0xbc83;
  It 0x93aa 0xbc86;
  It 0x93ab 0xbc87;
  It 0x93ac 0xbc89;
  It 0x93ad 0xbc8a;
  It 0x93ae 0xbc8d;
  It 0x93af 0xbc8f;
  It 0x93b0 0xbc90;
  It 0x93b1 0xbc91;
  It 0x93b2 0xbc92;
  It 0x93b3 0xbc93;
  It 0x93b4 0xbc96;
  It 0x93b5 0xbc98;
  It 0x93b6 0xbc9b;
  It 0x93b7 0xbc9c;
  It 0x93b8 0xbc9d;
  It 0x93b9 0xbc9e;
  It 0x93ba 0xbc9f;
  It 0x93bb 0xbca2;
  It 0x93bc 0xbca3;
  It 0x93bd 0xbca5;
  It 0x93be 0xbca6;
  It 0x93bf 0xbca9;
  It 0x93c0 0xbcaa;
  It 0x93c1 0xbcab;
  It 0x93c2 0xbcac;
  It 0x93c3 0xbcad;
  It 0x93c4 0xbcae;
  It 0x93c5 0xbcaf;
  It 0x93c6 0xbcb2;
  It 0x93c7 0xbcb6;
  It 0x93c8 0xbcb7;
  It 0x93c9 0xbcb8;
  It 0x93ca 0xbcb9;
  It 0x93cb 0xbcba;
  It 0x93cc 0xbcbb;
  It 0x93cd 0xbcbe;
  It 0x93ce 0xbcbf;
  It 0x93cf 0xbcc1;
  It 0x93d0 0xbcc2;
  It 0x93d1 0xbcc3;
  It 0x93d2 0xbcc5;
  It 0x93d3 0xbcc6;
  It 0x93d4 0xbcc7;
  It 0x93d5 0xbcc8;
  It 0x93d6 0xbcc9;
  It 0x93d7 0xbcca;
  It 0x93d8 0xbccb;
  It 0x93d9 0xbccc;
  It 0x93da 0xbcce;
  It 0x93db 0xbcd2;
  It 0x93dc 0xbcd3;
  It 0x93dd 0xbcd4;
  It 0x93de 0xbcd6;
  It 0x93df 0xbcd7;
  It 0x93e0 0xbcd9;
  It 0x93e1 0xbcda;
  It 0x93e2 0xbcdb;
  It 0x93e3 0xbcdd;
  It 0x93e4 0xbcde;
  It 0x93e5 0xbcdf;
  It 0x93e6 0xbce0;
  It 0x93e7 0xbce1;
  It 0x93e8 0xbce2;
  It 0x93e9 0xbce3;
  It 0x93ea 0xbce4;
  It 0x93eb 0xbce5;
  It 0x93ec 0xbce6;
  It 0x93ed 0xbce7;
  It 0x93ee 0xbce8;
  It 0x93ef 0xbce9;
  It 0x93f0 0xbcea;
  It 0x93f1 0xbceb;
  It 0x93f2 0xbcec;
  It 0x93f3 0xbced;
  It 0x93f4 0xbcee;
  It 0x93f5 0xbcef;
  It 0x93f6 0xbcf0;
  It 0x93f7 0xbcf1;
  It 0x93f8 0xbcf2;
  It 0x93f9 0xbcf3;
  It 0x93fa 0xbcf7;
  It 0x93fb 0xbcf9;
  It 0x93fc 0xbcfa;
  It 0x93fd 0xbcfb;
  It 0x93fe 0xbcfd;
  It 0x9441 0xbcfe;
  It 0x9442 0xbcff;
  It 0x9443 0xbd00;
  It 0x9444 0xbd01;
  It 0x9445 0xbd02;
  It 0x9446 0xbd03;
  It 0x9447 0xbd06;
  It 0x9448 0xbd08;
  It 0x9449 0xbd0a;
  It 0x944a 0xbd0b;
  It 0x944b 0xbd0c;
  It 0x944c 0xbd0d;
  It 0x944d 0xbd0e;
  It 0x944e 0xbd0f;
  It 0x944f 0xbd11;
  It 0x9450 0xbd12;
  It 0x9451 0xbd13;
  It 0x9452 0xbd15;
  It 0x9453 0xbd16;
  It 0x9454 0xbd17;
  It 0x9455 0xbd18;
  It 0x9456 0xbd19;
  It 0x9457 0xbd1a;
  It 0x9458 0xbd1b;
  It 0x9459 0xbd1c;
  It 0x945a 0xbd1d;
  It 0x9461 0xbd1e;
  It 0x9462 0xbd1f;
  It 0x9463 0xbd20;
  It 0x9464 0xbd21;
  It 0x9465 0xbd22;
  It 0x9466 0xbd23;
  It 0x9467 0xbd25;
  It 0x9468 0xbd26;
  It 0x9469 0xbd27;
  It 0x946a 0xbd28;
  It 0x946b 0xbd29;
  It 0x946c 0xbd2a;
  It 0x946d 0xbd2b;
  It 0x946e 0xbd2d;
  It 0x946f 0xbd2e;
  It 0x9470 0xbd2f;
  It 0x9471 0xbd30;
  It 0x9472 0xbd31;
  It 0x9473 0xbd32;
  It 0x9474 0xbd33;
  It 0x9475 0xbd34;
  It 0x9476 0xbd35;
  It 0x9477 0xbd36;
  It 0x9478 0xbd37;
  It 0x9479 0xbd38;
  It 0x947a 0xbd39;
  It 0x9481 0xbd3a;
  It 0x9482 0xbd3b;
  It 0x9483 0xbd3c;
  It 0x9484 0xbd3d;
  It 0x9485 0xbd3e;
  It 0x9486 0xbd3f;
  It 0x9487 0xbd41;
  It 0x9488 0xbd42;
  It 0x9489 0xbd43;
  It 0x948a 0xbd44;
  It 0x948b 0xbd45;
  It 0x948c 0xbd46;
  It 0x948d 0xbd47;
  It 0x948e 0xbd4a;
  It 0x948f 0xbd4b;
  It 0x9490 0xbd4d;
  It 0x9491 0xbd4e;
  It 0x9492 0xbd4f;
  It 0x9493 0xbd51;
  It 0x9494 0xbd52;
  It 0x9495 0xbd53;
  It 0x9496 0xbd54;
  It 0x9497 0xbd55;
  It 0x9498 0xbd56;
  It 0x9499 0xbd57;
  It 0x949a 0xbd5a;
  It 0x949b 0xbd5b;
  It 0x949c 0xbd5c;
  It 0x949d 0xbd5d;
  It 0x949e 0xbd5e;
  It 0x949f 0xbd5f;
  It 0x94a0 0xbd60;
  It 0x94a1 0xbd61;
  It 0x94a2 0xbd62;
  It 0x94a3 0xbd63;
  It 0x94a4 0xbd65;
  It 0x94a5 0xbd66;
  It 0x94a6 0xbd67;
  It 0x94a7 0xbd69;
  It 0x94a8 0xbd6a;
  It 0x94a9 0xbd6b;
  It 0x94aa 0xbd6c;
  It 0x94ab 0xbd6d;
  It 0x94ac 0xbd6e;
  It 0x94ad 0xbd6f;
  It 0x94ae 0xbd70;
  It 0x94af 0xbd71;
  It 0x94b0 0xbd72;
  It 0x94b1 0xbd73;
  It 0x94b2 0xbd74;
  It 0x94b3 0xbd75;
  It 0x94b4 0xbd76;
  It 0x94b5 0xbd77;
  It 0x94b6 0xbd78;
  It 0x94b7 0xbd79;
  It 0x94b8 0xbd7a;
  It 0x94b9 0xbd7b;
  It 0x94ba 0xbd7c;
  It 0x94bb 0xbd7d;
  It 0x94bc 0xbd7e;
  It 0x94bd 0xbd7f;
  It 0x94be 0xbd82;
  It 0x94bf 0xbd83;
  It 0x94c0 0xbd85;
  It 0x94c1 0xbd86;
  It 0x94c2 0xbd8b
].

(* encoding/cp949/lookup_from.go:3509-3758 *)
Definition fromTable_014 : list lookupItem := [
  It 0x94c3 0xbd8c;
  It 0x94c4 0xbd8d;
  It 0x94c5 0xbd8e;
  It 0x94c6 0xbd8f;
  It 0x94c7 0xbd92;
  It 0x94c8 0xbd94;
  It 0x94c9 0xbd96;
  It 0x94ca 0xbd97;
  It 0x94cb 0xbd98;
  It 0x94cc 0xbd9b;
  It 0x94cd 0xbd9d;
  It 0x94ce 0xbd9e;
  It 0x94cf 0xbd9f;
  It 0x94d0 0xbda0;
  It 0x94d1 0xbda1;
  It 0x94d2 0xbda2;
  It 0x94d3 0xbda3;
  It 0x94d4 0xbda5;
  It 0x94d5 0xbda6;
  It 0x94d6 0xbda7;
  It 0x94d7 0xbda8;
  It 0x94d8 0xbda9;
  It 0x94d9 0xbdaa;
  It 0x94da 0xbdab;
  It 0x94db 0xbdac;
  It 0x94dc 0xbdad;
  It 0x94dd 0xbdae;
  It 0x94de 0xbdaf;
  It 0x94df 0xbdb1;
  It 0x94e0 0xbdb2;
  It 0x94e1 0xbdb3;
  It 0x94e2 0xbdb4;
  It 0x94e3 0xbdb5;
  It 0x94e4 0xbdb6;
  It 0x94e5 0xbdb7;
  It 0x94e6 0xbdb9;
  It 0x94e7 0xbdba;
  It 0x94e8 0xbdbb;
  It 0x94e9 0xbdbc;
  It 0x94ea 0xbdbd;
  It 0x94eb 0xbdbe;
  It 0x94ec 0xbdbf;
  It 0x94ed 0xbdc0;
  It 0x94ee 0xbdc1;
  It 0x94ef 0xbdc2;
  It 0x94f0 0xbdc3;
  It 0x94f1 0xbdc4;
  It 0x94f2 0xbdc5;
  It 0x94f3 0xbdc6;
  It 0x94f4 0xbdc7;
  It 0x94f5 0xbdc8;
  It 0x94f6 0xbdc9;
  It 0x94f7 0xbdca;
  It 0x94f8 0xbdcb;
  It 0x94f9 0xbdcc;
  It 0x94fa 0xbdcd;
  It 0x94fb 0xbdce;
  It 0x94fc 0xbdcf;
  It 0x94fd 0xbdd0;
  It 0x94fe 0xbdd1;
  It 0x9541 0xbdd2;
  It 0x9542 0xbdd3;
  It 0x9543 0xbdd6;
  It 0x9544 0xbdd7;
  It 0x9545 0xbdd9;
  It 0x9546 0xbdda;
  It 0x9547 0xbddb;
  It 0x9548 0xbddd;
  It 0x9549 0xbdde;
  It 0x954a 0xbddf;
  It 0x954b 0xbde0;
  It 0x954c 0xbde1;
  It 0x954d 0xbde2;
  It 0x954e 0xbde3;
  It 0x954f 0xbde4;
  It 0x9550 0xbde5;
  It 0x9551 0xbde6;
  It 0x9552 0xbde7;
  It 0x9553 0xbde8;
  It 0x9554 0xbdea;
  It 0x9555 0xbdeb;
  It 0x9556 0xbdec;
  It 0x9557 0xbded;
  It 0x9558 0xbdee;
  It 0x9559 0xbdef;
  It 0x955a 0xbdf1;
  It 0x9561 0xbdf2;
  It 0x9562 0xbdf3;
  It 0x9563 0xbdf5;
  It 0x9564 0xbdf6;
  It 0x9565 0xbdf7;
  It 0x9566 0xbdf9;
  It 0x9567 0xbdfa;
  It 0x9568 0xbdfb;
  It 0x9569 0xbdfc;
  It 0x956a 0xbdfd;
  It 0x956b 0xbdfe;
  It 0x956c 0xbdff;
  It 0x956d 0xbe01;
  It 0x956e 0xbe02;
  It 0x956f 0xbe04;
  It 0x9570 0xbe06;
  It 0x9571 0xbe07;
  It 0x9572 0xbe08;
  It 0x9573 0xbe09;
  It 0x9574 0xbe0a;
  It 0x9575 0xbe0b;
  It 0x9576 0xbe0e;
  It 0x9577 0xbe0f;
  It 0x9578 0xbe11;
  It 0x9579 0xbe12;
  It 0x957a 0xbe13;
  It 0x9581 0xbe15;
  It 0x9582 0xbe16;
  It 0x9583 0xbe17;
  It 0x9584 0xbe18;
  It 0x9585 0xbe19;
  It 0x9586 0xbe1a;
  It 0x9587 0xbe1b;
  It 0x9588 0xbe1e;
  It 0x9589 0xbe20;
  It 0x958a 0xbe21;
  It 0x958b 0xbe22;
  It 0x958c 0xbe23;
  It 0x958d 0xbe24;
  It 0x958e 0xbe25;
  It 0x958f 0xbe26;
  It 0x9590 0xbe27;
  It 0x9591 0xbe28;
  It 0x9592 0xbe29;
  It 0x9593 0xbe2a;
  It 0x9594 0xbe2b;
  It 0x9595 0xbe2c;
  It 0x9596 0xbe2d;
  It 0x9597 0xbe2e;
  It 0x9598 0xbe2f;
  It 0x9599 0xbe30;
  It 0x959a 0xbe31;
  It 0x959b 0xbe32;
  It 0x959c 0xbe33;
  It 0x959d 0xbe34;
  It 0x959e 0xbe35;
  It 0x959f 0xbe36;
  It 0x95a0 0xbe37;
  It 0x95a1 0xbe38;
  It 0x95a2 0xbe39;
  It 0x95a3 0xbe3a;
  It 0x95a4 0xbe3b;
  It 0x95a5 0xbe3c;
  It 0x95a6 0xbe3d;
  It 0x95a7 0xbe3e;
  It 0x95a8 0xbe3f;
  It 0x95a9 0xbe40;
  It 0x95aa 0xbe41;
  It 0x95ab 0xbe42;
  It 0x95ac 0xbe43;
  It 0x95ad 0xbe46;
  It 0x95ae 0xbe47;
  It 0x95af 0xbe49;
  It 0x95b0 0xbe4a;
  It 0x95b1 0xbe4b;
  It 0x95b2 0xbe4d;
  It 0x95b3 0xbe4f;
  It 0x95b4 0xbe50;
  It 0x95b5 0xbe51;
  It 0x95b6 0xbe52;
  It 0x95b7 0xbe53;
  It 0x95b8 0xbe56;
  It 0x95b9 0xbe58;
  It 0x95ba 0xbe5c;
  It 0x95bb 0xbe5d;
  It 0x95bc 0xbe5e;
  It 0x95bd 0xbe5f;
  It 0x95be 0xbe62;
  It 0x95bf 0xbe63;
  It 0x95c0 0xbe65;
  It 0x95c1 0xbe66;
  It 0x95c2 0xbe67;
  It 0x95c3 0xbe69;
  It 0x95c4 0xbe6b;
  It 0x95c5 0xbe6c;
  It 0x95c6 0xbe6d;
  It 0x95c7 0xbe6e;
  It 0x95c8 0xbe6f;
  It 0x95c9 0xbe72;
  It 0x95ca 0xbe76;
  It 0x95cb 0xbe77;
  It 0x95cc 0xbe78;
  It 0x95cd 0xbe79;
  It 0x95ce 0xbe7a;
  It 0x95cf 0xbe7e;
  It 0x95d0 0xbe7f;
  It 0x95d1 0xbe81;
  It 0x95d2 0xbe82;
  It 0x95d3 0xbe83;
  It 0x95d4 0xbe85;
  It 0x95d5 0xbe86;
  It 0x95d6 0xbe87;
  It 0x95d7 0xbe88;
  It 0x95d8 0xbe89;
  It 0x95d9 0xbe8a;
  It 0x95da 0xbe8b;
  It 0x95db 0xbe8e;
  It 0x95dc 0xbe92;
  It 0x95dd 0xbe93;
  It 0x95de 0xbe94;
  It 0x95df 0xbe95;
  It 0x95e0 0xbe96;
  It 0x95e1 0xbe97;
  It 0x95e2 0xbe9a;
  It 0x95e3 0xbe9b;
  It 0x95e4 0xbe9c;
  It 0x95e5 0xbe9d;
  It 0x95e6 0xbe9e;
  It 0x95e7 0xbe9f;
  It 0x95e8 0xbea0;
  It 0x95e9 0xbea1;
  It 0x95ea 0xbea2;
  It 0x95eb 0xbea3;
  It 0x95ec 0xbea4;
  It 0x95ed 0xbea5;
  It 0x95ee 0xbea6;
  It 0x95ef 0xbea7;
  It 0x95f0 0xbea9;
  It 0x95f1 0xbeaa;
  It 0x95f2 0xbeab;
  It 0x95f3 0xbeac;
  It 0x95f4 0xbead;
  It 0x95f5 0xbeae;
  It 0x95f6 0xbeaf;
  It 0x95f7 0xbeb0;
  It 0x95f8 0xbeb1;
  It 0x95f9 0xbeb2;
  It 0x95fa 0xbeb3;
  It 0x95fb 0xbeb4;
  It 0x95fc 0xbeb5;
  It 0x95fd 0xbeb6;
  It 0x95fe 0xbeb7;
  It 0x9641 0xbeb8;
  It 0x9642 0xbeb9;
  It 0x9643 0xbeba;
  It 0x9644 0xbebb;
  It 0x9645 0xbebc;
  It 0x9646 0xbebd;
  It 0x9647 0xbebe;
  It 0x9648 0xbebf;
  It 0x9649 0xbec0;
  It 0x964a 0xbec1;
  It 0x964b 0xbec2;
  It 0x964c 0xbec3
].

(* encoding/cp949/lookup_from.go:3759-4008 *)
Definition fromTable_015 : list lookupItem := [
  It 0x964d 0xbec4;
  It 0x964e 0xbec5;
  It 0x964f 0xbec6;
  It 0x9650 0xbec7;
  It 0x9651 0xbec8;
  It 0x9652 0xbec9;
  It 0x9653 0xbeca;
  It 0x9654 0xbecb;
  It 0x9655 0xbecc;
  It 0x9656 0xbecd;
  It 0x9657 0xbece;
  It 0x9658 0xbecf;
  It 0x9659 0xbed2;
  It 0x965a 0xbed3;
  It 0x9661 0xbed5;
  It 0x9662 0xbed6;
  It 0x9663 0xbed9;
  It 0x9664 0xbeda;
  It 0x9665 0xbedb;
  It 0x9666 0xbedc;
  It 0x9667 0xbedd;
  It 0x9668 0xbede;
  It 0x9669 0xbedf;
  It 0x966a 0xbee1;
  It 0x966b 0xbee2;
  It 0x966c 0xbee6;
  It 0x966d 0xbee7;
  It 0x966e 0xbee8;
  It 0x966f 0xbee9;
  It 0x9670 0xbeea;
  It 0x9671 0xbeeb;
  It 0x9672 0xbeed;
  It 0x9673 0xbeee;
  It 0x9674 0xbeef;
  It 0x9675 0xbef0;
  It 0x9676 0xbef1;
  It 0x9677 0xbef2;
  It 0x9678 0xbef3;
  It 0x9679 0xbef4;
  It 0x967a 0xbef5;
  It 0x9681 0xbef6;
  It 0x9682 0xbef7;
  It 0x9683 0xbef8;
  It 0x9684 0xbef9;
  It 0x9685 0xbefa;
  It 0x9686 0xbefb;
  It 0x9687 0xbefc;
  It 0x9688 0xbefd;
  It 0x9689 0xbefe;
  It 0x968a 0xbeff;
  It 0x968b 0xbf00;
  It 0x968c 0xbf02;
  It 0x968d 0xbf03;
  It 0x968e 0xbf04;
  It 0x968f 0xbf05;
  It 0x9690 0xbf06;
  It 0x9691 0xbf07;
  It 0x9692 0xbf0a;
  It 0x9693 0xbf0b;
  It 0x9694 0xbf0c;
  It 0x9695 0xbf0d;
  It 0x9696 0xbf0e;
  It 0x9697 0xbf0f;
  It 0x9698 0xbf10;
  It 0x9699 0xbf11;
  It 0x969a 0xbf12;
  It 0x969b 0xbf13;
  It 0x969c 0xbf14;
  It 0x969d 0xbf15;
  It 0x969e 0xbf16;
  It 0x969f 0xbf17;
  It 0x96a0 0xbf1a;
  It 0x96a1 0xbf1e;
  It 0x96a2 0xbf1f;
  It 0x96a3 0xbf20;
  It 0x96a4 0xbf21;
  It 0x96a5 0xbf22;
  It 0x96a6 0xbf23;
  It 0x96a7 0xbf24;
  It 0x96a8 0xbf25;
  It 0x96a9 0xbf26;
  It 0x96aa 0xbf27;
  It 0x96ab 0xbf28;
  It 0x96ac 0xbf29;
  It 0x96ad 0xbf2a;
  It 0x96ae 0xbf2b;
  It 0x96af 0xbf2c;
  It 0x96b0 0xbf2d;
  It 0x96b1 0xbf2e;
  It 0x96b2 0xbf2f;
  It 0x96b3 0xbf30;
  It 0x96b4 0xbf31;
  It 0x96b5 0xbf32;
  It 0x96b6 0xbf33;
  It 0x96b7 0xbf34;
  It 0x96b8 0xbf35;
  It 0x96b9 0xbf36;
  It 0x96ba 0xbf37;
  It 0x96bb 0xbf38;
  It 0x96bc 0xbf39;
  It 0x96bd 0xbf3a;
  It 0x96be 0xbf3b;
  It 0x96bf 0xbf3c;
  It 0x96c0 0xbf3d;
  It 0x96c1 0xbf3e;
  It 0x96c2 0xbf3f;
  It 0x96c3 0xbf42;
  It 0x96c4 0xbf43;
  It 0x96c5 0xbf45;
  It 0x96c6 0xbf46;
  It 0x96c7 0xbf47;
  It 0x96c8 0xbf49;
  It 0x96c9 0xbf4a;
  It 0x96ca 0xbf4b;
  It 0x96cb 0xbf4c;
  It 0x96cc 0xbf4d;
  It 0x96cd 0xbf4e;
  It 0x96ce 0xbf4f;
  It 0x96cf 0xbf52;
  It 0x96d0 0xbf53;
  It 0x96d1 0xbf54;
  It 0x96d2 0xbf56;
  It 0x96d3 0xbf57;
  It 0x96d4 0xbf58;
  It 0x96d5 0xbf59;
  It 0x96d6 0xbf5a;
  It 0x96d7 0xbf5b;
  It 0x96d8 0xbf5c;
  It 0x96d9 0xbf5d;
  It 0x96da 0xbf5e;
  It 0x96db 0xbf5f;
  It 0x96dc 0xbf60;
  It 0x96dd 0xbf61;
  It 0x96de 0xbf62;
  It 0x96df 0xbf63;
  It 0x96e0 0xbf64;
  It 0x96e1 0xbf65;
  It 0x96e2 0xbf66;
  It 0x96e3 0xbf67;
  It 0x96e4 0xbf68;
  It 0x96e5 0xbf69;
  It 0x96e6 0xbf6a;
  It 0x96e7 0xbf6b;
  It 0x96e8 0xbf6c;
  It 0x96e9 0xbf6d;
  It 0x96ea 0xbf6e;
  It 0x96eb 0xbf6f;
  It 0x96ec 0xbf70;
  It 0x96ed 0xbf71;
  It 0x96ee 0xbf72;
  It 0x96ef 0xbf73;
  It 0x96f0 0xbf74;
  It 0x96f1 0xbf75;
  It 0x96f2 0xbf76;
  It 0x96f3 0xbf77;
  It 0x96f4 0xbf78;
  It 0x96f5 0xbf79;
  It 0x96f6 0xbf7a;
  It 0x96f7 0xbf7b;
  It 0x96f8 0xbf7c;
  It 0x96f9 0xbf7d;
  It 0x96fa 0xbf7e;
  It 0x96fb 0xbf7f;
  It 0x96fc 0xbf80;
  It 0x96fd 0xbf81;
  It 0x96fe 0xbf82;
  It 0x9741 0xbf83;
  It 0x9742 0xbf84;
  It 0x9743 0xbf85;
  It 0x9744 0xbf86;
  It 0x9745 0xbf87;
  It 0x9746 0xbf88;
  It 0x9747 0xbf89;
  It 0x9748 0xbf8a;
  It 0x9749 0xbf8b;
  It 0x974a 0xbf8c;
  It 0x974b 0xbf8d;
  It 0x974c 0xbf8e;
  It 0x974d 0xbf8f;
  It 0x974e 0xbf90;
  It 0x974f 0xbf91;
  It 0x9750 0xbf92;
  It 0x9751 0xbf93;
  It 0x9752 0xbf95;
  It 0x9753 0xbf96;
  It 0x9754 0xbf97;
  It 0x9755 0xbf98;
  It 0x9756 0xbf99;
  It 0x9757 0xbf9a;
  It 0x9758 0xbf9b;
  It 0x9759 0xbf9c;
  It 0x975a 0xbf9d;
  It 0x9761 0xbf9e;
  It 0x9762 0xbf9f;
  It 0x9763 0xbfa0;
  It 0x9764 0xbfa1;
  It 0x9765 0xbfa2;
  It 0x9766 0xbfa3;
  It 0x9767 0xbfa4;
  It 0x9768 0xbfa5;
  It 0x9769 0xbfa6;
  It 0x976a 0xbfa7;
  It 0x976b 0xbfa8;
  It 0x976c 0xbfa9;
  It 0x976d 0xbfaa;
  It 0x976e 0xbfab;
  It 0x976f 0xbfac;
  It 0x9770 0xbfad;
  It 0x9771 0xbfae;
  It 0x9772 0xbfaf;
  It 0x9773 0xbfb1;
  It 0x9774 0xbfb2;
  It 0x9775 0xbfb3;
  It 0x9776 0xbfb4;
  It 0x9777 0xbfb5;
  It 0x9778 0xbfb6;
  It 0x9779 0xbfb7;
  It 0x977a 0xbfb8;
  It 0x9781 0xbfb9;
  It 0x9782 0xbfba;
  It 0x9783 0xbfbb;
  It 0x9784 0xbfbc;
  It 0x9785 0xbfbd;
  It 0x9786 0xbfbe;
  It 0x9787 0xbfbf;
  It 0x9788 0xbfc0;
  It 0x9789 0xbfc1;
  It 0x978a 0xbfc2;
  It 0x978b 0xbfc3;
  It 0x978c 0xbfc4;
  It 0x978d 0xbfc6;
  It 0x978e 0xbfc7;
  It 0x978f 0xbfc8;
  It 0x9790 0xbfc9;
  It 0x9791 0xbfca;
  It 0x9792 0xbfcb;
  It 0x9793 0xbfce;
  It 0x9794 0xbfcf;
  It 0x9795 0xbfd1;
  It 0x9796 0xbfd2;
  It 0x9797 0xbfd3;
  It 0x9798 0xbfd5;
  It 0x9799 0xbfd6;
  It 0x979a 0xbfd7;
  It 0x979b 0xbfd8;
  It 0x979c 0xbfd9;
  It 0x979d 0xbfda;
  It 0x979e 0xbfdb;
  It 0x979f 0xbfdd;
  It 0x97a0 0xbfde
].

(* encoding/cp949/lookup_from.go:4009-4258 *)
Definition fromTable_016 : list lookupItem := [
  It 0x97a1 0xbfe0;
  It 0x97a2 0xbfe2;
  It 0x97a3 0xbfe3;
  It 0x97a4 0xbfe4;
  It 0x97a5 0xbfe5;
  It 0x97a6 0xbfe6;
  It 0x97a7 0xbfe7;
  It 0x97a8 0xbfe8;
  It 0x97a9 0xbfe9;
  It 0x97aa 0xbfea;
  It 0x97ab 0xbfeb;
  It 0x97ac 0xbfec;
  It 0x97ad 0xbfed;
  It 0x97ae 0xbfee;
  It 0x97af 0xbfef;
  It 0x97b0 0xbff0;
  It 0x97b1 0xbff1;
  It 0x97b2 0xbff2;
  It 0x97b3 0xbff3;
  It 0x97b4 0xbff4;
  It 0x97b5 0xbff5;
  It 0x97b6 0xbff6;
  It 0x97b7 0xbff7;
  It 0x97b8 0xbff8;
  It 0x97b9 0xbff9;
  It 0x97ba 0xbffa;
  It 0x97bb 0xbffb;
  It 0x97bc 0xbffc;
  It 0x97bd 0xbffd;
  It 0x97be 0xbffe;
  It 0x97bf 0xbfff;
  It 0x97c0 0xc000;
  It 0x97c1 0xc001;
  It 0x97c2 0xc002;
  It 0x97c3 0xc003;
  It 0x97c4 0xc004;
  It 0x97c5 0xc005;
  It 0x97c6 0xc006;
  It 0x97c7 0xc007;
  It 0x97c8 0xc008;
  It 0x97c9 0xc009;
  It 0x97ca 0xc00a;
  It 0x97cb 0xc00b;
  It 0x97cc 0xc00c;
  It 0x97cd 0xc00d;
  It 0x97ce 0xc00e;
  It 0x97cf 0xc00f;
  It 0x97d0 0xc010;
  It 0x97d1 0xc011;
  It 0x97d2 0xc012;
  It 0x97d3 0xc013;
  It 0x97d4 0xc014;
  It 0x97d5 0xc015;
  It 0x97d6 0xc016;
  It 0x97d7 0xc017;
  It 0x97d8 0xc018;
  It 0x97d9 0xc019;
  It 0x97da 0xc01a;
  It 0x97db 0xc01b;
  It 0x97dc 0xc01c;
  It 0x97dd 0xc01d;
  It 0x97de 0xc01e;
  It 0x97df 0xc01f;
  It 0x97e0 0xc020;
  It 0x97e1 0xc021;
  It 0x97e2 0xc022;
  It 0x97e3 0xc023;
  It 0x97e4 0xc024;
  It 0x97e5 0xc025;
  It 0x97e6 0xc026;
  It 0x97e7 0xc027;
  It 0x97e8 0xc028;
  It 0x97e9 0xc029;
  It 0x97ea 0xc02a;
  It 0x97eb 0xc02b;
  It 0x97ec 0xc02c;
  It 0x97ed 0xc02d;
  It 0x97ee 0xc02e;
  It 0x97ef 0xc02f;
  It 0x97f0 0xc030;
  It 0x97f1 0xc031;
  It 0x97f2 0xc032;
  It 0x97f3 0xc033;
  It 0x97f4 0xc034;
  It 0x97f5 0xc035;
  It 0x97f6 0xc036;
  It 0x97f7 0xc037;
  It 0x97f8 0xc038;
  It 0x97f9 0xc039;
  It 0x97fa 0xc03a;
  It 0x97fb 0xc03b;
  It 0x97fc 0xc03d;
  It 0x97fd 0xc03e;
  It 0x97fe 0xc03f;
  It 0x9841 0xc040;
  It 0x9842 0xc041;
  It 0x9843 0xc042;
  It 0x9844 0xc043;
  It 0x9845 0xc044;
  It 0x9846 0xc045;
  It 0x9847 0xc046;
  It 0x9848 0xc047;
  It 0x9849 0xc048;
  It 0x984a 0xc049;
  It 0x984b 0xc04a;
  It 0x984c 0xc04b;
  It 0x984d 0xc04c;
  It 0x984e 0xc04d;
  It 0x984f 0xc04e;
  It 0x9850 0xc04f;
  It 0x9851 0xc050;
  It 0x9852 0xc052;
  It 0x9853 0xc053;
  It 0x9854 0xc054;
  It 0x9855 0xc055;
  It 0x9856 0xc056;
  It 0x9857 0xc057;
  It 0x9858 0xc059;
  It 0x9859 0xc05a;
  It 0x985a 0xc05b;
  It 0x9861 0xc05d;
  It 0x9862 0xc05e;
  It 0x9863 0xc05f;
  It 0x9864 0xc061;
  It 0x9865 0xc062;
  It 0x9866 0xc063;
  It 0x9867 0xc064;
  It 0x9868 0xc065;
  It 0x9869 0xc066;
  It 0x986a 0xc067;
  It 0x986b 0xc06a;
  It 0x986c 0xc06b;
  It 0x986d 0xc06c;
  It 0x986e 0xc06d;
  It 0x986f 0xc06e;
  It 0x9870 0xc06f;
  It 0x9871 0xc070;
  It 0x9872 0xc071;
  It 0x9873 0xc072;
  It 0x9874 0xc073;
  It 0x9875 0xc074;
  It 0x9876 0xc075;
  It 0x9877 0xc076;
  It 0x9878 0xc077;
  It 0x9879 0xc078;
  It 0x987a 0xc079;
  It 0x9881 0xc07a;
  It 0x9882 0xc07b;
  It 0x9883 0xc07c;
  It 0x9884 0xc07d;
  It 0x9885 0xc07e;
  It 0x9886 0xc07f;
  It 0x9887 0xc080;
  It 0x9888 0xc081;
  It 0x9889 0xc082;
  It 0x988a 0xc083;
  It 0x988b 0xc084;
  It 0x988c 0xc085;
  It 0x988d 0xc086;
  It 0x988e 0xc087;
  It 0x988f 0xc088;
  It 0x9890 0xc089;
  It 0x9891 0xc08a;
  It 0x9892 0xc08b;
  It 0x9893 0xc08c;
  It 0x9894 0xc08d;
  It 0x9895 0xc08e;
  It 0x9896 0xc08f;
  It 0x9897 0xc092;
  It 0x9898 0xc093;
  It 0x9899 0xc095;
  It 0x989a 0xc096;
  It 0x989b 0xc097;
  It 0x989c 0xc099;
  It 0x989d 0xc09a;
  It 0x989e 0xc09b;
  It 0x989f 0xc09c;
  It 0x98a0 0xc09d;
  It 0x98a1 0xc09e;
  It 0x98a2 0xc09f;
  It 0x98a3 0xc0a2;
  It 0x98a4 0xc0a4;
  It 0x98a5 0xc0a6;
  It 0x98a6 0xc0a7;
  It 0x98a7 0xc0a8;
  It 0x98a8 0xc0a9;
  It 0x98a9 0xc0aa;
  It 0x98aa 0xc0ab;
  It 0x98ab 0xc0ae;
  It 0x98ac 0xc0b1;
  It 0x98ad 0xc0b2;
  It 0x98ae 0xc0b7;
  It 0x98af 0xc0b8;
  It 0x98b0 0xc0b9;
  It 0x98b1 0xc0ba;
  It 0x98b2 0xc0bb;
  It 0x98b3 0xc0be;
  It 0x98b4 0xc0c2;
  It 0x98b5 0xc0c3;
  It 0x98b6 0xc0c4;
  It 0x98b7 0xc0c6;
  It 0x98b8 0xc0c7;
  It 0x98b9 0xc0ca;
  It 0x98ba 0xc0cb;
  It 0x98bb 0xc0cd;
  It 0x98bc 0xc0ce;
  It 0x98bd 0xc0cf;
  It 0x98be 0xc0d1;
  It 0x98bf 0xc0d2;
  It 0x98c0 0xc0d3;
  It 0x98c1 0xc0d4;
  It 0x98c2 0xc0d5;
  It 0x98c3 0xc0d6;
  It 0x98c4 0xc0d7;
  It 0x98c5 0xc0da;
  It 0x98c6 0xc0de;
  It 0x98c7 0xc0df;
  It 0x98c8 0xc0e0;
  It 0x98c9 0xc0e1;
  It 0x98ca 0xc0e2;
  It 0x98cb 0xc0e3;
  It 0x98cc 0xc0e6;
  It 0x98cd 0xc0e7;
  It 0x98ce 0xc0e9;
  It 0x98cf 0xc0ea;
  It 0x98d0 0xc0eb;
  It 0x98d1 0xc0ed;
  It 0x98d2 0xc0ee;
  It 0x98d3 0xc0ef;
  It 0x98d4 0xc0f0;
  It 0x98d5 0xc0f1;
  It 0x98d6 0xc0f2;
  It 0x98d7 0xc0f3;
  It 0x98d8 0xc0f6;
  It 0x98d9 0xc0f8;
  It 0x98da 0xc0fa;
  It 0x98db 0xc0fb;
  It 0x98dc 0xc0fc;
  It 0x98dd 0xc0fd;
  It 0x98de 0xc0fe;
  It 0x98df 0xc0ff;
  It 0x98e0 0xc101;
  It 0x98e1 0xc102;
  It 0x98e2 0xc103;
  It 0x98e3 0xc105;
  It 0x98e4 0xc106;
  It 0x98e5 0xc107;
  It 0x98e6 0xc109;
  It 0x98e7 0xc10a;
  It 0x98e8 0xc10b
].

(* encoding/cp949/lookup_from.go:4259-4508 *)
Definition fromTable_017 : list lookupItem := [
  It 0x98e9 0xc10c;
  It 0x98ea 0xc10d;
  It 0x98eb 0xc10e;
  It 0x98ec 0xc10f;
  It 0x98ed 0xc111;
  It 0x98ee 0xc112;
  It 0x98ef 0xc113;
  It 0x98f0 0xc114;
  It 0x98f1 0xc116;
  It 0x98f2 0xc117;
  It 0x98f3 0xc118;
  It 0x98f4 0xc119;
  It 0x98f5 0xc11a;
  It 0x98f6 0xc11b;
  It 0x98f7 0xc121;
  It 0x98f8 0xc122;
  It 0x98f9 0xc125;
  It 0x98fa 0xc128;
  It 0x98fb 0xc129;
  It 0x98fc 0xc12a;
  It 0x98fd 0xc12b;
  It 0x98fe 0xc12e;
  It 0x9941 0xc132;
  It 0x9942 0xc133;
  It 0x9943 0xc134;
  It 0x9944 0xc135;
  It 0x9945 0xc137;
  It 0x9946 0xc13a;
  It 0x9947 0xc13b;
  It 0x9948 0xc13d;
  It 0x9949 0xc13e;
  It 0x994a 0xc13f;
  It 0x994b 0xc141;
  It 0x994c 0xc142;
  It 0x994d 0xc143;
  It 0x994e 0xc144;
  It 0x994f 0xc145;
  It 0x9950 0xc146;
  It 0x9951 0xc147;
  It 0x9952 0xc14a;
  It 0x9953 0xc14e;
  It 0x9954 0xc14f;
  It 0x9955 0xc150;
  It 0x9956 0xc151;
  It 0x9957 0xc152;
  It 0x9958 0xc153;
  It 0x9959 0xc156;
  It 0x995a 0xc157;
  It 0x9961 0xc159;
  It 0x9962 0xc15a;
  It 0x9963 0xc15b;
  It 0x9964 0xc15d;
  It 0x9965 0xc15e;
  It 0x9966 0xc15f;
  It 0x9967 0xc160;
  It 0x9968 0xc161;
  It 0x9969 0xc162;
  It 0x996a 0xc163;
  It 0x996b 0xc166;
  It 0x996c 0xc16a;
  It 0x996d 0xc16b;
  It 0x996e 0xc16c;
  It 0x996f 0xc16d;
  It 0x9970 0xc16e;
  It 0x9971 0xc16f;
  It 0x9972 0xc171;
  It 0x9973 0xc172;
  It 0x9974 0xc173;
  It 0x9975 0xc175;
  It 0x9976 0xc176;
  It 0x9977 0xc177;
  It 0x9978 0xc179;
  It 0x9979 0xc17a;
  It 0x997a 0xc17b;
  It 0x9981 0xc17c;
  It 0x9982 0xc17d;
  It 0x9983 0xc17e;
  It 0x9984 0xc17f;
  It 0x9985 0xc180;
  It 0x9986 0xc181;
  It 0x9987 0xc182;
  It 0x9988 0xc183;
  It 0x9989 0xc184;
  It 0x998a 0xc186;
  It 0x998b 0xc187;
  It 0x998c 0xc188;
  It 0x998d 0xc189;
  It 0x998e 0xc18a;
  It 0x998f 0xc18b;
  It 0x9990 0xc18f;
  It 0x9991 0xc191;
  It 0x9992 0xc192;
  It 0x9993 0xc193;
  It 0x9994 0xc195;
  It 0x9995 0xc197;
  It 0x9996 0xc198;
  It 0x9997 0xc199;
  It 0x9998 0xc19a;
  It 0x9999 0xc19b;
  It 0x999a 0xc19e;
  It 0x999b 0xc1a0;
  It 0x999c 0xc1a2;
  It 0x999d 0xc1a3;
  It 0x999e 0xc1a4;
  It 0x999f 0xc1a6;
  It 0x99a0 0xc1a7;
  It 0x99a1 0xc1aa;
  It 0x99a2 0xc1ab;
  It 0x99a3 0xc1ad;
  It 0x99a4 0xc1ae;
  It 0x99a5 0xc1af;
  It 0x99a6 0xc1b1;
  It 0x99a7 0xc1b2;
  It 0x99a8 0xc1b3;
  It 0x99a9 0xc1b4;
  It 0x99aa 0xc1b5;
  It 0x99ab 0xc1b6;
  It 0x99ac 0xc1b7;
  It 0x99ad 0xc1b8;
  It 0x99ae 0xc1b9;
  It 0x99af 0xc1ba;
  It 0x99b0 0xc1bb;
  It 0x99b1 0xc1bc;
  It 0x99b2 0xc1be;
  It 0x99b3 0xc1bf;
  It 0x99b4 0xc1c0;
  It 0x99b5 0xc1c1;
  It 0x99b6 0xc1c2;
  It 0x99b7 0xc1c3;
  It 0x99b8 0xc1c5;
  It 0x99b9 0xc1c6;
  It 0x99ba 0xc1c7;
  It 0x99bb 0xc1c9;
  It 0x99bc 0xc1ca;
  It 0x99bd 0xc1cb;
  It 0x99be 0xc1cd;
  It 0x99bf 0xc1ce;
  It 0x99c0 0xc1cf;
  It 0x99c1 0xc1d0;
  It 0x99c2 0xc1d1;
  It 0x99c3 0xc1d2;
  It 0x99c4 0xc1d3;
  It 0x99c5 0xc1d5;
  It 0x99c6 0xc1d6;
  It 0x99c7 0xc1d9;
  It 0x99c8 0xc1da;
  It 0x99c9 0xc1db;
  It 0x99ca 0xc1dc;
  It 0x99cb 0xc1dd;
  It 0x99cc 0xc1de;
  It 0x99cd 0xc1df;
  It 0x99ce 0xc1e1;
  It 0x99cf 0xc1e2;
  It 0x99d0 0xc1e3;
  It 0x99d1 0xc1e5;
  It 0x99d2 0xc1e6;
  It 0x99d3 0xc1e7;
  It 0x99d4 0xc1e9;
  It 0x99d5 0xc1ea;
  It 0x99d6 0xc1eb;
  It 0x99d7 0xc1ec;
  It 0x99d8 0xc1ed;
  It 0x99d9 0xc1ee;
  It 0x99da 0xc1ef;
  It 0x99db 0xc1f2;
  It 0x99dc 0xc1f4;
  It 0x99dd 0xc1f5;
  It 0x99de 0xc1f6;
  It 0x99df 0xc1f7;
  It 0x99e0 0xc1f8;
  It 0x99e1 0xc1f9;
  It 0x99e2 0xc1fa;
  It 0x99e3 0xc1fb;
  It 0x99e4 0xc1fe;
  It 0x99e5 0xc1ff;
  It 0x99e6 0xc201;
  It 0x99e7 0xc202;
  It 0x99e8 0xc203;
  It 0x99e9 0xc205;
  It 0x99ea 0xc206;
  It 0x99eb 0xc207;
  It 0x99ec 0xc208;
  It 0x99ed 0xc209;
  It 0x99ee 0xc20a;
  It 0x99ef 0xc20b;
  It 0x99f0 0xc20e;
  It 0x99f1 0xc210;
  It 0x99f2 0xc212;
  It 0x99f3 0xc213;
  It 0x99f4 0xc214;
  It 0x99f5 0xc215;
  It 0x99f6 0xc216;
  It 0x99f7 0xc217;
  It 0x99f8 0xc21a;
  It 0x99f9 0xc21b;
  It 0x99fa 0xc21d;
  It 0x99fb 0xc21e;
  It 0x99fc 0xc221;
  It 0x99fd 0xc222;
  It 0x99fe 0xc223;
  It 0x9a41 0xc224;
  It 0x9a42 0xc225;
  It 0x9a43 0xc226;
  It 0x9a44 0xc227;
  It 0x9a45 0xc22a;
  It 0x9a46 0xc22c;
  It 0x9a47 0xc22e;
  It 0x9a48 0xc230;
  It 0x9a49 0xc233;
  It 0x9a4a 0xc235;
  It 0x9a4b 0xc236;
  It 0x9a4c 0xc237;
  It 0x9a4d 0xc238;
  It 0x9a4e 0xc239;
  It 0x9a4f 0xc23a;
  It 0x9a50 0xc23b;
  It 0x9a51 0xc23c;
  It 0x9a52 0xc23d;
  It 0x9a53 0xc23e;
  It 0x9a54 0xc23f;
  It 0x9a55 0xc240;
  It 0x9a56 0xc241;
  It 0x9a57 0xc242;
  It 0x9a58 0xc243;
  It 0x9a59 0xc244;
  It 0x9a5a 0xc245;
  It 0x9a61 0xc246;
  It 0x9a62 0xc247;
  It 0x9a63 0xc249;
  It 0x9a64 0xc24a;
  It 0x9a65 0xc24b;
  It 0x9a66 0xc24c;
  It 0x9a67 0xc24d;
  It 0x9a68 0xc24e;
  It 0x9a69 0xc24f;
  It 0x9a6a 0xc252;
  It 0x9a6b 0xc253;
  It 0x9a6c 0xc255;
  It 0x9a6d 0xc256;
  It 0x9a6e 0xc257;
  It 0x9a6f 0xc259;
  It 0x9a70 0xc25a;
  It 0x9a71 0xc25b;
  It 0x9a72 0xc25c;
  It 0x9a73 0xc25d;
  It 0x9a74 0xc25e;
  It 0x9a75 0xc25f;
  It 0x9a76 0xc261;
  It 0x9a77 0xc262;
  It 0x9a78 0xc263
].

(* encoding/cp949/lookup_from.go:4509-4758 *)
Definition fromTable_018 : list lookupItem := [
  It 0x9a79 0xc264;
  It 0x9a7a 0xc266;
  It 0x9a81 0xc267;
  It 0x9a82 0xc268;
  It 0x9a83 0xc269;
  It 0x9a84 0xc26a;
  It 0x9a85 0xc26b;
  It 0x9a86 0xc26e;
  It 0x9a87 0xc26f;
  It 0x9a88 0xc271;
  It 0x9a89 0xc272;
  It 0x9a8a 0xc273;
  It 0x9a8b 0xc275;
  It 0x9a8c 0xc276;
  It 0x9a8d 0xc277;
  It 0x9a8e 0xc278;
  It 0x9a8f 0xc279;
  It 0x9a90 0xc27a;
  It 0x9a91 0xc27b;
  It 0x9a92 0xc27e;
  It 0x9a93 0xc280;
  It 0x9a94 0xc282;
  It 0x9a95 0xc283;
  It 0x9a96 0xc284;
  It 0x9a97 0xc285;
  It 0x9a98 0xc286;
  It 0x9a99 0xc287;
  It 0x9a9a 0xc28a;
  It 0x9a9b 0xc28b;
  It 0x9a9c 0xc28c;
  It 0x9a9d 0xc28d;
  It 0x9a9e 0xc28e;
  It 0x9a9f 0xc28f;
  It 0x9aa0 0xc291;
  It 0x9aa1 0xc292;
  It 0x9aa2 0xc293;
  It 0x9aa3 0xc294;
  It 0x9aa4 0xc295;
  It 0x9aa5 0xc296;
  It 0x9aa6 0xc297;
  It 0x9aa7 0xc299;
  It 0x9aa8 0xc29a;
  It 0x9aa9 0xc29c;
  It 0x9aaa 0xc29e;
  It 0x9aab 0xc29f;
  It 0x9aac 0xc2a0;
  It 0x9aad 0xc2a1;
  It 0x9aae 0xc2a2;
  It 0x9aaf 0xc2a3;
  It 0x9ab0 0xc2a6;
  It 0x9ab1 0xc2a7;
  It 0x9ab2 0xc2a9;
  It 0x9ab3 0xc2aa;
  It 0x9ab4 0xc2ab;
  It 0x9ab5 0xc2ae;
  It 0x9ab6 0xc2af;
  It 0x9ab7 0xc2b0;
  It 0x9ab8 0xc2b1;
  It 0x9ab9 0xc2b2;
  It 0x9aba 0xc2b3;
  It 0x9abb 0xc2b6;
  It 0x9abc 0xc2b8;
  It 0x9abd 0xc2ba;
  It 0x9abe 0xc2bb;
  It 0x9abf 0xc2bc;
  It 0x9ac0 0xc2bd;
  It 0x9ac1 0xc2be;
  It 0x9ac2 0xc2bf;
  It 0x9ac3 0xc2c0;
  It 0x9ac4 0xc2c1;
  It 0x9ac5 0xc2c2;
  It 0x9ac6 0xc2c3;
  It 0x9ac7 0xc2c4;
  It 0x9ac8 0xc2c5;
  It 0x9ac9 0xc2c6;
  It 0x9aca 0xc2c7;
  It 0x9acb 0xc2c8;
  It 0x9acc 0xc2c9;
  It 0x9acd 0xc2ca;
  It 0x9ace 0xc2cb;
  It 0x9acf 0xc2cc;
  It 0x9ad0 0xc2cd;
  It 0x9ad1 0xc2ce;
  It 0x9ad2 0xc2cf;
  It 0x9ad3 0xc2d0;
  It 0x9ad4 0xc2d1;
  It 0x9ad5 0xc2d2;
  It 0x9ad6 0xc2d3;
  It 0x9ad7 0xc2d4;
  It 0x9ad8 0xc2d5;
  It 0x9ad9 0xc2d6;
  It 0x9ada 0xc2d7;
  It 0x9adb 0xc2d8;
  It 0x9adc 0xc2d9;
  It 0x9add 0xc2da;
  It 0x9ade 0xc2db;
  It 0x9adf 0xc2de;
  It 0x9ae0 0xc2df;
  It 0x9ae1 0xc2e1;
  It 0x9ae2 0xc2e2;
  It 0x9ae3 0xc2e5;
  It 0x9ae4 0xc2e6;
  It 0x9ae5 0xc2e7;
  It 0x9ae6 0xc2e8;
  It 0x9ae7 0xc2e9;
  It 0x9ae8 0xc2ea;
  It 0x9ae9 0xc2ee;
  It 0x9aea 0xc2f0;
  It 0x9aeb 0xc2f2;
  It 0x9aec 0xc2f3;
  It 0x9aed 0xc2f4;
  It 0x9aee 0xc2f5;
  It 0x9aef 0xc2f7;
  It 0x9af0 0xc2fa;
  It 0x9af1 0xc2fd;
  It 0x9af2 0xc2fe;
  It 0x9af3 0xc2ff;
  It 0x9af4 0xc301;
  It 0x9af5 0xc302;
  It 0x9af6 0xc303;
  It 0x9af7 0xc304;
  It 0x9af8 0xc305;
  It 0x9af9 0xc306;
  It 0x9afa 0xc307;
  It 0x9afb 0xc30a;
  It 0x9afc 0xc30b;
  It 0x9afd 0xc30e;
  It 0x9afe 0xc30f;
  It 0x9b41 0xc310;
  It 0x9b42 0xc311;
  It 0x9b43 0xc312;
  It 0x9b44 0xc316;
  It 0x9b45 0xc317;
  It 0x9b46 0xc319;
  It 0x9b47 0xc31a;
  It 0x9b48 0xc31b;
  It 0x9b49 0xc31d;
  It 0x9b4a 0xc31e;
  It 0x9b4b 0xc31f;
  It 0x9b4c 0xc320;
  It 0x9b4d 0xc321;
  It 0x9b4e 0xc322;
  It 0x9b4f 0xc323;
  It 0x9b50 0xc326;
  It 0x9b51 0xc327;
  It 0x9b52 0xc32a;
  It 0x9b53 0xc32b;
  It 0x9b54 0xc32c;
  It 0x9b55 0xc32d;
  It 0x9b56 0xc32e;
  It 0x9b57 0xc32f;
  It 0x9b58 0xc330;
  It 0x9b59 0xc331;
  It 0x9b5a 0xc332;
  It 0x9b61 0xc333;
  It 0x9b62 0xc334;
  It 0x9b63 0xc335;
  It 0x9b64 0xc336;
  It 0x9b65 0xc337;
  It 0x9b66 0xc338;
  It 0x9b67 0xc339;
  It 0x9b68 0xc33a;
  It 0x9b69 0xc33b;
  It 0x9b6a 0xc33c;
  It 0x9b6b 0xc33d;
  It 0x9b6c 0xc33e;
  It 0x9b6d 0xc33f;
  It 0x9b6e 0xc340;
  It 0x9b6f 0xc341;
  It 0x9b70 0xc342;
  It 0x9b71 0xc343;
  It 0x9b72 0xc344;
  It 0x9b73 0xc346;
  It 0x9b74 0xc347;
  It 0x9b75 0xc348;
  It 0x9b76 0xc349;
  It 0x9b77 0xc34a;
  It 0x9b78 0xc34b;
  It 0x9b79 0xc34c;
  It 0x9b7a 0xc34d;
  It 0x9b81 0xc34e;
  It 0x9b82 0xc34f;
  It 0x9b83 0xc350;
  It 0x9b84 0xc351;
  It 0x9b85 0xc352;
  It 0x9b86 0xc353;
  It 0x9b87 0xc354;
  It 0x9b88 0xc355;
  It 0x9b89 0xc356;
  It 0x9b8a 0xc357;
  It 0x9b8b 0xc358;
  It 0x9b8c 0xc359;
  It 0x9b8d 0xc35a;
  It 0x9b8e 0xc35b;
  It 0x9b8f 0xc35c;
  It 0x9b90 0xc35d;
  It 0x9b91 0xc35e;
  It 0x9b92 0xc35f;
  It 0x9b93 0xc360;
  It 0x9b94 0xc361;
  It 0x9b95 0xc362;
  It 0x9b96 0xc363;
  It 0x9b97 0xc364;
  It 0x9b98 0xc365;
  It 0x9b99 0xc366;
  It 0x9b9a 0xc367;
  It 0x9b9b 0xc36a;
  It 0x9b9c 0xc36b;
  It 0x9b9d 0xc36d;
  It 0x9b9e 0xc36e;
  It 0x9b9f 0xc36f;
  It 0x9ba0 0xc371;
  It 0x9ba1 0xc373;
  It 0x9ba2 0xc374;
  It 0x9ba3 0xc375;
  It 0x9ba4 0xc376;
  It 0x9ba5 0xc377;
  It 0x9ba6 0xc37a;
  It 0x9ba7 0xc37b;
  It 0x9ba8 0xc37e;
  It 0x9ba9 0xc37f;
  It 0x9baa 0xc380;
  It 0x9bab 0xc381;
  It 0x9bac 0xc382;
  It 0x9bad 0xc383;
  It 0x9bae 0xc385;
  It 0x9baf 0xc386;
  It 0x9bb0 0xc387;
  It 0x9bb1 0xc389;
  It 0x9bb2 0xc38a;
  It 0x9bb3 0xc38b;
  It 0x9bb4 0xc38d;
  It 0x9bb5 0xc38e;
  It 0x9bb6 0xc38f;
  It 0x9bb7 0xc390;
  It 0x9bb8 0xc391;
  It 0x9bb9 0xc392;
  It 0x9bba 0xc393;
  It 0x9bbb 0xc394;
  It 0x9bbc 0xc395;
  It 0x9bbd 0xc396;
  It 0x9bbe 0xc397;
  It 0x9bbf 0xc398;
  It 0x9bc0 0xc399;
  It 0x9bc1 0xc39a;
  It 0x9bc2 0xc39b;
  It 0x9bc3 0xc39c;
  It 0x9bc4 0xc39d;
  It 0x9bc5 0xc39e;
  It 0x9bc6 0xc39f
].

(* encoding/cp949/lookup_from.go:4759-5008 *)
Definition fromTable_019 : list lookupItem := [
  It 0x9bc7 0xc3a0;
  It 0x9bc8 0xc3a1;
  It 0x9bc9 0xc3a2;
  It 0x9bca 0xc3a3;
  It 0x9bcb 0xc3a4;
  It 0x9bcc 0xc3a5;
  It 0x9bcd 0xc3a6;
  It 0x9bce 0xc3a7;
  It 0x9bcf 0xc3a8;
  It 0x9bd0 0xc3a9;
  It 0x9bd1 0xc3aa;
  It 0x9bd2 0xc3ab;
  It 0x9bd3 0xc3ac;
  It 0x9bd4 0xc3ad;
  It 0x9bd5 0xc3ae;
  It 0x9bd6 0xc3af;
  It 0x9bd7 0xc3b0;
  It 0x9bd8 0xc3b1;
  It 0x9bd9 0xc3b2;
  It 0x9bda 0xc3b3;
  It 0x9bdb 0xc3b4;
  It 0x9bdc 0xc3b5;
  It 0x9bdd 0xc3b6;
  It 0x9bde 0xc3b7;
  It 0x9bdf 0xc3b8;
  It 0x9be0 0xc3b9;
  It 0x9be1 0xc3ba;
  It 0x9be2 0xc3bb;
  It 0x9be3 0xc3bc;
  It 0x9be4 0xc3bd;
  It 0x9be5 0xc3be;
  It 0x9be6 0xc3bf;
  It 0x9be7 0xc3c1;
  It 0x9be8 0xc3c2;
  It 0x9be9 0xc3c3;
  It 0x9bea 0xc3c4;
  It 0x9beb 0xc3c5;
  It 0x9bec 0xc3c6;
  It 0x9bed 0xc3c7;
  It 0x9bee 0xc3c8;
  It 0x9bef 0xc3c9;
  It 0x9bf0 0xc3ca;
  It 0x9bf1 0xc3cb;
  It 0x9bf2 0xc3cc;
  It 0x9bf3 0xc3cd;
  It 0x9bf4 0xc3ce;
  It 0x9bf5 0xc3cf;
  It 0x9bf6 0xc3d0;
  It 0x9bf7 0xc3d1;
  It 0x9bf8 0xc3d2;
  It 0x9bf9 0xc3d3;
  It 0x9bfa 0xc3d4;
  It 0x9bfb 0xc3d5;
  It 0x9bfc 0xc3d6;
  It 0x9bfd 0xc3d7;
  It 0x9bfe 0xc3da;
  It 0x9c41 0xc3db;
  It 0x9c42 0xc3dd;
  It 0x9c43 0xc3de;
  It 0x9c44 0xc3e1;
  It 0x9c45 0xc3e3;
  It 0x9c46 0xc3e4;
  It 0x9c47 0xc3e5;
  It 0x9c48 0xc3e6;
  It 0x9c49 0xc3e7;
  It 0x9c4a 0xc3ea;
  It 0x9c4b 0xc3eb;
  It 0x9c4c 0xc3ec;
  It 0x9c4d 0xc3ee;
  It 0x9c4e 0xc3ef;
  It 0x9c4f 0xc3f0;
  It 0x9c50 0xc3f1;
  It 0x9c51 0xc3f2;
  It 0x9c52 0xc3f3;
  It 0x9c53 0xc3f6;
  It 0x9c54 0xc3f7;
  It 0x9c55 0xc3f9;
  It 0x9c56 0xc3fa;
  It 0x9c57 0xc3fb;
  It 0x9c58 0xc3fc;
  It 0x9c59 0xc3fd;
  It 0x9c5a 0xc3fe;
  It 0x9c61 0xc3ff;
  It 0x9c62 0xc400;
  It 0x9c63 0xc401;
  It 0x9c64 0xc402;
  It 0x9c65 0xc403;
  It 0x9c66 0xc404;
  It 0x9c67 0xc405;
  It 0x9c68 0xc406;
  It 0x9c69 0xc407;
  It 0x9c6a 0xc409;
  It 0x9c6b 0xc40a;
  It 0x9c6c 0xc40b;
  It 0x9c6d 0xc40c;
  It 0x9c6e 0xc40d;
  It 0x9c6f 0xc40e;
  It 0x9c70 0xc40f;
  It 0x9c71 0xc411;
  It 0x9c72 0xc412;
  It 0x9c73 0xc413;
  It 0x9c74 0xc414;
  It 0x9c75 0xc415;
  It 0x9c76 0xc416;
  It 0x9c77 0xc417;
  It 0x9c78 0xc418;
  It 0x9c79 0xc419;
  It 0x9c7a 0xc41a;
  It 0x9c81 0xc41b;
  It 0x9c82 0xc41c;
  It 0x9c83 0xc41d;
  It 0x9c84 0xc41e;
  It 0x9c85 0xc41f;
  It 0x9c86 0xc420;
  It 0x9c87 0xc421;
  It 0x9c88 0xc422;
  It 0x9c89 0xc423;
  It 0x9c8a 0xc425;
  It 0x9c8b 0xc426;
  It 0x9c8c 0xc427;
  It 0x9c8d 0xc428;
  It 0x9c8e 0xc429;
  It 0x9c8f 0xc42a;
  It 0x9c90 0xc42b;
  It 0x9c91 0xc42d;
  It 0x9c92 0xc42e;
  It 0x9c93 0xc42f;
  It 0x9c94 0xc431;
  It 0x9c95 0xc432;
  It 0x9c96 0xc433;
  It 0x9c97 0xc435;
  It 0x9c98 0xc436;
  It 0x9c99 0xc437;
  It 0x9c9a 0xc438;
  It 0x9c9b 0xc439;
  It 0x9c9c 0xc43a;
  It 0x9c9d 0xc43b;
  It 0x9c9e 0xc43e;
  It 0x9c9f 0xc43f;
  It 0x9ca0 0xc440;
  It 0x9ca1 0xc441;
  It 0x9ca2 0xc442;
  It 0x9ca3 0xc443;
  It 0x9ca4 0xc444;
  It 0x9ca5 0xc445;
  It 0x9ca6 0xc446;
  It 0x9ca7 0xc447;
  It 0x9ca8 0xc449;
  It 0x9ca9 0xc44a;
  It 0x9caa 0xc44b;
  It 0x9cab 0xc44c;
  It 0x9cac 0xc44d;
  It 0x9cad 0xc44e;
  It 0x9cae 0xc44f;
  It 0x9caf 0xc450;
  It 0x9cb0 0xc451;
  It 0x9cb1 0xc452;
  It 0x9cb2 0xc453;
  It 0x9cb3 0xc454;
  It 0x9cb4 0xc455;
  It 0x9cb5 0xc456;
  It 0x9cb6 0xc457;
  It 0x9cb7 0xc458;
  It 0x9cb8 0xc459;
  It 0x9cb9 0xc45a;
  It 0x9cba 0xc45b;
  It 0x9cbb 0xc45c;
  It 0x9cbc 0xc45d;
  It 0x9cbd 0xc45e;
  It 0x9cbe 0xc45f;
  It 0x9cbf 0xc460;
  It 0x9cc0 0xc461;
  It 0x9cc1 0xc462;
  It 0x9cc2 0xc463;
  It 0x9cc3 0xc466;
  It 0x9cc4 0xc467;
  It 0x9cc5 0xc469;
  It 0x9cc6 0xc46a;
  It 0x9cc7 0xc46b;
  It 0x9cc8 0xc46d;
  It 0x9cc9 0xc46e;
  It 0x9cca 0xc46f;
  It 0x9ccb 0xc470;
  It 0x9ccc 0xc471;
  It 0x9ccd 0xc472;
  It 0x9cce 0xc473;
  It 0x9ccf 0xc476;
  It 0x9cd0 0xc477;
  It 0x9cd1 0xc478;
  It 0x9cd2 0xc47a;
  It 0x9cd3 0xc47b;
  It 0x9cd4 0xc47c;
  It 0x9cd5 0xc47d;
  It 0x9cd6 0xc47e;
  It 0x9cd7 0xc47f;
  It 0x9cd8 0xc481;
  It 0x9cd9 0xc482;
  It 0x9cda 0xc483;
  It 0x9cdb 0xc484;
  It 0x9cdc 0xc485;
  It 0x9cdd 0xc486;
  It 0x9cde 0xc487;
  It 0x9cdf 0xc488;
  It 0x9ce0 0xc489;
  It 0x9ce1 0xc48a;
  It 0x9ce2 0xc48b;
  It 0x9ce3 0xc48c;
  It 0x9ce4 0xc48d;
  It 0x9ce5 0xc48e;
  It 0x9ce6 0xc48f;
  It 0x9ce7 0xc490;
  It 0x9ce8 0xc491;
  It 0x9ce9 0xc492;
  It 0x9cea 0xc493;
  It 0x9ceb 0xc495;
  It 0x9cec 0xc496;
  It 0x9ced 0xc497;
  It 0x9cee 0xc498;
  It 0x9cef 0xc499;
  It 0x9cf0 0xc49a;
  It 0x9cf1 0xc49b;
  It 0x9cf2 0xc49d;
  It 0x9cf3 0xc49e;
  It 0x9cf4 0xc49f;
  It 0x9cf5 0xc4a0;
  It 0x9cf6 0xc4a1;
  It 0x9cf7 0xc4a2;
  It 0x9cf8 0xc4a3;
  It 0x9cf9 0xc4a4;
  It 0x9cfa 0xc4a5;
  It 0x9cfb 0xc4a6;
  It 0x9cfc 0xc4a7;
  It 0x9cfd 0xc4a8;
  It 0x9cfe 0xc4a9;
  It 0x9d41 0xc4aa;
  It 0x9d42 0xc4ab;
  It 0x9d43 0xc4ac;
  It 0x9d44 0xc4ad;
  It 0x9d45 0xc4ae;
  It 0x9d46 0xc4af;
  It 0x9d47 0xc4b0;
  It 0x9d48 0xc4b1;
  It 0x9d49 0xc4b2;
  It 0x9d4a 0xc4b3;
  It 0x9d4b 0xc4b4;
  It 0x9d4c 0xc4b5;
  It 0x9d4d 0xc4b6;
  It 0x9d4e 0xc4b7;
  It 0x9d4f 0xc4b9;
  It 0x9d50 0xc4ba
].

(* encoding/cp949/lookup_from.go:5009-5258 *)
Definition fromTable_020 : list lookupItem := [
  It 0x9d51 0xc4bb;
  It 0x9d52 0xc4bd;
  It 0x9d53 0xc4be;
  It 0x9d54 0xc4bf;
  It 0x9d55 0xc4c0;
  It 0x9d56 0xc4c1;
  It 0x9d57 0xc4c2;
  It 0x9d58 0xc4c3;
  It 0x9d59 0xc4c4;
  It 0x9d5a 0xc4c5;
  It 0x9d61 0xc4c6;
  It 0x9d62 0xc4c7;
  It 0x9d63 0xc4c8;
  It 0x9d64 0xc4c9;
  It 0x9d65 0xc4ca;
  It 0x9d66 0xc4cb;
  It 0x9d67 0xc4cc;
  It 0x9d68 0xc4cd;
  It 0x9d69 0xc4ce;
  It 0x9d6a 0xc4cf;
  It 0x9d6b 0xc4d0;
  It 0x9d6c 0xc4d1;
  It 0x9d6d 0xc4d2;
  It 0x9d6e 0xc4d3;
  It 0x9d6f 0xc4d4;
  It 0x9d70 0xc4d5;
  It 0x9d71 0xc4d6;
  It 0x9d72 0xc4d7;
  It 0x9d73 0xc4d8;
  It 0x9d74 0xc4d9;
  It 0x9d75 0xc4da;
  It 0x9d76 0xc4db;
  It 0x9d77 0xc4dc;
  It 0x9d78 0xc4dd;
  It 0x9d79 0xc4de;
  It 0x9d7a 0xc4df;
  It 0x9d81 0xc4e0;
  It 0x9d82 0xc4e1;
  It 0x9d83 0xc4e2;
  It 0x9d84 0xc4e3;
  It 0x9d85 0xc4e4;
  It 0x9d86 0xc4e5;
  It 0x9d87 0xc4e6;
  It 0x9d88 0xc4e7;
  It 0x9d89 0xc4e8;
  It 0x9d8a 0xc4ea;
  It 0x9d8b 0xc4eb;
  It 0x9d8c 0xc4ec;
  It 0x9d8d 0xc4ed;
  It 0x9d8e 0xc4ee;
  It 0x9d8f 0xc4ef;
  It 0x9d90 0xc4f2;
  It 0x9d91 0xc4f3;
  It 0x9d92 0xc4f5;
  It 0x9d93 0xc4f6;
  It 0x9d94 0xc4f7;
  It 0x9d95 0xc4f9;
  It 0x9d96 0xc4fb;
  It 0x9d97 0xc4fc;
  It 0x9d98 0xc4fd;
  It 0x9d99 0xc4fe;
  It 0x9d9a 0xc502;
  It 0x9d9b 0xc503;
  It 0x9d9c 0xc504;
  It 0x9d9d 0xc505;
  It 0x9d9e 0xc506;
  It 0x9d9f 0xc507;
  It 0x9da0 0xc508;
  It 0x9da1 0xc509;
  It 0x9da2 0xc50a;
  It 0x9da3 0xc50b;
  It 0x9da4 0xc50d;
  It 0x9da5 0xc50e;
  It 0x9da6 0xc50f;
  It 0x9da7 0xc511;
  It 0x9da8 0xc512;
  It 0x9da9 0xc513;
  It 0x9daa 0xc515;
  It 0x9dab 0xc516;
  It 0x9dac 0xc517;
  It 0x9dad 0xc518;
  It 0x9dae 0xc519;
  It 0x9daf 0xc51a;
  It 0x9db0 0xc51b;
  It 0x9db1 0xc51d;
  It 0x9db2 0xc51e;
  It 0x9db3 0xc51f;
  It 0x9db4 0xc520;
  It 0x9db5 0xc521;
  It 0x9db6 0xc522;
  It 0x9db7 0xc523;
  It 0x9db8 0xc524;
  It 0x9db9 0xc525;
  It 0x9dba 0xc526;
  It 0x9dbb 0xc527;
  It 0x9dbc 0xc52a;
  It 0x9dbd 0xc52b;
  It 0x9dbe 0xc52d;
  It 0x9dbf 0xc52e;
  It 0x9dc0 0xc52f;
  It 0x9dc1 0xc531;
  It 0x9dc2 0xc532;
  It 0x9dc3 0xc533;
  It 0x9dc4 0xc534;
  It 0x9dc5 0xc535;
  It 0x9dc6 0xc536;
  It 0x9dc7 0xc537;
  It 0x9dc8 0xc53a;
  It 0x9dc9 0xc53c;
  It 0x9dca 0xc53e;
  It 0x9dcb 0xc53f;
  It 0x9dcc 0xc540;
  It 0x9dcd 0xc541;
  It 0x9dce 0xc542;
  It 0x9dcf 0xc543;
  It 0x9dd0 0xc546;
  It 0x9dd1 0xc547;
  It 0x9dd2 0xc54b;
  It 0x9dd3 0xc54f;
  It 0x9dd4 0xc550;
  It 0x9dd5 0xc551;
  It 0x9dd6 0xc552;
  It 0x9dd7 0xc556;
  It 0x9dd8 0xc55a;
  It 0x9dd9 0xc55b;
  It 0x9dda 0xc55c;
  It 0x9ddb 0xc55f;
  It 0x9ddc 0xc562;
  It 0x9ddd 0xc563;
  It 0x9dde 0xc565;
  It 0x9ddf 0xc566;
  It 0x9de0 0xc567;
  It 0x9de1 0xc569;
  It 0x9de2 0xc56a;
  It 0x9de3 0xc56b;
  It 0x9de4 0xc56c;
  It 0x9de5 0xc56d;
  It 0x9de6 0xc56e;
  It 0x9de7 0xc56f;
  It 0x9de8 0xc572;
  It 0x9de9 0xc576;
  It 0x9dea 0xc577;
  It 0x9deb 0xc578;
  It 0x9dec 0xc579;
  It 0x9ded 0xc57a;
  It 0x9dee 0xc57b;
  It 0x9def 0xc57e;
  It 0x9df0 0xc57f;
  It 0x9df1 0xc581;
  It 0x9df2 0xc582;
  It 0x9df3 0xc583;
  It 0x9df4 0xc585;
  It 0x9df5 0xc586;
  It 0x9df6 0xc588;
  It 0x9df7 0xc589;
  It 0x9df8 0xc58a;
  It 0x9df9 0xc58b;
  It 0x9dfa 0xc58e;
  It 0x9dfb 0xc590;
  It 0x9dfc 0xc592;
  It 0x9dfd 0xc593;
  It 0x9dfe 0xc594;
  It 0x9e41 0xc596;
  It 0x9e42 0xc599;
  It 0x9e43 0xc59a;
  It 0x9e44 0xc59b;
  It 0x9e45 0xc59d;
  It 0x9e46 0xc59e;
  It 0x9e47 0xc59f;
  It 0x9e48 0xc5a1;
  It 0x9e49 0xc5a2;
  It 0x9e4a 0xc5a3;
  It 0x9e4b 0xc5a4;
  It 0x9e4c 0xc5a5;
  It 0x9e4d 0xc5a6;
  It 0x9e4e 0xc5a7;
  It 0x9e4f 0xc5a8;
  It 0x9e50 0xc5aa;
  It 0x9e51 0xc5ab;
  It 0x9e52 0xc5ac;
  It 0x9e53 0xc5ad;
  It 0x9e54 0xc5ae;
  It 0x9e55 0xc5af;
  It 0x9e56 0xc5b0;
  It 0x9e57 0xc5b1;
  It 0x9e58 0xc5b2;
  It 0x9e59 0xc5b3;
  It 0x9e5a 0xc5b6;
  It 0x9e61 0xc5b7;
  It 0x9e62 0xc5ba;
  It 0x9e63 0xc5bf;
  It 0x9e64 0xc5c0;
  It 0x9e65 0xc5c1;
  It 0x9e66 0xc5c2;
  It 0x9e67 0xc5c3;
  It 0x9e68 0xc5cb;
  It 0x9e69 0xc5cd;
  It 0x9e6a 0xc5cf;
  It 0x9e6b 0xc5d2;
  It 0x9e6c 0xc5d3;
  It 0x9e6d 0xc5d5;
  It 0x9e6e 0xc5d6;
  It 0x9e6f 0xc5d7;
  It 0x9e70 0xc5d9;
  It 0x9e71 0xc5da;
  It 0x9e72 0xc5db;
  It 0x9e73 0xc5dc;
  It 0x9e74 0xc5dd;
  It 0x9e75 0xc5de;
  It 0x9e76 0xc5df;
  It 0x9e77 0xc5e2;
  It 0x9e78 0xc5e4;
  It 0x9e79 0xc5e6;
  It 0x9e7a 0xc5e7;
  It 0x9e81 0xc5e8;
  It 0x9e82 0xc5e9;
  It 0x9e83 0xc5ea;
  It 0x9e84 0xc5eb;
  It 0x9e85 0xc5ef;
  It 0x9e86 0xc5f1;
  It 0x9e87 0xc5f2;
  It 0x9e88 0xc5f3;
  It 0x9e89 0xc5f5;
  It 0x9e8a 0xc5f8;
  It 0x9e8b 0xc5f9;
  It 0x9e8c 0xc5fa;
  It 0x9e8d 0xc5fb;
  It 0x9e8e 0xc602;
  It 0x9e8f 0xc603;
  It 0x9e90 0xc604;
  It 0x9e91 0xc609;
  It 0x9e92 0xc60a;
  It 0x9e93 0xc60b;
  It 0x9e94 0xc60d;
  It 0x9e95 0xc60e;
  It 0x9e96 0xc60f;
  It 0x9e97 0xc611;
  It 0x9e98 0xc612;
  It 0x9e99 0xc613;
  It 0x9e9a 0xc614;
  It 0x9e9b 0xc615;
  It 0x9e9c 0xc616;
  It 0x9e9d 0xc617;
  It 0x9e9e 0xc61a;
  It 0x9e9f 0xc61d;
  It 0x9ea0 0xc61e;
  It 0x9ea1 0xc61f;
  It 0x9ea2 0xc620;
  It 0x9ea3 0xc621;
  It 0x9ea4 0xc622
].

(* encoding/cp949/lookup_from.go:5259-5508 *)
Definition fromTable_021 : list lookupItem := [
  It 0x9ea5 0xc623;
  It 0x9ea6 0xc626;
  It 0x9ea7 0xc627;
  It 0x9ea8 0xc629;
  It 0x9ea9 0xc62a;
  It 0x9eaa 0xc62b;
  It 0x9eab 0xc62f;
  It 0x9eac 0xc631;
  It 0x9ead 0xc632;
  It 0x9eae 0xc636;
  It 0x9eaf 0xc638;
  It 0x9eb0 0xc63a;
  It 0x9eb1 0xc63c;
  It 0x9eb2 0xc63d;
  It 0x9eb3 0xc63e;
  It 0x9eb4 0xc63f;
  It 0x9eb5 0xc642;
  It 0x9eb6 0xc643;
  It 0x9eb7 0xc645;
  It 0x9eb8 0xc646;
  It 0x9eb9 0xc647;
  It 0x9eba 0xc649;
  It 0x9ebb 0xc64a;
  It 0x9ebc 0xc64b;
  It 0x9ebd 0xc64c;
  It 0x9ebe 0xc64d;
  It 0x9ebf 0xc64e;
  It 0x9ec0 0xc64f;
  It 0x9ec1 0xc652;
  It 0x9ec2 0xc656;
  It 0x9ec3 0xc657;
  It 0x9ec4 0xc658;
  It 0x9ec5 0xc659;
  It 0x9ec6 0xc65a;
  It 0x9ec7 0xc65b;
  It 0x9ec8 0xc65e;
  It 0x9ec9 0xc65f;
  It 0x9eca 0xc661;
  It 0x9ecb 0xc662;
  It 0x9ecc 0xc663;
  It 0x9ecd 0xc664;
  It 0x9ece 0xc665;
  It 0x9ecf 0xc666;
  It 0x9ed0 0xc667;
  It 0x9ed1 0xc668;
  It 0x9ed2 0xc669;
  It 0x9ed3 0xc66a;
  It 0x9ed4 0xc66b;
  It 0x9ed5 0xc66d;
  It 0x9ed6 0xc66e;
  It 0x9ed7 0xc670;
  It 0x9ed8 0xc672;
  It 0x9ed9 0xc673;
  It 0x9eda 0xc674;
  It 0x9edb 0xc675;
  It 0x9edc 0xc676;
  It 0x9edd 0xc677;
  It 0x9ede 0xc67a;
  It 0x9edf 0xc67b;
  It 0x9ee0 0xc67d;
  It 0x9ee1 0xc67e;
  It 0x9ee2 0xc67f;
  It 0x9ee3 0xc681;
  It 0x9ee4 0xc682;
  It 0x9ee5 0xc683;
  It 0x9ee6 0xc684;
  It 0x9ee7 0xc685;
  It 0x9ee8 0xc686;
  It 0x9ee9 0xc687;
  It 0x9eea 0xc68a;
  It 0x9eeb 0xc68c;
  It 0x9eec 0xc68e;
  It 0x9eed 0xc68f;
  It 0x9eee 0xc690;
  It 0x9eef 0xc691;
  It 0x9ef0 0xc692;
  It 0x9ef1 0xc693;
  It 0x9ef2 0xc696;
  It 0x9ef3 0xc697;
  It 0x9ef4 0xc699;
  It 0x9ef5 0xc69a;
  It 0x9ef6 0xc69b;
  It 0x9ef7 0xc69d;
  It 0x9ef8 0xc69e;
  It 0x9ef9 0xc69f;
  It 0x9efa 0xc6a0;
  It 0x9efb 0xc6a1;
  It 0x9efc 0xc6a2;
  It 0x9efd 0xc6a3;
  It 0x9efe 0xc6a6;
  It 0x9f41 0xc6a8;
  It 0x9f42 0xc6aa;
  It 0x9f43 0xc6ab;
  It 0x9f44 0xc6ac;
  It 0x9f45 0xc6ad;
  It 0x9f46 0xc6ae;
  It 0x9f47 0xc6af;
  It 0x9f48 0xc6b2;
  It 0x9f49 0xc6b3;
  It 0x9f4a 0xc6b5;
  It 0x9f4b 0xc6b6;
  It 0x9f4c 0xc6b7;
  It 0x9f4d 0xc6bb;
  It 0x9f4e 0xc6bc;
  It 0x9f4f 0xc6bd;
  It 0x9f50 0xc6be;
  It 0x9f51 0xc6bf;
  It 0x9f52 0xc6c2;
  It 0x9f53 0xc6c4;
  It 0x9f54 0xc6c6;
  It 0x9f55 0xc6c7;
  It 0x9f56 0xc6c8;
  It 0x9f57 0xc6c9;
  It 0x9f58 0xc6ca;
  It 0x9f59 0xc6cb;
  It 0x9f5a 0xc6ce;
  It 0x9f61 0xc6cf;
  It 0x9f62 0xc6d1;
  It 0x9f63 0xc6d2;
  It 0x9f64 0xc6d3;
  It 0x9f65 0xc6d5;
  It 0x9f66 0xc6d6;
  It 0x9f67 0xc6d7;
  It 0x9f68 0xc6d8;
  It 0x9f69 0xc6d9;
  It 0x9f6a 0xc6da;
  It 0x9f6b 0xc6db;
  It 0x9f6c 0xc6de;
  It 0x9f6d 0xc6df;
  It 0x9f6e 0xc6e2;
  It 0x9f6f 0xc6e3;
  It 0x9f70 0xc6e4;
  It 0x9f71 0xc6e5;
  It 0x9f72 0xc6e6;
  It 0x9f73 0xc6e7;
  It 0x9f74 0xc6ea;
  It 0x9f75 0xc6eb;
  It 0x9f76 0xc6ed;
  It 0x9f77 0xc6ee;
  It 0x9f78 0xc6ef;
  It 0x9f79 0xc6f1;
  It 0x9f7a 0xc6f2;
  It 0x9f81 0xc6f3;
  It 0x9f82 0xc6f4;
  It 0x9f83 0xc6f5;
  It 0x9f84 0xc6f6;
  It 0x9f85 0xc6f7;
  It 0x9f86 0xc6fa;
  It 0x9f87 0xc6fb;
  It 0x9f88 0xc6fc;
  It 0x9f89 0xc6fe;
  It 0x9f8a 0xc6ff;
  It 0x9f8b 0xc700;
  It 0x9f8c 0xc701;
  It 0x9f8d 0xc702;
  It 0x9f8e 0xc703;
  It 0x9f8f 0xc706;
  It 0x9f90 0xc707;
  It 0x9f91 0xc709;
  It 0x9f92 0xc70a;
  It 0x9f93 0xc70b;
  It 0x9f94 0xc70d;
  It 0x9f95 0xc70e;
  It 0x9f96 0xc70f;
  It 0x9f97 0xc710;
  It 0x9f98 0xc711;
  It 0x9f99 0xc712;
  It 0x9f9a 0xc713;
  It 0x9f9b 0xc716;
  It 0x9f9c 0xc718;
  It 0x9f9d 0xc71a;
  It 0x9f9e 0xc71b;
  It 0x9f9f 0xc71c;
  It 0x9fa0 0xc71d;
  It 0x9fa1 0xc71e;
  It 0x9fa2 0xc71f;
  It 0x9fa3 0xc722;
  It 0x9fa4 0xc723;
  It 0x9fa5 0xc725;
  It 0x9fa6 0xc726;
  It 0x9fa7 0xc727;
  It 0x9fa8 0xc729;
  It 0x9fa9 0xc72a;
  It 0x9faa 0xc72b;
  It 0x9fab 0xc72c;
  It 0x9fac 0xc72d;
  It 0x9fad 0xc72e;
  It 0x9fae 0xc72f;
  It 0x9faf 0xc732;
  It 0x9fb0 0xc734;
  It 0x9fb1 0xc736;
  It 0x9fb2 0xc738;
  It 0x9fb3 0xc739;
  It 0x9fb4 0xc73a;
  It 0x9fb5 0xc73b;
  It 0x9fb6 0xc73e;
  It 0x9fb7 0xc73f;
  It 0x9fb8 0xc741;
  It 0x9fb9 0xc742;
  It 0x9fba 0xc743;
  It 0x9fbb 0xc745;
  It 0x9fbc 0xc746;
  It 0x9fbd 0xc747;
  It 0x9fbe 0xc748;
  It 0x9fbf 0xc749;
  It 0x9fc0 0xc74b;
  It 0x9fc1 0xc74e;
  It 0x9fc2 0xc750;
  It 0x9fc3 0xc759;
  It 0x9fc4 0xc75a;
  It 0x9fc5 0xc75b;
  It 0x9fc6 0xc75d;
  It 0x9fc7 0xc75e;
  It 0x9fc8 0xc75f;
  It 0x9fc9 0xc761;
  It 0x9fca 0xc762;
  It 0x9fcb 0xc763;
  It 0x9fcc 0xc764;
  It 0x9fcd 0xc765;
  It 0x9fce 0xc766;
  It 0x9fcf 0xc767;
  It 0x9fd0 0xc769;
  It 0x9fd1 0xc76a;
  It 0x9fd2 0xc76c;
  It 0x9fd3 0xc76d;
  It 0x9fd4 0xc76e;
  It 0x9fd5 0xc76f;
  It 0x9fd6 0xc770;
  It 0x9fd7 0xc771;
  It 0x9fd8 0xc772;
  It 0x9fd9 0xc773;
  It 0x9fda 0xc776;
  It 0x9fdb 0xc777;
  It 0x9fdc 0xc779;
  It 0x9fdd 0xc77a;
  It 0x9fde 0xc77b;
  It 0x9fdf 0xc77f;
  It 0x9fe0 0xc780;
  It 0x9fe1 0xc781;
  It 0x9fe2 0xc782;
  It 0x9fe3 0xc786;
  It 0x9fe4 0xc78b;
  It 0x9fe5 0xc78c;
  It 0x9fe6 0xc78d;
  It 0x9fe7 0xc78f;
  It 0x9fe8 0xc792;
  It 0x9fe9 0xc793;
  It 0x9fea 0xc795;
  It 0x9feb 0xc799;
  It 0x9fec 0xc79b
].

(* encoding/cp949/lookup_from.go:5509-5758 *)
Definition fromTable_022 : list lookupItem := [
  It 0x9fed 0xc79c;
  It 0x9fee 0xc79d;
  It 0x9fef 0xc79e;
  It 0x9ff0 0xc79f;
  It 0x9ff1 0xc7a2;
  It 0x9ff2 0xc7a7;
  It 0x9ff3 0xc7a8;
  It 0x9ff4 0xc7a9;
  It 0x9ff5 0xc7aa;
  It 0x9ff6 0xc7ab;
  It 0x9ff7 0xc7ae;
  It 0x9ff8 0xc7af;
  It 0x9ff9 0xc7b1;
  It 0x9ffa 0xc7b2;
  It 0x9ffb 0xc7b3;
  It 0x9ffc 0xc7b5;
  It 0x9ffd 0xc7b6;
  It 0x9ffe 0xc7b7;
  It 0xa041 0xc7b8;
  It 0xa042 0xc7b9;
  It 0xa043 0xc7ba;
  It 0xa044 0xc7bb;
  It 0xa045 0xc7be;
  It 0xa046 0xc7c2;
  It 0xa047 0xc7c3;
  It 0xa048 0xc7c4;
  It 0xa049 0xc7c5;
  It 0xa04a 0xc7c6;
  It 0xa04b 0xc7c7;
  It 0xa04c 0xc7ca;
  It 0xa04d 0xc7cb;
  It 0xa04e 0xc7cd;
  It 0xa04f 0xc7cf;
  It 0xa050 0xc7d1;
  It 0xa051 0xc7d2;
  It 0xa052 0xc7d3;
  It 0xa053 0xc7d4;
  It 0xa054 0xc7d5;
  It 0xa055 0xc7d6;
  It 0xa056 0xc7d7;
  It 0xa057 0xc7d9;
  It 0xa058 0xc7da;
  It 0xa059 0xc7db;
  It 0xa05a 0xc7dc;
  It 0xa061 0xc7de;
  It 0xa062 0xc7df;
  It 0xa063 0xc7e0;
  It 0xa064 0xc7e1;
  It 0xa065 0xc7e2;
  It 0xa066 0xc7e3;
  It 0xa067 0xc7e5;
  It 0xa068 0xc7e6;
  It 0xa069 0xc7e7;
  It 0xa06a 0xc7e9;
  It 0xa06b 0xc7ea;
  It 0xa06c 0xc7eb;
  It 0xa06d 0xc7ed;
  It 0xa06e 0xc7ee;
  It 0xa06f 0xc7ef;
  It 0xa070 0xc7f0;
  It 0xa071 0xc7f1;
  It 0xa072 0xc7f2;
  It 0xa073 0xc7f3;
  It 0xa074 0xc7f4;
  It 0xa075 0xc7f5;
  It 0xa076 0xc7f6;
  It 0xa077 0xc7f7;
  It 0xa078 0xc7f8;
  It 0xa079 0xc7f9;
  It 0xa07a 0xc7fa;
  It 0xa081 0xc7fb;
  It 0xa082 0xc7fc;
  It 0xa083 0xc7fd;
  It 0xa084 0xc7fe;
  It 0xa085 0xc7ff;
  It 0xa086 0xc802;
  It 0xa087 0xc803;
  It 0xa088 0xc805;
  It 0xa089 0xc806;
  It 0xa08a 0xc807;
  It 0xa08b 0xc809;
  It 0xa08c 0xc80b;
  It 0xa08d 0xc80c;
  It 0xa08e 0xc80d;
  It 0xa08f 0xc80e;
  It 0xa090 0xc80f;
  It 0xa091 0xc812;
  It 0xa092 0xc814;
  It 0xa093 0xc817;
  It 0xa094 0xc818;
  It 0xa095 0xc819;
  It 0xa096 0xc81a;
  It 0xa097 0xc81b;
  It 0xa098 0xc81e;
  It 0xa099 0xc81f;
  It 0xa09a 0xc821;
  It 0xa09b 0xc822;
  It 0xa09c 0xc823;
  It 0xa09d 0xc825;
  It 0xa09e 0xc826;
  It 0xa09f 0xc827;
  It 0xa0a0 0xc828;
  It 0xa0a1 0xc829;
  It 0xa0a2 0xc82a;
  It 0xa0a3 0xc82b;
  It 0xa0a4 0xc82e;
  It 0xa0a5 0xc830;
  It 0xa0a6 0xc832;
  It 0xa0a7 0xc833;
  It 0xa0a8 0xc834;
  It 0xa0a9 0xc835;
  It 0xa0aa 0xc836;
  It 0xa0ab 0xc837;
  It 0xa0ac 0xc839;
  It 0xa0ad 0xc83a;
  It 0xa0ae 0xc83b;
  It 0xa0af 0xc83d;
  It 0xa0b0 0xc83e;
  It 0xa0b1 0xc83f;
  It 0xa0b2 0xc841;
  It 0xa0b3 0xc842;
  It 0xa0b4 0xc843;
  It 0xa0b5 0xc844;
  It 0xa0b6 0xc845;
  It 0xa0b7 0xc846;
  It 0xa0b8 0xc847;
  It 0xa0b9 0xc84a;
  It 0xa0ba 0xc84b;
  It 0xa0bb 0xc84e;
  It 0xa0bc 0xc84f;
  It 0xa0bd 0xc850;
  It 0xa0be 0xc851;
  It 0xa0bf 0xc852;
  It 0xa0c0 0xc853;
  It 0xa0c1 0xc855;
  It 0xa0c2 0xc856;
  It 0xa0c3 0xc857;
  It 0xa0c4 0xc858;
  It 0xa0c5 0xc859;
  It 0xa0c6 0xc85a;
  It 0xa0c7 0xc85b;
  It 0xa0c8 0xc85c;
  It 0xa0c9 0xc85d;
  It 0xa0ca 0xc85e;
  It 0xa0cb 0xc85f;
  It 0xa0cc 0xc860;
  It 0xa0cd 0xc861;
  It 0xa0ce 0xc862;
  It 0xa0cf 0xc863;
  It 0xa0d0 0xc864;
  It 0xa0d1 0xc865;
  It 0xa0d2 0xc866;
  It 0xa0d3 0xc867;
  It 0xa0d4 0xc868;
  It 0xa0d5 0xc869;
  It 0xa0d6 0xc86a;
  It 0xa0d7 0xc86b;
  It 0xa0d8 0xc86c;
  It 0xa0d9 0xc86d;
  It 0xa0da 0xc86e;
  It 0xa0db 0xc86f;
  It 0xa0dc 0xc872;
  It 0xa0dd 0xc873;
  It 0xa0de 0xc875;
  It 0xa0df 0xc876;
  It 0xa0e0 0xc877;
  It 0xa0e1 0xc879;
  It 0xa0e2 0xc87b;
  It 0xa0e3 0xc87c;
  It 0xa0e4 0xc87d;
  It 0xa0e5 0xc87e;
  It 0xa0e6 0xc87f;
  It 0xa0e7 0xc882;
  It 0xa0e8 0xc884;
  It 0xa0e9 0xc888;
  It 0xa0ea 0xc889;
  It 0xa0eb 0xc88a;
  It 0xa0ec 0xc88e;
  It 0xa0ed 0xc88f;
  It 0xa0ee 0xc890;
  It 0xa0ef 0xc891;
  It 0xa0f0 0xc892;
  It 0xa0f1 0xc893;
  It 0xa0f2 0xc895;
  It 0xa0f3 0xc896;
  It 0xa0f4 0xc897;
  It 0xa0f5 0xc898;
  It 0xa0f6 0xc899;
  It 0xa0f7 0xc89a;
  It 0xa0f8 0xc89b;
  It 0xa0f9 0xc89c;
  It 0xa0fa 0xc89e;
  It 0xa0fb 0xc8a0;
  It 0xa0fc 0xc8a2;
  It 0xa0fd 0xc8a3;
  It 0xa0fe 0xc8a4;
  It 0xa141 0xc8a5;
  It 0xa142 0xc8a6;
  It 0xa143 0xc8a7;
  It 0xa144 0xc8a9;
  It 0xa145 0xc8aa;
  It 0xa146 0xc8ab;
  It 0xa147 0xc8ac;
  It 0xa148 0xc8ad;
  It 0xa149 0xc8ae;
  It 0xa14a 0xc8af;
  It 0xa14b 0xc8b0;
  It 0xa14c 0xc8b1;
  It 0xa14d 0xc8b2;
  It 0xa14e 0xc8b3;
  It 0xa14f 0xc8b4;
  It 0xa150 0xc8b5;
  It 0xa151 0xc8b6;
  It 0xa152 0xc8b7;
  It 0xa153 0xc8b8;
  It 0xa154 0xc8b9;
  It 0xa155 0xc8ba;
  It 0xa156 0xc8bb;
  It 0xa157 0xc8be;
  It 0xa158 0xc8bf;
  It 0xa159 0xc8c0;
  It 0xa15a 0xc8c1;
  It 0xa161 0xc8c2;
  It 0xa162 0xc8c3;
  It 0xa163 0xc8c5;
  It 0xa164 0xc8c6;
  It 0xa165 0xc8c7;
  It 0xa166 0xc8c9;
  It 0xa167 0xc8ca;
  It 0xa168 0xc8cb;
  It 0xa169 0xc8cd;
  It 0xa16a 0xc8ce;
  It 0xa16b 0xc8cf;
  It 0xa16c 0xc8d0;
  It 0xa16d 0xc8d1;
  It 0xa16e 0xc8d2;
  It 0xa16f 0xc8d3;
  It 0xa170 0xc8d6;
  It 0xa171 0xc8d8;
  It 0xa172 0xc8da;
  It 0xa173 0xc8db;
  It 0xa174 0xc8dc;
  It 0xa175 0xc8dd;
  It 0xa176 0xc8de;
  It 0xa177 0xc8df;
  It 0xa178 0xc8e2;
  It 0xa179 0xc8e3;
  It 0xa17a 0xc8e5;
  It 0xa181 0xc8e6;
  It 0xa182 0xc8e7
].

(* encoding/cp949/lookup_from.go:5759-6008 *)
Definition fromTable_023 : list lookupItem := [
  It 0xa183 0xc8e8;
  It 0xa184 0xc8e9;
  It 0xa185 0xc8ea;
  It 0xa186 0xc8eb;
  It 0xa187 0xc8ec;
  It 0xa188 0xc8ed;
  It 0xa189 0xc8ee;
  It 0xa18a 0xc8ef;
  It 0xa18b 0xc8f0;
  It 0xa18c 0xc8f1;
  It 0xa18d 0xc8f2;
  It 0xa18e 0xc8f3;
  It 0xa18f 0xc8f4;
  It 0xa190 0xc8f6;
  It 0xa191 0xc8f7;
  It 0xa192 0xc8f8;
  It 0xa193 0xc8f9;
  It 0xa194 0xc8fa;
  It 0xa195 0xc8fb;
  It 0xa196 0xc8fe;
  It 0xa197 0xc8ff;
  It 0xa198 0xc901;
  It 0xa199 0xc902;
  It 0xa19a 0xc903;
  It 0xa19b 0xc907;
  It 0xa19c 0xc908;
  It 0xa19d 0xc909;
  It 0xa19e 0xc90a;
  It 0xa19f 0xc90b;
  It 0xa1a0 0xc90e;
  It 0xa1a1 0x3000;
  It 0xa1a2 0x3001;
  It 0xa1a3 0x3002;
  It 0xa1a4 0x00b7;
  It 0xa1a5 0x2025;
  It 0xa1a6 0x2026;
  It 0xa1a7 0x00a8;
  It 0xa1a8 0x3003;
  It 0xa1a9 0x00ad;
  It 0xa1aa 0x2015;
  It 0xa1ab 0x2225;
  It 0xa1ac 0xff3c;
  It 0xa1ad 0x223c;
  It 0xa1ae 0x2018;
  It 0xa1af 0x2019;
  It 0xa1b0 0x201c;
  It 0xa1b1 0x201d;
  It 0xa1b2 0x3014;
  It 0xa1b3 0x3015;
  It 0xa1b4 0x3008;
  It 0xa1b5 0x3009;
  It 0xa1b6 0x300a;
  It 0xa1b7 0x300b;
  It 0xa1b8 0x300c;
  It 0xa1b9 0x300d;
  It 0xa1ba 0x300e;
  It 0xa1bb 0x300f;
  It 0xa1bc 0x3010;
  It 0xa1bd 0x3011;
  It 0xa1be 0x00b1;
  It 0xa1bf 0x00d7;
  It 0xa1c0 0x00f7;
  It 0xa1c1 0x2260;
  It 0xa1c2 0x2264;
  It 0xa1c3 0x2265;
  It 0xa1c4 0x221e;
  It 0xa1c5 0x2234;
  It 0xa1c6 0x00b0;
  It 0xa1c7 0x2032;
  It 0xa1c8 0x2033;
  It 0xa1c9 0x2103;
  It 0xa1ca 0x212b;
  It 0xa1cb 0xffe0;
  It 0xa1cc 0xffe1;
  It 0xa1cd 0xffe5;
  It 0xa1ce 0x2642;
  It 0xa1cf 0x2640;
  It 0xa1d0 0x2220;
  It 0xa1d1 0x22a5;
  It 0xa1d2 0x2312;
  It 0xa1d3 0x2202;
  It 0xa1d4 0x2207;
  It 0xa1d5 0x2261;
  It 0xa1d6 0x2252;
  It 0xa1d7 0x00a7;
  It 0xa1d8 0x203b;
  It 0xa1d9 0x2606;
  It 0xa1da 0x2605;
  It 0xa1db 0x25cb;
  It 0xa1dc 0x25cf;
  It 0xa1dd 0x25ce;
  It 0xa1de 0x25c7;
  It 0xa1df 0x25c6;
  It 0xa1e0 0x25a1;
  It 0xa1e1 0x25a0;
  It 0xa1e2 0x25b3;
  It 0xa1e3 0x25b2;
  It 0xa1e4 0x25bd;
  It 0xa1e5 0x25bc;
  It 0xa1e6 0x2192;
  It 0xa1e7 0x2190;
  It 0xa1e8 0x2191;
  It 0xa1e9 0x2193;
  It 0xa1ea 0x2194;
  It 0xa1eb 0x3013;
  It 0xa1ec 0x226a;
  It 0xa1ed 0x226b;
  It 0xa1ee 0x221a;
  It 0xa1ef 0x223d;
  It 0xa1f0 0x221d;
  It 0xa1f1 0x2235;
  It 0xa1f2 0x222b;
  It 0xa1f3 0x222c;
  It 0xa1f4 0x2208;
  It 0xa1f5 0x220b;
  It 0xa1f6 0x2286;
  It 0xa1f7 0x2287;
  It 0xa1f8 0x2282;
  It 0xa1f9 0x2283;
  It 0xa1fa 0x222a;
  It 0xa1fb 0x2229;
  It 0xa1fc 0x2227;
  It 0xa1fd 0x2228;
  It 0xa1fe 0xffe2;
  It 0xa241 0xc910;
  It 0xa242 0xc912;
  It 0xa243 0xc913;
  It 0xa244 0xc914;
  It 0xa245 0xc915;
  It 0xa246 0xc916;
  It 0xa247 0xc917;
  It 0xa248 0xc919;
  It 0xa249 0xc91a;
  It 0xa24a 0xc91b;
  It 0xa24b 0xc91c;
  It 0xa24c 0xc91d;
  It 0xa24d 0xc91e;
  It 0xa24e 0xc91f;
  It 0xa24f 0xc920;
  It 0xa250 0xc921;
  It 0xa251 0xc922;
  It 0xa252 0xc923;
  It 0xa253 0xc924;
  It 0xa254 0xc925;
  It 0xa255 0xc926;
  It 0xa256 0xc927;
  It 0xa257 0xc928;
  It 0xa258 0xc929;
  It 0xa259 0xc92a;
  It 0xa25a 0xc92b;
  It 0xa261 0xc92d;
  It 0xa262 0xc92e;
  It 0xa263 0xc92f;
  It 0xa264 0xc930;
  It 0xa265 0xc931;
  It 0xa266 0xc932;
  It 0xa267 0xc933;
  It 0xa268 0xc935;
  It 0xa269 0xc936;
  It 0xa26a 0xc937;
  It 0xa26b 0xc938;
  It 0xa26c 0xc939;
  It 0xa26d 0xc93a;
  It 0xa26e 0xc93b;
  It 0xa26f 0xc93c;
  It 0xa270 0xc93d;
  It 0xa271 0xc93e;
  It 0xa272 0xc93f;
  It 0xa273 0xc940;
  It 0xa274 0xc941;
  It 0xa275 0xc942;
  It 0xa276 0xc943;
  It 0xa277 0xc944;
  It 0xa278 0xc945;
  It 0xa279 0xc946;
  It 0xa27a 0xc947;
  It 0xa281 0xc948;
  It 0xa282 0xc949;
  It 0xa283 0xc94a;
  It 0xa284 0xc94b;
  It 0xa285 0xc94c;
  It 0xa286 0xc94d;
  It 0xa287 0xc94e;
  It 0xa288 0xc94f;
  It 0xa289 0xc952;
  It 0xa28a 0xc953;
  It 0xa28b 0xc955;
  It 0xa28c 0xc956;
  It 0xa28d 0xc957;
  It 0xa28e 0xc959;
  It 0xa28f 0xc95a;
  It 0xa290 0xc95b;
  It 0xa291 0xc95c;
  It 0xa292 0xc95d;
  It 0xa293 0xc95e;
  It 0xa294 0xc95f;
  It 0xa295 0xc962;
  It 0xa296 0xc964;
  It 0xa297 0xc965;
  It 0xa298 0xc966;
  It 0xa299 0xc967;
  It 0xa29a 0xc968;
  It 0xa29b 0xc969;
  It 0xa29c 0xc96a;
  It 0xa29d 0xc96b;
  It 0xa29e 0xc96d;
  It 0xa29f 0xc96e;
  It 0xa2a0 0xc96f;
  It 0xa2a1 0x21d2;
  It 0xa2a2 0x21d4;
  It 0xa2a3 0x2200;
  It 0xa2a4 0x2203;
  It 0xa2a5 0x00b4;
  It 0xa2a6 0xff5e;
  It 0xa2a7 0x02c7;
  It 0xa2a8 0x02d8;
  It 0xa2a9 0x02dd;
  It 0xa2aa 0x02da;
  It 0xa2ab 0x02d9;
  It 0xa2ac 0x00b8;
  It 0xa2ad 0x02db;
  It 0xa2ae 0x00a1;
  It 0xa2af 0x00bf;
  It 0xa2b0 0x02d0;
  It 0xa2b1 0x222e;
  It 0xa2b2 0x2211;
  It 0xa2b3 0x220f;
  It 0xa2b4 0x00a4;
  It 0xa2b5 0x2109;
  It 0xa2b6 0x2030;
  It 0xa2b7 0x25c1;
  It 0xa2b8 0x25c0;
  It 0xa2b9 0x25b7;
  It 0xa2ba 0x25b6;
  It 0xa2bb 0x2664;
  It 0xa2bc 0x2660;
  It 0xa2bd 0x2661;
  It 0xa2be 0x2665;
  It 0xa2bf 0x2667;
  It 0xa2c0 0x2663;
  It 0xa2c1 0x2299;
  It 0xa2c2 0x25c8;
  It 0xa2c3 0x25a3;
  It 0xa2c4 0x25d0;
  It 0xa2c5 0x25d1;
  It 0xa2c6 0x2592;
  It 0xa2c7 0x25a4;
  It 0xa2c8 0x25a5;
  It 0xa2c9 0x25a8;
  It 0xa2ca 0x25a7
].

(* encoding/cp949/lookup_from.go:6009-6258 *)
Definition fromTable_024 : list lookupItem := [
  It 0xa2cb 0x25a6;
  It 0xa2cc 0x25a9;
  It 0xa2cd 0x2668;
  It 0xa2ce 0x260f;
  It 0xa2cf 0x260e;
  It 0xa2d0 0x261c;
  It 0xa2d1 0x261e;
  It 0xa2d2 0x00b6;
  It 0xa2d3 0x2020;
  It 0xa2d4 0x2021;
  It 0xa2d5 0x2195;
  It 0xa2d6 0x2197;
  It 0xa2d7 0x2199;
  It 0xa2d8 0x2196;
  It 0xa2d9 0x2198;
  It 0xa2da 0x266d;
  It 0xa2db 0x2669;
  It 0xa2dc 0x266a;
  It 0xa2dd 0x266c;
  It 0xa2de 0x327f;
  It 0xa2df 0x321c;
  It 0xa2e0 0x2116;
  It 0xa2e1 0x33c7;
  It 0xa2e2 0x2122;
  It 0xa2e3 0x33c2;
  It 0xa2e4 0x33d8;
  It 0xa2e5 0x2121;
  It 0xa2e6 0x20ac;
  It 0xa2e7 0x00ae;
  It 0xa341 0xc971;
  It 0xa342 0xc972;
  It 0xa343 0xc973;
  It 0xa344 0xc975;
  It 0xa345 0xc976;
  It 0xa346 0xc977;
  It 0xa347 0xc978;
  It 0xa348 0xc979;
  It 0xa349 0xc97a;
  It 0xa34a 0xc97b;
  It 0xa34b 0xc97d;
  It 0xa34c 0xc97e;
  It 0xa34d 0xc97f;
  It 0xa34e 0xc980;
  It 0xa34f 0xc981;
  It 0xa350 0xc982;
  It 0xa351 0xc983;
  It 0xa352 0xc984;
  It 0xa353 0xc985;
  It 0xa354 0xc986;
  It 0xa355 0xc987;
  It 0xa356 0xc98a;
  It 0xa357 0xc98b;
  It 0xa358 0xc98d;
  It 0xa359 0xc98e;
  It 0xa35a 0xc98f;
  It 0xa361 0xc991;
  It 0xa362 0xc992;
  It 0xa363 0xc993;
  It 0xa364 0xc994;
  It 0xa365 0xc995;
  It 0xa366 0xc996;
  It 0xa367 0xc997;
  It 0xa368 0xc99a;
  It 0xa369 0xc99c;
  It 0xa36a 0xc99e;
  It 0xa36b 0xc99f;
  It 0xa36c 0xc9a0;
  It 0xa36d 0xc9a1;
  It 0xa36e 0xc9a2;
  It 0xa36f 0xc9a3;
  It 0xa370 0xc9a4;
  It 0xa371 0xc9a5;
  It 0xa372 0xc9a6;
  It 0xa373 0xc9a7;
  It 0xa374 0xc9a8;
  It 0xa375 0xc9a9;
  It 0xa376 0xc9aa;
  It 0xa377 0xc9ab;
  It 0xa378 0xc9ac;
  It 0xa379 0xc9ad;
  It 0xa37a 0xc9ae;
  It 0xa381 0xc9af;
  It 0xa382 0xc9b0;
  It 0xa383 0xc9b1;
  It 0xa384 0xc9b2;
  It 0xa385 0xc9b3;
  It 0xa386 0xc9b4;
  It 0xa387 0xc9b5;
  It 0xa388 0xc9b6;
  It 0xa389 0xc9b7;
  It 0xa38a 0xc9b8;
  It 0xa38b 0xc9b9;
  It 0xa38c 0xc9ba;
  It 0xa38d 0xc9bb;
  It 0xa38e 0xc9bc;
  It 0xa38f 0xc9bd;
  It 0xa390 0xc9be;
  It 0xa391 0xc9bf;
  It 0xa392 0xc9c2;
  It 0xa393 0xc9c3;
  It 0xa394 0xc9c5;
  It 0xa395 0xc9c6;
  It 0xa396 0xc9c9;
  It 0xa397 0xc9cb;
  It 0xa398 0xc9cc;
  It 0xa399 0xc9cd;
  It 0xa39a 0xc9ce;
  It 0xa39b 0xc9cf;
  It 0xa39c 0xc9d2;
  It 0xa39d 0xc9d4;
  It 0xa39e 0xc9d7;
  It 0xa39f 0xc9d8;
  It 0xa3a0 0xc9db;
  It 0xa3a1 0xff01;
  It 0xa3a2 0xff02;
  It 0xa3a3 0xff03;
  It 0xa3a4 0xff04;
  It 0xa3a5 0xff05;
  It 0xa3a6 0xff06;
  It 0xa3a7 0xff07;
  It 0xa3a8 0xff08;
  It 0xa3a9 0xff09;
  It 0xa3aa 0xff0a;
  It 0xa3ab 0xff0b;
  It 0xa3ac 0xff0c;
  It 0xa3ad 0xff0d;
  It 0xa3ae 0xff0e;
  It 0xa3af 0xff0f;
  It 0xa3b0 0xff10;
  It 0xa3b1 0xff11;
  It 0xa3b2 0xff12;
  It 0xa3b3 0xff13;
  It 0xa3b4 0xff14;
  It 0xa3b5 0xff15;
  It 0xa3b6 0xff16;
  It 0xa3b7 0xff17;
  It 0xa3b8 0xff18;
  It 0xa3b9 0xff19;
  It 0xa3ba 0xff1a;
  It 0xa3bb 0xff1b;
  It 0xa3bc 0xff1c;
  It 0xa3bd 0xff1d;
  It 0xa3be 0xff1e;
  It 0xa3bf 0xff1f;
  It 0xa3c0 0xff20;
  It 0xa3c1 0xff21;
  It 0xa3c2 0xff22;
  It 0xa3c3 0xff23;
  It 0xa3c4 0xff24;
  It 0xa3c5 0xff25;
  It 0xa3c6 0xff26;
  It 0xa3c7 0xff27;
  It 0xa3c8 0xff28;
  It 0xa3c9 0xff29;
  It 0xa3ca 0xff2a;
  It 0xa3cb 0xff2b;
  It 0xa3cc 0xff2c;
  It 0xa3cd 0xff2d;
  It 0xa3ce 0xff2e;
  It 0xa3cf 0xff2f;
  It 0xa3d0 0xff30;
  It 0xa3d1 0xff31;
  It 0xa3d2 0xff32;
  It 0xa3d3 0xff33;
  It 0xa3d4 0xff34;
  It 0xa3d5 0xff35;
  It 0xa3d6 0xff36;
  It 0xa3d7 0xff37;
  It 0xa3d8 0xff38;
  It 0xa3d9 0xff39;
  It 0xa3da 0xff3a;
  It 0xa3db 0xff3b;
  It 0xa3dc 0xffe6;
  It 0xa3dd 0xff3d;
  It 0xa3de 0xff3e;
  It 0xa3df 0xff3f;
  It 0xa3e0 0xff40;
  It 0xa3e1 0xff41;
  It 0xa3e2 0xff42;
  It 0xa3e3 0xff43;
  It 0xa3e4 0xff44;
  It 0xa3e5 0xff45;
  It 0xa3e6 0xff46;
  It 0xa3e7 0xff47;
  It 0xa3e8 0xff48;
  It 0xa3e9 0xff49;
  It 0xa3ea 0xff4a;
  It 0xa3eb 0xff4b;
  It 0xa3ec 0xff4c;
  It 0xa3ed 0xff4d;
  It 0xa3ee 0xff4e;
  It 0xa3ef 0xff4f;
  It 0xa3f0 0xff50;
  It 0xa3f1 0xff51;
  It 0xa3f2 0xff52;
  It 0xa3f3 0xff53;
  It 0xa3f4 0xff54;
  It 0xa3f5 0xff55;
  It 0xa3f6 0xff56;
  It 0xa3f7 0xff57;
  It 0xa3f8 0xff58;
  It 0xa3f9 0xff59;
  It 0xa3fa 0xff5a;
  It 0xa3fb 0xff5b;
  It 0xa3fc 0xff5c;
  It 0xa3fd 0xff5d;
  It 0xa3fe 0xffe3;
  It 0xa441 0xc9de;
  It 0xa442 0xc9df;
  It 0xa443 0xc9e1;
  It 0xa444 0xc9e3;
  It 0xa445 0xc9e5;
  It 0xa446 0xc9e6;
  It 0xa447 0xc9e8;
  It 0xa448 0xc9e9;
  It 0xa449 0xc9ea;
  It 0xa44a 0xc9eb;
  It 0xa44b 0xc9ee;
  It 0xa44c 0xc9f2;
  It 0xa44d 0xc9f3;
  It 0xa44e 0xc9f4;
  It 0xa44f 0xc9f5;
  It 0xa450 0xc9f6;
  It 0xa451 0xc9f7;
  It 0xa452 0xc9fa;
  It 0xa453 0xc9fb;
  It 0xa454 0xc9fd;
  It 0xa455 0xc9fe;
  It 0xa456 0xc9ff;
  It 0xa457 0xca01;
  It 0xa458 0xca02;
  It 0xa459 0xca03;
  It 0xa45a 0xca04;
  It 0xa461 0xca05;
  It 0xa462 0xca06;
  It 0xa463 0xca07;
  It 0xa464 0xca0a;
  It 0xa465 0xca0e;
  It 0xa466 0xca0f;
  It 0xa467 0xca10;
  It 0xa468 0xca11;
  It 0xa469 0xca12;
  It 0xa46a 0xca13;
  It 0xa46b 0xca15;
  It 0xa46c 0xca16;
  It 0xa46d 0xca17;
  It 0xa46e 0xca19;
  It 0xa46f 0xca1a;
  It 0xa470 0xca1b;
  It 0xa471 0xca1c
].

(* encoding/cp949/lookup_from.go:6259-6508 *)
Definition fromTable_025 : list lookupItem := [
  It 0xa472 0xca1d;
  It 0xa473 0xca1e;
  It 0xa474 0xca1f;
  It 0xa475 0xca20;
  It 0xa476 0xca21;
  It 0xa477 0xca22;
  It 0xa478 0xca23;
  It 0xa479 0xca24;
  It 0xa47a 0xca25;
  It 0xa481 0xca26;
  It 0xa482 0xca27;
  It 0xa483 0xca28;
  It 0xa484 0xca2a;
  It 0xa485 0xca2b;
  It 0xa486 0xca2c;
  It 0xa487 0xca2d;
  It 0xa488 0xca2e;
  It 0xa489 0xca2f;
  It 0xa48a 0xca30;
  It 0xa48b 0xca31;
  It 0xa48c 0xca32;
  It 0xa48d 0xca33;
  It 0xa48e 0xca34;
  It 0xa48f 0xca35;
  It 0xa490 0xca36;
  It 0xa491 0xca37;
  It 0xa492 0xca38;
  It 0xa493 0xca39;
  It 0xa494 0xca3a;
  It 0xa495 0xca3b;
  It 0xa496 0xca3c;
  It 0xa497 0xca3d;
  It 0xa498 0xca3e;
  It 0xa499 0xca3f;
  It 0xa49a 0xca40;
  It 0xa49b 0xca41;
  It 0xa49c 0xca42;
  It 0xa49d 0xca43;
  It 0xa49e 0xca44;
  It 0xa49f 0xca45;
  It 0xa4a0 0xca46;
  It 0xa4a1 0x3131;
  It 0xa4a2 0x3132;
  It 0xa4a3 0x3133;
  It 0xa4a4 0x3134;
  It 0xa4a5 0x3135;
  It 0xa4a6 0x3136;
  It 0xa4a7 0x3137;
  It 0xa4a8 0x3138;
  It 0xa4a9 0x3139;
  It 0xa4aa 0x313a;
  It 0xa4ab 0x313b;
  It 0xa4ac 0x313c;
  It 0xa4ad 0x313d;
  It 0xa4ae 0x313e;
  It 0xa4af 0x313f;
  It 0xa4b0 0x3140;
  It 0xa4b1 0x3141;
  It 0xa4b2 0x3142;
  It 0xa4b3 0x3143;
  It 0xa4b4 0x3144;
  It 0xa4b5 0x3145;
  It 0xa4b6 0x3146;
  It 0xa4b7 0x3147;
  It 0xa4b8 0x3148;
  It 0xa4b9 0x3149;
  It 0xa4ba 0x314a;
  It 0xa4bb 0x314b;
  It 0xa4bc 0x314c;
  It 0xa4bd 0x314d;
  It 0xa4be 0x314e;
  It 0xa4bf 0x314f;
  It 0xa4c0 0x3150;
  It 0xa4c1 0x3151;
  It 0xa4c2 0x3152;
  It 0xa4c3 0x3153;
  It 0xa4c4 0x3154;
  It 0xa4c5 0x3155;
  It 0xa4c6 0x3156;
  It 0xa4c7 0x3157;
  It 0xa4c8 0x3158;
  It 0xa4c9 0x3159;
  It 0xa4ca 0x315a;
  It 0xa4cb 0x315b;
  It 0xa4cc 0x315c;
  It 0xa4cd 0x315d;
  It 0xa4ce 0x315e;
  It 0xa4cf 0x315f;
  It 0xa4d0 0x3160;
  It 0xa4d1 0x3161;
  It 0xa4d2 0x3162;
  It 0xa4d3 0x3163;
  It 0xa4d4 0x3164;
  It 0xa4d5 0x3165;
  It 0xa4d6 0x3166;
  It 0xa4d7 0x3167;
  It 0xa4d8 0x3168;
  It 0xa4d9 0x3169;
  It 0xa4da 0x316a;
  It 0xa4db 0x316b;
  It 0xa4dc 0x316c;
  It 0xa4dd 0x316d;
  It 0xa4de 0x316e;
  It 0xa4df 0x316f;
  It 0xa4e0 0x3170;
  It 0xa4e1 0x3171;
  It 0xa4e2 0x3172;
  It 0xa4e3 0x3173;
  It 0xa4e4 0x3174;
  It 0xa4e5 0x3175;
  It 0xa4e6 0x3176;
  It 0xa4e7 0x3177;
  It 0xa4e8 0x3178;
  It 0xa4e9 0x3179;
  It 0xa4ea 0x317a;
  It 0xa4eb 0x317b;
  It 0xa4ec 0x317c;
  It 0xa4ed 0x317d;
  It 0xa4ee 0x317e;
  It 0xa4ef 0x317f;
  It 0xa4f0 0x3180;
  It 0xa4f1 0x3181;
  It 0xa4f2 0x3182;
  It 0xa4f3 0x3183;
  It 0xa4f4 0x3184;
  It 0xa4f5 0x3185;
  It 0xa4f6 0x3186;
  It 0xa4f7 0x3187;
  It 0xa4f8 0x3188;
  It 0xa4f9 0x3189;
  It 0xa4fa 0x318a;
  It 0xa4fb 0x318b;
  It 0xa4fc 0x318c;
  It 0xa4fd 0x318d;
  It 0xa4fe 0x318e;
  It 0xa541 0xca47;
  It 0xa542 0xca48;
  It 0xa543 0xca49;
  It 0xa544 0xca4a;
  It 0xa545 0xca4b;
  It 0xa546 0xca4e;
  It 0xa547 0xca4f;
  It 0xa548 0xca51;
  It 0xa549 0xca52;
  It 0xa54a 0xca53;
  It 0xa54b 0xca55;
  It 0xa54c 0xca56;
  It 0xa54d 0xca57;
  It 0xa54e 0xca58;
  It 0xa54f 0xca59;
  It 0xa550 0xca5a;
  It 0xa551 0xca5b;
  It 0xa552 0xca5e;
  It 0xa553 0xca62;
  It 0xa554 0xca63;
  It 0xa555 0xca64;
  It 0xa556 0xca65;
  It 0xa557 0xca66;
  It 0xa558 0xca67;
  It 0xa559 0xca69;
  It 0xa55a 0xca6a;
  It 0xa561 0xca6b;
  It 0xa562 0xca6c;
  It 0xa563 0xca6d;
  It 0xa564 0xca6e;
  It 0xa565 0xca6f;
  It 0xa566 0xca70;
  It 0xa567 0xca71;
  It 0xa568 0xca72;
  It 0xa569 0xca73;
  It 0xa56a 0xca74;
  It 0xa56b 0xca75;
  It 0xa56c 0xca76;
  It 0xa56d 0xca77;
  It 0xa56e 0xca78;
  It 0xa56f 0xca79;
  It 0xa570 0xca7a;
  It 0xa571 0xca7b;
  It 0xa572 0xca7c;
  It 0xa573 0xca7e;
  It 0xa574 0xca7f;
  It 0xa575 0xca80;
  It 0xa576 0xca81;
  It 0xa577 0xca82;
  It 0xa578 0xca83;
  It 0xa579 0xca85;
  It 0xa57a 0xca86;
  It 0xa581 0xca87;
  It 0xa582 0xca88;
  It 0xa583 0xca89;
  It 0xa584 0xca8a;
  It 0xa585 0xca8b;
  It 0xa586 0xca8c;
  It 0xa587 0xca8d;
  It 0xa588 0xca8e;
  It 0xa589 0xca8f;
  It 0xa58a 0xca90;
  It 0xa58b 0xca91;
  It 0xa58c 0xca92;
  It 0xa58d 0xca93;
  It 0xa58e 0xca94;
  It 0xa58f 0xca95;
  It 0xa590 0xca96;
  It 0xa591 0xca97;
  It 0xa592 0xca99;
  It 0xa593 0xca9a;
  It 0xa594 0xca9b;
  It 0xa595 0xca9c;
  It 0xa596 0xca9d;
  It 0xa597 0xca9e;
  It 0xa598 0xca9f;
  It 0xa599 0xcaa0;
  It 0xa59a 0xcaa1;
  It 0xa59b 0xcaa2;
  It 0xa59c 0xcaa3;
  It 0xa59d 0xcaa4;
  It 0xa59e 0xcaa5;
  It 0xa59f 0xcaa6;
  It 0xa5a0 0xcaa7;
  It 0xa5a1 0x2170;
  It 0xa5a2 0x2171;
  It 0xa5a3 0x2172;
  It 0xa5a4 0x2173;
  It 0xa5a5 0x2174;
  It 0xa5a6 0x2175;
  It 0xa5a7 0x2176;
  It 0xa5a8 0x2177;
  It 0xa5a9 0x2178;
  It 0xa5aa 0x2179;
  It 0xa5b0 0x2160;
  It 0xa5b1 0x2161;
  It 0xa5b2 0x2162;
  It 0xa5b3 0x2163;
  It 0xa5b4 0x2164;
  It 0xa5b5 0x2165;
  It 0xa5b6 0x2166;
  It 0xa5b7 0x2167;
  It 0xa5b8 0x2168;
  It 0xa5b9 0x2169;
  It 0xa5c1 0x0391;
  It 0xa5c2 0x0392;
  It 0xa5c3 0x0393;
  It 0xa5c4 0x0394;
  It 0xa5c5 0x0395;
  It 0xa5c6 0x0396;
  It 0xa5c7 0x0397;
  It 0xa5c8 0x0398;
  It 0xa5c9 0x0399;
  It 0xa5ca 0x039a;
  It 0xa5cb 0x039b
].

(* encoding/cp949/lookup_from.go:6509-6758 *)
Definition fromTable_026 : list lookupItem := [
  It 0xa5cc 0x039c;
  It 0xa5cd 0x039d;
  It 0xa5ce 0x039e;
  It 0xa5cf 0x039f;
  It 0xa5d0 0x03a0;
  It 0xa5d1 0x03a1;
  It 0xa5d2 0x03a3;
  It 0xa5d3 0x03a4;
  It 0xa5d4 0x03a5;
  It 0xa5d5 0x03a6;
  It 0xa5d6 0x03a7;
  It 0xa5d7 0x03a8;
  It 0xa5d8 0x03a9;
  It 0xa5e1 0x03b1;
  It 0xa5e2 0x03b2;
  It 0xa5e3 0x03b3;
  It 0xa5e4 0x03b4;
  It 0xa5e5 0x03b5;
  It 0xa5e6 0x03b6;
  It 0xa5e7 0x03b7;
  It 0xa5e8 0x03b8;
  It 0xa5e9 0x03b9;
  It 0xa5ea 0x03ba;
  It 0xa5eb 0x03bb;
  It 0xa5ec 0x03bc;
  It 0xa5ed 0x03bd;
  It 0xa5ee 0x03be;
  It 0xa5ef 0x03bf;
  It 0xa5f0 0x03c0;
  It 0xa5f1 0x03c1;
  It 0xa5f2 0x03c3;
  It 0xa5f3 0x03c4;
  It 0xa5f4 0x03c5;
  It 0xa5f5 0x03c6;
  It 0xa5f6 0x03c7;
  It 0xa5f7 0x03c8;
  It 0xa5f8 0x03c9;
  It 0xa641 0xcaa8;
  It 0xa642 0xcaa9;
  It 0xa643 0xcaaa;
  It 0xa644 0xcaab;
  It 0xa645 0xcaac;
  It 0xa646 0xcaad;
  It 0xa647 0xcaae;
  It 0xa648 0xcaaf;
  It 0xa649 0xcab0;
  It 0xa64a 0xcab1;
  It 0xa64b 0xcab2;
  It 0xa64c 0xcab3;
  It 0xa64d 0xcab4;
  It 0xa64e 0xcab5;
  It 0xa64f 0xcab6;
  It 0xa650 0xcab7;
  It 0xa651 0xcab8;
  It 0xa652 0xcab9;
  It 0xa653 0xcaba;
  It 0xa654 0xcabb;
  It 0xa655 0xcabe;
  It 0xa656 0xcabf;
  It 0xa657 0xcac1;
  It 0xa658 0xcac2;
  It 0xa659 0xcac3;
  It 0xa65a 0xcac5;
  It 0xa661 0xcac6;
  It 0xa662 0xcac7;
  It 0xa663 0xcac8;
  It 0xa664 0xcac9;
  It 0xa665 0xcaca;
  It 0xa666 0xcacb;
  It 0xa667 0xcace;
  It 0xa668 0xcad0;
  It 0xa669 0xcad2;
  It 0xa66a 0xcad4;
  It 0xa66b 0xcad5;
  It 0xa66c 0xcad6;
  It 0xa66d 0xcad7;
  It 0xa66e 0xcada;
  It 0xa66f 0xcadb;
  It 0xa670 0xcadc;
  It 0xa671 0xcadd;
  It 0xa672 0xcade;
  It 0xa673 0xcadf;
  It 0xa674 0xcae1;
  It 0xa675 0xcae2;
  It 0xa676 0xcae3;
  It 0xa677 0xcae4;
  It 0xa678 0xcae5;
  It 0xa679 0xcae6;
  It 0xa67a 0xcae7;
  It 0xa681 0xcae8;
  It 0xa682 0xcae9;
  It 0xa683 0xcaea;
  It 0xa684 0xcaeb;
  It 0xa685 0xcaed;
  It 0xa686 0xcaee;
  It 0xa687 0xcaef;
  It 0xa688 0xcaf0;
  It 0xa689 0xcaf1;
  It 0xa68a 0xcaf2;
  It 0xa68b 0xcaf3;
  It 0xa68c 0xcaf5;
  It 0xa68d 0xcaf6;
  It 0xa68e 0xcaf7;
  It 0xa68f 0xcaf8;
  It 0xa690 0xcaf9;
  It 0xa691 0xcafa;
  It 0xa692 0xcafb;
  It 0xa693 0xcafc;
  It 0xa694 0xcafd;
  It 0xa695 0xcafe;
  It 0xa696 0xcaff;
  It 0xa697 0xcb00;
  It 0xa698 0xcb01;
  It 0xa699 0xcb02;
  It 0xa69a 0xcb03;
  It 0xa69b 0xcb04;
  It 0xa69c 0xcb05;
  It 0xa69d 0xcb06;
  It 0xa69e 0xcb07;
  It 0xa69f 0xcb09;
  It 0xa6a0 0xcb0a;
  It 0xa6a1 0x2500;
  It 0xa6a2 0x2502;
  It 0xa6a3 0x250c;
  It 0xa6a4 0x2510;
  It 0xa6a5 0x2518;
  It 0xa6a6 0x2514;
  It 0xa6a7 0x251c;
  It 0xa6a8 0x252c;
  It 0xa6a9 0x2524;
  It 0xa6aa 0x2534;
  It 0xa6ab 0x253c;
  It 0xa6ac 0x2501;
  It 0xa6ad 0x2503;
  It 0xa6ae 0x250f;
  It 0xa6af 0x2513;
  It 0xa6b0 0x251b;
  It 0xa6b1 0x2517;
  It 0xa6b2 0x2523;
  It 0xa6b3 0x2533;
  It 0xa6b4 0x252b;
  It 0xa6b5 0x253b;
  It 0xa6b6 0x254b;
  It 0xa6b7 0x2520;
  It 0xa6b8 0x252f;
  It 0xa6b9 0x2528;
  It 0xa6ba 0x2537;
  It 0xa6bb 0x253f;
  It 0xa6bc 0x251d;
  It 0xa6bd 0x2530;
  It 0xa6be 0x2525;
  It 0xa6bf 0x2538;
  It 0xa6c0 0x2542;
  It 0xa6c1 0x2512;
  It 0xa6c2 0x2511;
  It 0xa6c3 0x251a;
  It 0xa6c4 0x2519;
  It 0xa6c5 0x2516;
  It 0xa6c6 0x2515;
  It 0xa6c7 0x250e;
  It 0xa6c8 0x250d;
  It 0xa6c9 0x251e;
  It 0xa6ca 0x251f;
  It 0xa6cb 0x2521;
  It 0xa6cc 0x2522;
  It 0xa6cd 0x2526;
  It 0xa6ce 0x2527;
  It 0xa6cf 0x2529;
  It 0xa6d0 0x252a;
  It 0xa6d1 0x252d;
  It 0xa6d2 0x252e;
  It 0xa6d3 0x2531;
  It 0xa6d4 0x2532;
  It 0xa6d5 0x2535;
  It 0xa6d6 0x2536;
  It 0xa6d7 0x2539;
  It 0xa6d8 0x253a;
  It 0xa6d9 0x253d;
  It 0xa6da 0x253e;
  It 0xa6db 0x2540;
  It 0xa6dc 0x2541;
  It 0xa6dd 0x2543;
  It 0xa6de 0x2544;
  It 0xa6df 0x2545;
  It 0xa6e0 0x2546;
  It 0xa6e1 0x2547;
  It 0xa6e2 0x2548;
  It 0xa6e3 0x2549;
  It 0xa6e4 0x254a;
  It 0xa741 0xcb0b;
  It 0xa742 0xcb0c;
  It 0xa743 0xcb0d;
  It 0xa744 0xcb0e;
  It 0xa745 0xcb0f;
  It 0xa746 0xcb11;
  It 0xa747 0xcb12;
  It 0xa748 0xcb13;
  It 0xa749 0xcb15;
  It 0xa74a 0xcb16;
  It 0xa74b 0xcb17;
  It 0xa74c 0xcb19;
  It 0xa74d 0xcb1a;
  It 0xa74e 0xcb1b;
  It 0xa74f 0xcb1c;
  It 0xa750 0xcb1d;
  It 0xa751 0xcb1e;
  It 0xa752 0xcb1f;
  It 0xa753 0xcb22;
  It 0xa754 0xcb23;
  It 0xa755 0xcb24;
  It 0xa756 0xcb25;
  It 0xa757 0xcb26;
  It 0xa758 0xcb27;
  It 0xa759 0xcb28;
  It 0xa75a 0xcb29;
  It 0xa761 0xcb2a;
  It 0xa762 0xcb2b;
  It 0xa763 0xcb2c;
  It 0xa764 0xcb2d;
  It 0xa765 0xcb2e;
  It 0xa766 0xcb2f;
  It 0xa767 0xcb30;
  It 0xa768 0xcb31;
  It 0xa769 0xcb32;
  It 0xa76a 0xcb33;
  It 0xa76b 0xcb34;
  It 0xa76c 0xcb35;
  It 0xa76d 0xcb36;
  It 0xa76e 0xcb37;
  It 0xa76f 0xcb38;
  It 0xa770 0xcb39;
  It 0xa771 0xcb3a;
  It 0xa772 0xcb3b;
  It 0xa773 0xcb3c;
  It 0xa774 0xcb3d;
  It 0xa775 0xcb3e;
  It 0xa776 0xcb3f;
  It 0xa777 0xcb40;
  It 0xa778 0xcb42;
  It 0xa779 0xcb43;
  It 0xa77a 0xcb44;
  It 0xa781 0xcb45;
  It 0xa782 0xcb46;
  It 0xa783 0xcb47;
  It 0xa784 0xcb4a;
  It 0xa785 0xcb4b;
  It 0xa786 0xcb4d;
  It 0xa787 0xcb4e;
  It 0xa788 0xcb4f;
  It 0xa789 0xcb51
].

(* encoding/cp949/lookup_from.go:6759-7008 *)
Definition fromTable_027 : list lookupItem := [
  It 0xa78a 0xcb52;
  It 0xa78b 0xcb53;
  It 0xa78c 0xcb54;
  It 0xa78d 0xcb55;
  It 0xa78e 0xcb56;
  It 0xa78f 0xcb57;
  It 0xa790 0xcb5a;
  It 0xa791 0xcb5b;
  It 0xa792 0xcb5c;
  It 0xa793 0xcb5e;
  It 0xa794 0xcb5f;
  It 0xa795 0xcb60;
  It 0xa796 0xcb61;
  It 0xa797 0xcb62;
  It 0xa798 0xcb63;
  It 0xa799 0xcb65;
  It 0xa79a 0xcb66;
  It 0xa79b 0xcb67;
  It 0xa79c 0xcb68;
  It 0xa79d 0xcb69;
  It 0xa79e 0xcb6a;
  It 0xa79f 0xcb6b;
  It 0xa7a0 0xcb6c;
  It 0xa7a1 0x3395;
  It 0xa7a2 0x3396;
  It 0xa7a3 0x3397;
  It 0xa7a4 0x2113;
  It 0xa7a5 0x3398;
  It 0xa7a6 0x33c4;
  It 0xa7a7 0x33a3;
  It 0xa7a8 0x33a4;
  It 0xa7a9 0x33a5;
  It 0xa7aa 0x33a6;
  It 0xa7ab 0x3399;
  It 0xa7ac 0x339a;
  It 0xa7ad 0x339b;
  It 0xa7ae 0x339c;
  It 0xa7af 0x339d;
  It 0xa7b0 0x339e;
  It 0xa7b1 0x339f;
  It 0xa7b2 0x33a0;
  It 0xa7b3 0x33a1;
  It 0xa7b4 0x33a2;
  It 0xa7b5 0x33ca;
  It 0xa7b6 0x338d;
  It 0xa7b7 0x338e;
  It 0xa7b8 0x338f;
  It 0xa7b9 0x33cf;
  It 0xa7ba 0x3388;
  It 0xa7bb 0x3389;
  It 0xa7bc 0x33c8;
  It 0xa7bd 0x33a7;
  It 0xa7be 0x33a8;
  It 0xa7bf 0x33b0;
  It 0xa7c0 0x33b1;
  It 0xa7c1 0x33b2;
  It 0xa7c2 0x33b3;
  It 0xa7c3 0x33b4;
  It 0xa7c4 0x33b5;
  It 0xa7c5 0x33b6;
  It 0xa7c6 0x33b7;
  It 0xa7c7 0x33b8;
  It 0xa7c8 0x33b9;
  It 0xa7c9 0x3380;
  It 0xa7ca 0x3381;
  It 0xa7cb 0x3382;
  It 0xa7cc 0x3383;
  It 0xa7cd 0x3384;
  It 0xa7ce 0x33ba;
  It 0xa7cf 0x33bb;
  It 0xa7d0 0x33bc;
  It 0xa7d1 0x33bd;
  It 0xa7d2 0x33be;
  It 0xa7d3 0x33bf;
  It 0xa7d4 0x3390;
  It 0xa7d5 0x3391;
  It 0xa7d6 0x3392;
  It 0xa7d7 0x3393;
  It 0xa7d8 0x3394;
  It 0xa7d9 0x2126;
  It 0xa7da 0x33c0;
  It 0xa7db 0x33c1;
  It 0xa7dc 0x338a;
  It 0xa7dd 0x338b;
  It 0xa7de 0x338c;
  It 0xa7df 0x33d6;
  It 0xa7e0 0x33c5;
  It 0xa7e1 0x33ad;
  It 0xa7e2 0x33ae;
  It 0xa7e3 0x33af;
  It 0xa7e4 0x33db;
  It 0xa7e5 0x33a9;
  It 0xa7e6 0x33aa;
  It 0xa7e7 0x33ab;
  It 0xa7e8 0x33ac;
  It 0xa7e9 0x33dd;
  It 0xa7ea 0x33d0;
  It 0xa7eb 0x33d3;
  It 0xa7ec 0x33c3;
  It 0xa7ed 0x33c9;
  It 0xa7ee 0x33dc;
  It 0xa7ef 0x33c6;
  It 0xa841 0xcb6d;
  It 0xa842 0xcb6e;
  It 0xa843 0xcb6f;
  It 0xa844 0xcb70;
  It 0xa845 0xcb71;
  It 0xa846 0xcb72;
  It 0xa847 0xcb73;
  It 0xa848 0xcb74;
  It 0xa849 0xcb75;
  It 0xa84a 0xcb76;
  It 0xa84b 0xcb77;
  It 0xa84c 0xcb7a;
  It 0xa84d 0xcb7b;
  It 0xa84e 0xcb7c;
  It 0xa84f 0xcb7d;
  It 0xa850 0xcb7e;
  It 0xa851 0xcb7f;
  It 0xa852 0xcb80;
  It 0xa853 0xcb81;
  It 0xa854 0xcb82;
  It 0xa855 0xcb83;
  It 0xa856 0xcb84;
  It 0xa857 0xcb85;
  It 0xa858 0xcb86;
  It 0xa859 0xcb87;
  It 0xa85a 0xcb88;
  It 0xa861 0xcb89;
  It 0xa862 0xcb8a;
  It 0xa863 0xcb8b;
  It 0xa864 0xcb8c;
  It 0xa865 0xcb8d;
  It 0xa866 0xcb8e;
  It 0xa867 0xcb8f;
  It 0xa868 0xcb90;
  It 0xa869 0xcb91;
  It 0xa86a 0xcb92;
  It 0xa86b 0xcb93;
  It 0xa86c 0xcb94;
  It 0xa86d 0xcb95;
  It 0xa86e 0xcb96;
  It 0xa86f 0xcb97;
  It 0xa870 0xcb98;
  It 0xa871 0xcb99;
  It 0xa872 0xcb9a;
  It 0xa873 0xcb9b;
  It 0xa874 0xcb9d;
  It 0xa875 0xcb9e;
  It 0xa876 0xcb9f;
  It 0xa877 0xcba0;
  It 0xa878 0xcba1;
  It 0xa879 0xcba2;
  It 0xa87a 0xcba3;
  It 0xa881 0xcba4;
  It 0xa882 0xcba5;
  It 0xa883 0xcba6;
  It 0xa884 0xcba7;
  It 0xa885 0xcba8;
  It 0xa886 0xcba9;
  It 0xa887 0xcbaa;
  It 0xa888 0xcbab;
  It 0xa889 0xcbac;
  It 0xa88a 0xcbad;
  It 0xa88b 0xcbae;
  It 0xa88c 0xcbaf;
  It 0xa88d 0xcbb0;
  It 0xa88e 0xcbb1;
  It 0xa88f 0xcbb2;
  It 0xa890 0xcbb3;
  It 0xa891 0xcbb4;
  It 0xa892 0xcbb5;
  It 0xa893 0xcbb6;
  It 0xa894 0xcbb7;
  It 0xa895 0xcbb9;
  It 0xa896 0xcbba;
  It 0xa897 0xcbbb;
  It 0xa898 0xcbbc;
  It 0xa899 0xcbbd;
  It 0xa89a 0xcbbe;
  It 0xa89b 0xcbbf;
  It 0xa89c 0xcbc0;
  It 0xa89d 0xcbc1;
  It 0xa89e 0xcbc2;
  It 0xa89f 0xcbc3;
  It 0xa8a0 0xcbc4;
  It 0xa8a1 0x00c6;
  It 0xa8a2 0x00d0;
  It 0xa8a3 0x00aa;
  It 0xa8a4 0x0126;
  It 0xa8a6 0x0132;
  It 0xa8a8 0x013f;
  It 0xa8a9 0x0141;
  It 0xa8aa 0x00d8;
  It 0xa8ab 0x0152;
  It 0xa8ac 0x00ba;
  It 0xa8ad 0x00de;
  It 0xa8ae 0x0166;
  It 0xa8af 0x014a;
  It 0xa8b1 0x3260;
  It 0xa8b2 0x3261;
  It 0xa8b3 0x3262;
  It 0xa8b4 0x3263;
  It 0xa8b5 0x3264;
  It 0xa8b6 0x3265;
  It 0xa8b7 0x3266;
  It 0xa8b8 0x3267;
  It 0xa8b9 0x3268;
  It 0xa8ba 0x3269;
  It 0xa8bb 0x326a;
  It 0xa8bc 0x326b;
  It 0xa8bd 0x326c;
  It 0xa8be 0x326d;
  It 0xa8bf 0x326e;
  It 0xa8c0 0x326f;
  It 0xa8c1 0x3270;
  It 0xa8c2 0x3271;
  It 0xa8c3 0x3272;
  It 0xa8c4 0x3273;
  It 0xa8c5 0x3274;
  It 0xa8c6 0x3275;
  It 0xa8c7 0x3276;
  It 0xa8c8 0x3277;
  It 0xa8c9 0x3278;
  It 0xa8ca 0x3279;
  It 0xa8cb 0x327a;
  It 0xa8cc 0x327b;
  It 0xa8cd 0x24d0;
  It 0xa8ce 0x24d1;
  It 0xa8cf 0x24d2;
  It 0xa8d0 0x24d3;
  It 0xa8d1 0x24d4;
  It 0xa8d2 0x24d5;
  It 0xa8d3 0x24d6;
  It 0xa8d4 0x24d7;
  It 0xa8d5 0x24d8;
  It 0xa8d6 0x24d9;
  It 0xa8d7 0x24da;
  It 0xa8d8 0x24db;
  It 0xa8d9 0x24dc;
  It 0xa8da 0x24dd;
  It 0xa8db 0x24de;
  It 0xa8dc 0x24df;
  It 0xa8dd 0x24e0;
  It 0xa8de 0x24e1;
  It 0xa8df 0x24e2;
  It 0xa8e0 0x24e3;
  It 0xa8e1 0x24e4;
  It 0xa8e2 0x24e5;
  It 0xa8e3 0x24e6
].

(* encoding/cp949/lookup_from.go:7009-7258 *)
Definition fromTable_028 : list lookupItem := [
  It 0xa8e4 0x24e7;
  It 0xa8e5 0x24e8;
  It 0xa8e6 0x24e9;
  It 0xa8e7 0x2460;
  It 0xa8e8 0x2461;
  It 0xa8e9 0x2462;
  It 0xa8ea 0x2463;
  It 0xa8eb 0x2464;
  It 0xa8ec 0x2465;
  It 0xa8ed 0x2466;
  It 0xa8ee 0x2467;
  It 0xa8ef 0x2468;
  It 0xa8f0 0x2469;
  It 0xa8f1 0x246a;
  It 0xa8f2 0x246b;
  It 0xa8f3 0x246c;
  It 0xa8f4 0x246d;
  It 0xa8f5 0x246e;
  It 0xa8f6 0x00bd;
  It 0xa8f7 0x2153;
  It 0xa8f8 0x2154;
  It 0xa8f9 0x00bc;
  It 0xa8fa 0x00be;
  It 0xa8fb 0x215b;
  It 0xa8fc 0x215c;
  It 0xa8fd 0x215d;
  It 0xa8fe 0x215e;
  It 0xa941 0xcbc5;
  It 0xa942 0xcbc6;
  It 0xa943 0xcbc7;
  It 0xa944 0xcbc8;
  It 0xa945 0xcbc9;
  It 0xa946 0xcbca;
  It 0xa947 0xcbcb;
  It 0xa948 0xcbcc;
  It 0xa949 0xcbcd;
  It 0xa94a 0xcbce;
  It 0xa94b 0xcbcf;
  It 0xa94c 0xcbd0;
  It 0xa94d 0xcbd1;
  It 0xa94e 0xcbd2;
  It 0xa94f 0xcbd3;
  It 0xa950 0xcbd5;
  It 0xa951 0xcbd6;
  It 0xa952 0xcbd7;
  It 0xa953 0xcbd8;
  It 0xa954 0xcbd9;
  It 0xa955 0xcbda;
  It 0xa956 0xcbdb;
  It 0xa957 0xcbdc;
  It 0xa958 0xcbdd;
  It 0xa959 0xcbde;
  It 0xa95a 0xcbdf;
  It 0xa961 0xcbe0;
  It 0xa962 0xcbe1;
  It 0xa963 0xcbe2;
  It 0xa964 0xcbe3;
  It 0xa965 0xcbe5;
  It 0xa966 0xcbe6;
  It 0xa967 0xcbe8;
  It 0xa968 0xcbea;
  It 0xa969 0xcbeb;
  It 0xa96a 0xcbec;
  It 0xa96b 0xcbed;
  It 0xa96c 0xcbee;
  It 0xa96d 0xcbef;
  It 0xa96e 0xcbf0;
  It 0xa96f 0xcbf1;
  It 0xa970 0xcbf2;
  It 0xa971 0xcbf3;
  It 0xa972 0xcbf4;
  It 0xa973 0xcbf5;
  It 0xa974 0xcbf6;
  It 0xa975 0xcbf7;
  It 0xa976 0xcbf8;
  It 0xa977 0xcbf9;
  It 0xa978 0xcbfa;
  It 0xa979 0xcbfb;
  It 0xa97a 0xcbfc;
  It 0xa981 0xcbfd;
  It 0xa982 0xcbfe;
  It 0xa983 0xcbff;
  It 0xa984 0xcc00;
  It 0xa985 0xcc01;
  It 0xa986 0xcc02;
  It 0xa987 0xcc03;
  It 0xa988 0xcc04;
  It 0xa989 0xcc05;
  It 0xa98a 0xcc06;
  It 0xa98b 0xcc07;
  It 0xa98c 0xcc08;
  It 0xa98d 0xcc09;
  It 0xa98e 0xcc0a;
  It 0xa98f 0xcc0b;
  It 0xa990 0xcc0e;
  It 0xa991 0xcc0f;
  It 0xa992 0xcc11;
  It 0xa993 0xcc12;
  It 0xa994 0xcc13;
  It 0xa995 0xcc15;
  It 0xa996 0xcc16;
  It 0xa997 0xcc17;
  It 0xa998 0xcc18;
  It 0xa999 0xcc19;
  It 0xa99a 0xcc1a;
  It 0xa99b 0xcc1b;
  It 0xa99c 0xcc1e;
  It 0xa99d 0xcc1f;
  It 0xa99e 0xcc20;
  It 0xa99f 0xcc23;
  It 0xa9a0 0xcc24;
  It 0xa9a1 0x00e6;
  It 0xa9a2 0x0111;
  It 0xa9a3 0x00f0;
  It 0xa9a4 0x0127;
  It 0xa9a5 0x0131;
  It 0xa9a6 0x0133;
  It 0xa9a7 0x0138;
  It 0xa9a8 0x0140;
  It 0xa9a9 0x0142;
  It 0xa9aa 0x00f8;
  It 0xa9ab 0x0153;
  It 0xa9ac 0x00df;
  It 0xa9ad 0x00fe;
  It 0xa9ae 0x0167;
  It 0xa9af 0x014b;
  It 0xa9b0 0x0149;
  It 0xa9b1 0x3200;
  It 0xa9b2 0x3201;
  It 0xa9b3 0x3202;
  It 0xa9b4 0x3203;
  It 0xa9b5 0x3204;
  It 0xa9b6 0x3205;
  It 0xa9b7 0x3206;
  It 0xa9b8 0x3207;
  It 0xa9b9 0x3208;
  It 0xa9ba 0x3209;
  It 0xa9bb 0x320a;
  It 0xa9bc 0x320b;
  It 0xa9bd 0x320c;
  It 0xa9be 0x320d;
  It 0xa9bf 0x320e;
  It 0xa9c0 0x320f;
  It 0xa9c1 0x3210;
  It 0xa9c2 0x3211;
  It 0xa9c3 0x3212;
  It 0xa9c4 0x3213;
  It 0xa9c5 0x3214;
  It 0xa9c6 0x3215;
  It 0xa9c7 0x3216;
  It 0xa9c8 0x3217;
  It 0xa9c9 0x3218;
  It 0xa9ca 0x3219;
  It 0xa9cb 0x321a;
  It 0xa9cc 0x321b;
  It 0xa9cd 0x249c;
  It 0xa9ce 0x249d;
  It 0xa9cf 0x249e;
  It 0xa9d0 0x249f;
  It 0xa9d1 0x24a0;
  It 0xa9d2 0x24a1;
  It 0xa9d3 0x24a2;
  It 0xa9d4 0x24a3;
  It 0xa9d5 0x24a4;
  It 0xa9d6 0x24a5;
  It 0xa9d7 0x24a6;
  It 0xa9d8 0x24a7;
  It 0xa9d9 0x24a8;
  It 0xa9da 0x24a9;
  It 0xa9db 0x24aa;
  It 0xa9dc 0x24ab;
  It 0xa9dd 0x24ac;
  It 0xa9de 0x24ad;
  It 0xa9df 0x24ae;
  It 0xa9e0 0x24af;
  It 0xa9e1 0x24b0;
  It 0xa9e2 0x24b1;
  It 0xa9e3 0x24b2;
  It 0xa9e4 0x24b3;
  It 0xa9e5 0x24b4;
  It 0xa9e6 0x24b5;
  It 0xa9e7 0x2474;
  It 0xa9e8 0x2475;
  It 0xa9e9 0x2476;
  It 0xa9ea 0x2477;
  It 0xa9eb 0x2478;
  It 0xa9ec 0x2479;
  It 0xa9ed 0x247a;
  It 0xa9ee 0x247b;
  It 0xa9ef 0x247c;
  It 0xa9f0 0x247d;
  It 0xa9f1 0x247e;
  It 0xa9f2 0x247f;
  It 0xa9f3 0x2480;
  It 0xa9f4 0x2481;
  It 0xa9f5 0x2482;
  It 0xa9f6 0x00b9;
  It 0xa9f7 0x00b2;
  It 0xa9f8 0x00b3;
  It 0xa9f9 0x2074;
  It 0xa9fa 0x207f;
  It 0xa9fb 0x2081;
  It 0xa9fc 0x2082;
  It 0xa9fd 0x2083;
  It 0xa9fe 0x2084;
  It 0xaa41 0xcc25;
  It 0xaa42 0xcc26;
  It 0xaa43 0xcc2a;
  It 0xaa44 0xcc2b;
  It 0xaa45 0xcc2d;
  It 0xaa46 0xcc2f;
  It 0xaa47 0xcc31;
  It 0xaa48 0xcc32;
  It 0xaa49 0xcc33;
  It 0xaa4a 0xcc34;
  It 0xaa4b 0xcc35;
  It 0xaa4c 0xcc36;
  It 0xaa4d 0xcc37;
  It 0xaa4e 0xcc3a;
  It 0xaa4f 0xcc3f;
  It 0xaa50 0xcc40;
  It 0xaa51 0xcc41;
  It 0xaa52 0xcc42;
  It 0xaa53 0xcc43;
  It 0xaa54 0xcc46;
  It 0xaa55 0xcc47;
  It 0xaa56 0xcc49;
  It 0xaa57 0xcc4a;
  It 0xaa58 0xcc4b;
  It 0xaa59 0xcc4d;
  It 0xaa5a 0xcc4e;
  It 0xaa61 0xcc4f;
  It 0xaa62 0xcc50;
  It 0xaa63 0xcc51;
  It 0xaa64 0xcc52;
  It 0xaa65 0xcc53;
  It 0xaa66 0xcc56;
  It 0xaa67 0xcc5a;
  It 0xaa68 0xcc5b;
  It 0xaa69 0xcc5c;
  It 0xaa6a 0xcc5d;
  It 0xaa6b 0xcc5e;
  It 0xaa6c 0xcc5f;
  It 0xaa6d 0xcc61;
  It 0xaa6e 0xcc62;
  It 0xaa6f 0xcc63;
  It 0xaa70 0xcc65;
  It 0xaa71 0xcc67;
  It 0xaa72 0xcc69;
  It 0xaa73 0xcc6a
].

(* encoding/cp949/lookup_from.go:7259-7508 *)
Definition fromTable_029 : list lookupItem := [
  It 0xaa74 0xcc6b;
  It 0xaa75 0xcc6c;
  It 0xaa76 0xcc6d;
  It 0xaa77 0xcc6e;
  It 0xaa78 0xcc6f;
  It 0xaa79 0xcc71;
  It 0xaa7a 0xcc72;
  It 0xaa81 0xcc73;
  It 0xaa82 0xcc74;
  It 0xaa83 0xcc76;
  It 0xaa84 0xcc77;
  It 0xaa85 0xcc78;
  It 0xaa86 0xcc79;
  It 0xaa87 0xcc7a;
  It 0xaa88 0xcc7b;
  It 0xaa89 0xcc7c;
  It 0xaa8a 0xcc7d;
  It 0xaa8b 0xcc7e;
  It 0xaa8c 0xcc7f;
  It 0xaa8d 0xcc80;
  It 0xaa8e 0xcc81;
  It 0xaa8f 0xcc82;
  It 0xaa90 0xcc83;
  It 0xaa91 0xcc84;
  It 0xaa92 0xcc85;
  It 0xaa93 0xcc86;
  It 0xaa94 0xcc87;
  It 0xaa95 0xcc88;
  It 0xaa96 0xcc89;
  It 0xaa97 0xcc8a;
  It 0xaa98 0xcc8b;
  It 0xaa99 0xcc8c;
  It 0xaa9a 0xcc8d;
  It 0xaa9b 0xcc8e;
  It 0xaa9c 0xcc8f;
  It 0xaa9d 0xcc90;
  It 0xaa9e 0xcc91;
  It 0xaa9f 0xcc92;
  It 0xaaa0 0xcc93;
  It 0xaaa1 0x3041;
  It 0xaaa2 0x3042;
  It 0xaaa3 0x3043;
  It 0xaaa4 0x3044;
  It 0xaaa5 0x3045;
  It 0xaaa6 0x3046;
  It 0xaaa7 0x3047;
  It 0xaaa8 0x3048;
  It 0xaaa9 0x3049;
  It 0xaaaa 0x304a;
  It 0xaaab 0x304b;
  It 0xaaac 0x304c;
  It 0xaaad 0x304d;
  It 0xaaae 0x304e;
  It 0xaaaf 0x304f;
  It 0xaab0 0x3050;
  It 0xaab1 0x3051;
  It 0xaab2 0x3052;
  It 0xaab3 0x3053;
  It 0xaab4 0x3054;
  It 0xaab5 0x3055;
  It 0xaab6 0x3056;
  It 0xaab7 0x3057;
  It 0xaab8 0x3058;
  It 0xaab9 0x3059;
  It 0xaaba 0x305a;
  It 0xaabb 0x305b;
  It 0xaabc 0x305c;
  It 0xaabd 0x305d;
  It 0xaabe 0x305e;
  It 0xaabf 0x305f;
  It 0xaac0 0x3060;
  It 0xaac1 0x3061;
  It 0xaac2 0x3062;
  It 0xaac3 0x3063;
  It 0xaac4 0x3064;
  It 0xaac5 0x3065;
  It 0xaac6 0x3066;
  It 0xaac7 0x3067;
  It 0xaac8 0x3068;
  It 0xaac9 0x3069;
  It 0xaaca 0x306a;
  It 0xaacb 0x306b;
  It 0xaacc 0x306c;
  It 0xaacd 0x306d;
  It 0xaace 0x306e;
  It 0xaacf 0x306f;
  It 0xaad0 0x3070;
  It 0xaad1 0x3071;
  It 0xaad2 0x3072;
  It 0xaad3 0x3073;
  It 0xaad4 0x3074;
  It 0xaad5 0x3075;
  It 0xaad6 0x3076;
  It 0xaad7 0x3077;
  It 0xaad8 0x3078;
  It 0xaad9 0x3079;
  It 0xaada 0x307a;
  It 0xaadb 0x307b;
  It 0xaadc 0x307c;
  It 0xaadd 0x307d;
  It 0xaade 0x307e;
  It 0xaadf 0x307f;
  It 0xaae0 0x3080;
  It 0xaae1 0x3081;
  It 0xaae2 0x3082;
  It 0xaae3 0x3083;
  It 0xaae4 0x3084;
  It 0xaae5 0x3085;
  It 0xaae6 0x3086;
  It 0xaae7 0x3087;
  It 0xaae8 0x3088;
  It 0xaae9 0x3089;
  It 0xaaea 0x308a;
  It 0xaaeb 0x308b;
  It 0xaaec 0x308c;
  It 0xaaed 0x308d;
  It 0xaaee 0x308e;
  It 0xaaef 0x308f;
  It 0xaaf0 0x3090;
  It 0xaaf1 0x3091;
  It 0xaaf2 0x3092;
  It 0xaaf3 0x3093;
  It 0xab41 0xcc94;
  It 0xab42 0xcc95;
  It 0xab43 0xcc96;
  It 0xab44 0xcc97;
  It 0xab45 0xcc9a;
  It 0xab46 0xcc9b;
  It 0xab47 0xcc9d;
  It 0xab48 0xcc9e;
  It 0xab49 0xcc9f;
  It 0xab4a 0xcca1;
  It 0xab4b 0xcca2;
  It 0xab4c 0xcca3;
  It 0xab4d 0xcca4;
  It 0xab4e 0xcca5;
  It 0xab4f 0xcca6;
  It 0xab50 0xcca7;
  It 0xab51 0xccaa;
  It 0xab52 0xccae;
  It 0xab53 0xccaf;
  It 0xab54 0xccb0;
  It 0xab55 0xccb1;
  It 0xab56 0xccb2;
  It 0xab57 0xccb3;
  It 0xab58 0xccb6;
  It 0xab59 0xccb7;
  It 0xab5a 0xccb9;
  It 0xab61 0xccba;
  It 0xab62 0xccbb;
  It 0xab63 0xccbd;
  It 0xab64 0xccbe;
  It 0xab65 0xccbf;
  It 0xab66 0xccc0;
  It 0xab67 0xccc1;
  It 0xab68 0xccc2;
  It 0xab69 0xccc3;
  It 0xab6a 0xccc6;
  It 0xab6b 0xccc8;
  It 0xab6c 0xccca;
  It 0xab6d 0xcccb;
  It 0xab6e 0xcccc;
  It 0xab6f 0xcccd;
  It 0xab70 0xccce;
  It 0xab71 0xcccf;
  It 0xab72 0xccd1;
  It 0xab73 0xccd2;
  It 0xab74 0xccd3;
  It 0xab75 0xccd5;
  It 0xab76 0xccd6;
  It 0xab77 0xccd7;
  It 0xab78 0xccd8;
  It 0xab79 0xccd9;
  It 0xab7a 0xccda;
  It 0xab81 0xccdb;
  It 0xab82 0xccdc;
  It 0xab83 0xccdd;
  It 0xab84 0xccde;
  It 0xab85 0xccdf;
  It 0xab86 0xcce0;
  It 0xab87 0xcce1;
  It 0xab88 0xcce2;
  It 0xab89 0xcce3;
  It 0xab8a 0xcce5;
  It 0xab8b 0xcce6;
  It 0xab8c 0xcce7;
  It 0xab8d 0xcce8;
  It 0xab8e 0xcce9;
  It 0xab8f 0xccea;
  It 0xab90 0xcceb;
  It 0xab91 0xcced;
  It 0xab92 0xccee;
  It 0xab93 0xccef;
  It 0xab94 0xccf1;
  It 0xab95 0xccf2;
  It 0xab96 0xccf3;
  It 0xab97 0xccf4;
  It 0xab98 0xccf5;
  It 0xab99 0xccf6;
  It 0xab9a 0xccf7;
  It 0xab9b 0xccf8;
  It 0xab9c 0xccf9;
  It 0xab9d 0xccfa;
  It 0xab9e 0xccfb;
  It 0xab9f 0xccfc;
  It 0xaba0 0xccfd;
  It 0xaba1 0x30a1;
  It 0xaba2 0x30a2;
  It 0xaba3 0x30a3;
  It 0xaba4 0x30a4;
  It 0xaba5 0x30a5;
  It 0xaba6 0x30a6;
  It 0xaba7 0x30a7;
  It 0xaba8 0x30a8;
  It 0xaba9 0x30a9;
  It 0xabaa 0x30aa;
  It 0xabab 0x30ab;
  It 0xabac 0x30ac;
  It 0xabad 0x30ad;
  It 0xabae 0x30ae;
  It 0xabaf 0x30af;
  It 0xabb0 0x30b0;
  It 0xabb1 0x30b1;
  It 0xabb2 0x30b2;
  It 0xabb3 0x30b3;
  It 0xabb4 0x30b4;
  It 0xabb5 0x30b5;
  It 0xabb6 0x30b6;
  It 0xabb7 0x30b7;
  It 0xabb8 0x30b8;
  It 0xabb9 0x30b9;
  It 0xabba 0x30ba;
  It 0xabbb 0x30bb;
  It 0xabbc 0x30bc;
  It 0xabbd 0x30bd;
  It 0xabbe 0x30be;
  It 0xabbf 0x30bf;
  It 0xabc0 0x30c0;
  It 0xabc1 0x30c1;
  It 0xabc2 0x30c2;
  It 0xabc3 0x30c3;
  It 0xabc4 0x30c4;
  It 0xabc5 0x30c5;
  It 0xabc6 0x30c6;
  It 0xabc7 0x30c7;
  It 0xabc8 0x30c8;
  It 0xabc9 0x30c9;
  It 0xabca 0x30ca;
  It 0xabcb 0x30cb;
  It 0xabcc 0x30cc
].

(* encoding/cp949/lookup_from.go:7509-7758 *)
Definition fromTable_030 : list lookupItem := [
  It 0xabcd 0x30cd;
  It 0xabce 0x30ce;
  It 0xabcf 0x30cf;
  It 0xabd0 0x30d0;
  It 0xabd1 0x30d1;
  It 0xabd2 0x30d2;
  It 0xabd3 0x30d3;
  It 0xabd4 0x30d4;
  It 0xabd5 0x30d5;
  It 0xabd6 0x30d6;
  It 0xabd7 0x30d7;
  It 0xabd8 0x30d8;
  It 0xabd9 0x30d9;
  It 0xabda 0x30da;
  It 0xabdb 0x30db;
  It 0xabdc 0x30dc;
  It 0xabdd 0x30dd;
  It 0xabde 0x30de;
  It 0xabdf 0x30df;
  It 0xabe0 0x30e0;
  It 0xabe1 0x30e1;
  It 0xabe2 0x30e2;
  It 0xabe3 0x30e3;
  It 0xabe4 0x30e4;
  It 0xabe5 0x30e5;
  It 0xabe6 0x30e6;
  It 0xabe7 0x30e7;
  It 0xabe8 0x30e8;
  It 0xabe9 0x30e9;
  It 0xabea 0x30ea;
  It 0xabeb 0x30eb;
  It 0xabec 0x30ec;
  It 0xabed 0x30ed;
  It 0xabee 0x30ee;
  It 0xabef 0x30ef;
  It 0xabf0 0x30f0;
  It 0xabf1 0x30f1;
  It 0xabf2 0x30f2;
  It 0xabf3 0x30f3;
  It 0xabf4 0x30f4;
  It 0xabf5 0x30f5;
  It 0xabf6 0x30f6;
  It 0xac41 0xccfe;
  It 0xac42 0xccff;
  It 0xac43 0xcd00;
  It 0xac44 0xcd02;
  It 0xac45 0xcd03;
  It 0xac46 0xcd04;
  It 0xac47 0xcd05;
  It 0xac48 0xcd06;
  It 0xac49 0xcd07;
  It 0xac4a 0xcd0a;
  It 0xac4b 0xcd0b;
  It 0xac4c 0xcd0d;
  It 0xac4d 0xcd0e;
  It 0xac4e 0xcd0f;
  It 0xac4f 0xcd11;
  It 0xac50 0xcd12;
  It 0xac51 0xcd13;
  It 0xac52 0xcd14;
  It 0xac53 0xcd15;
  It 0xac54 0xcd16;
  It 0xac55 0xcd17;
  It 0xac56 0xcd1a;
  It 0xac57 0xcd1c;
  It 0xac58 0xcd1e;
  It 0xac59 0xcd1f;
  It 0xac5a 0xcd20;
  It 0xac61 0xcd21;
  It 0xac62 0xcd22;
  It 0xac63 0xcd23;
  It 0xac64 0xcd25;
  It 0xac65 0xcd26;
  It 0xac66 0xcd27;
  It 0xac67 0xcd29;
  It 0xac68 0xcd2a;
  It 0xac69 0xcd2b;
  It 0xac6a 0xcd2d;
  It 0xac6b 0xcd2e;
  It 0xac6c 0xcd2f;
  It 0xac6d 0xcd30;
  It 0xac6e 0xcd31;
  It 0xac6f 0xcd32;
  It 0xac70 0xcd33;
  It 0xac71 0xcd34;
  It 0xac72 0xcd35;
  It 0xac73 0xcd36;
  It 0xac74 0xcd37;
  It 0xac75 0xcd38;
  It 0xac76 0xcd3a;
  It 0xac77 0xcd3b;
  It 0xac78 0xcd3c;
  It 0xac79 0xcd3d;
  It 0xac7a 0xcd3e;
  It 0xac81 0xcd3f;
  It 0xac82 0xcd40;
  It 0xac83 0xcd41;
  It 0xac84 0xcd42;
  It 0xac85 0xcd43;
  It 0xac86 0xcd44;
  It 0xac87 0xcd45;
  It 0xac88 0xcd46;
  It 0xac89 0xcd47;
  It 0xac8a 0xcd48;
  It 0xac8b 0xcd49;
  It 0xac8c 0xcd4a;
  It 0xac8d 0xcd4b;
  It 0xac8e 0xcd4c;
  It 0xac8f 0xcd4d;
  It 0xac90 0xcd4e;
  It 0xac91 0xcd4f;
  It 0xac92 0xcd50;
  It 0xac93 0xcd51;
  It 0xac94 0xcd52;
  It 0xac95 0xcd53;
  It 0xac96 0xcd54;
  It 0xac97 0xcd55;
  It 0xac98 0xcd56;
  It 0xac99 0xcd57;
  It 0xac9a 0xcd58;
  It 0xac9b 0xcd59;
  It 0xac9c 0xcd5a;
  It 0xac9d 0xcd5b;
  It 0xac9e 0xcd5d;
  It 0xac9f 0xcd5e;
  It 0xaca0 0xcd5f;
  It 0xaca1 0x0410;
  It 0xaca2 0x0411;
  It 0xaca3 0x0412;
  It 0xaca4 0x0413;
  It 0xaca5 0x0414;
  It 0xaca6 0x0415;
  It 0xaca7 0x0401;
  It 0xaca8 0x0416;
  It 0xaca9 0x0417;
  It 0xacaa 0x0418;
  It 0xacab 0x0419;
  It 0xacac 0x041a;
  It 0xacad 0x041b;
  It 0xacae 0x041c;
  It 0xacaf 0x041d;
  It 0xacb0 0x041e;
  It 0xacb1 0x041f;
  It 0xacb2 0x0420;
  It 0xacb3 0x0421;
  It 0xacb4 0x0422;
  It 0xacb5 0x0423;
  It 0xacb6 0x0424;
  It 0xacb7 0x0425;
  It 0xacb8 0x0426;
  It 0xacb9 0x0427;
  It 0xacba 0x0428;
  It 0xacbb 0x0429;
  It 0xacbc 0x042a;
  It 0xacbd 0x042b;
  It 0xacbe 0x042c;
  It 0xacbf 0x042d;
  It 0xacc0 0x042e;
  It 0xacc1 0x042f;
  It 0xacd1 0x0430;
  It 0xacd2 0x0431;
  It 0xacd3 0x0432;
  It 0xacd4 0x0433;
  It 0xacd5 0x0434;
  It 0xacd6 0x0435;
  It 0xacd7 0x0451;
  It 0xacd8 0x0436;
  It 0xacd9 0x0437;
  It 0xacda 0x0438;
  It 0xacdb 0x0439;
  It 0xacdc 0x043a;
  It 0xacdd 0x043b;
  It 0xacde 0x043c;
  It 0xacdf 0x043d;
  It 0xace0 0x043e;
  It 0xace1 0x043f;
  It 0xace2 0x0440;
  It 0xace3 0x0441;
  It 0xace4 0x0442;
  It 0xace5 0x0443;
  It 0xace6 0x0444;
  It 0xace7 0x0445;
  It 0xace8 0x0446;
  It 0xace9 0x0447;
  It 0xacea 0x0448;
  It 0xaceb 0x0449;
  It 0xacec 0x044a;
  It 0xaced 0x044b;
  It 0xacee 0x044c;
  It 0xacef 0x044d;
  It 0xacf0 0x044e;
  It 0xacf1 0x044f;
  It 0xad41 0xcd61;
  It 0xad42 0xcd62;
  It 0xad43 0xcd63;
  It 0xad44 0xcd65;
  It 0xad45 0xcd66;
  It 0xad46 0xcd67;
  It 0xad47 0xcd68;
  It 0xad48 0xcd69;
  It 0xad49 0xcd6a;
  It 0xad4a 0xcd6b;
  It 0xad4b 0xcd6e;
  It 0xad4c 0xcd70;
  It 0xad4d 0xcd72;
  It 0xad4e 0xcd73;
  It 0xad4f 0xcd74;
  It 0xad50 0xcd75;
  It 0xad51 0xcd76;
  It 0xad52 0xcd77;
  It 0xad53 0xcd79;
  It 0xad54 0xcd7a;
  It 0xad55 0xcd7b;
  It 0xad56 0xcd7c;
  It 0xad57 0xcd7d;
  It 0xad58 0xcd7e;
  It 0xad59 0xcd7f;
  It 0xad5a 0xcd80;
  It 0xad61 0xcd81;
  It 0xad62 0xcd82;
  It 0xad63 0xcd83;
  It 0xad64 0xcd84;
  It 0xad65 0xcd85;
  It 0xad66 0xcd86;
  It 0xad67 0xcd87;
  It 0xad68 0xcd89;
  It 0xad69 0xcd8a;
  It 0xad6a 0xcd8b;
  It 0xad6b 0xcd8c;
  It 0xad6c 0xcd8d;
  It 0xad6d 0xcd8e;
  It 0xad6e 0xcd8f;
  It 0xad6f 0xcd90;
  It 0xad70 0xcd91;
  It 0xad71 0xcd92;
  It 0xad72 0xcd93;
  It 0xad73 0xcd96;
  It 0xad74 0xcd97;
  It 0xad75 0xcd99;
  It 0xad76 0xcd9a;
  It 0xad77 0xcd9b;
  It 0xad78 0xcd9d;
  It 0xad79 0xcd9e;
  It 0xad7a 0xcd9f;
  It 0xad81 0xcda0;
  It 0xad82 0xcda1;
  It 0xad83 0xcda2;
  It 0xad84 0xcda3;
  It 0xad85 0xcda6;
  It 0xad86 0xcda8
].

(* encoding/cp949/lookup_from.go:7759-8008 *)
Definition fromTable_031 : list lookupItem := [
  It 0xad87 0xcdaa;
  It 0xad88 0xcdab;
  It 0xad89 0xcdac;
  It 0xad8a 0xcdad;
  It 0xad8b 0xcdae;
  It 0xad8c 0xcdaf;
  It 0xad8d 0xcdb1;
  It 0xad8e 0xcdb2;
  It 0xad8f 0xcdb3;
  It 0xad90 0xcdb4;
  It 0xad91 0xcdb5;
  It 0xad92 0xcdb6;
  It 0xad93 0xcdb7;
  It 0xad94 0xcdb8;
  It 0xad95 0xcdb9;
  It 0xad96 0xcdba;
  It 0xad97 0xcdbb;
  It 0xad98 0xcdbc;
  It 0xad99 0xcdbd;
  It 0xad9a 0xcdbe;
  It 0xad9b 0xcdbf;
  It 0xad9c 0xcdc0;
  It 0xad9d 0xcdc1;
  It 0xad9e 0xcdc2;
  It 0xad9f 0xcdc3;
  It 0xada0 0xcdc5;
  It 0xae41 0xcdc6;
  It 0xae42 0xcdc7;
  It 0xae43 0xcdc8;
  It 0xae44 0xcdc9;
  It 0xae45 0xcdca;
  It 0xae46 0xcdcb;
  It 0xae47 0xcdcd;
  It 0xae48 0xcdce;
  It 0xae49 0xcdcf;
  It 0xae4a 0xcdd1;
  It 0xae4b 0xcdd2;
  It 0xae4c 0xcdd3;
  It 0xae4d 0xcdd4;
  It 0xae4e 0xcdd5;
  It 0xae4f 0xcdd6;
  It 0xae50 0xcdd7;
  It 0xae51 0xcdd8;
  It 0xae52 0xcdd9;
  It 0xae53 0xcdda;
  It 0xae54 0xcddb;
  It 0xae55 0xcddc;
  It 0xae56 0xcddd;
  It 0xae57 0xcdde;
  It 0xae58 0xcddf;
  It 0xae59 0xcde0;
  It 0xae5a 0xcde1;
  It 0xae61 0xcde2;
  It 0xae62 0xcde3;
  It 0xae63 0xcde4;
  It 0xae64 0xcde5;
  It 0xae65 0xcde6;
  It 0xae66 0xcde7;
  It 0xae67 0xcde9;
  It 0xae68 0xcdea;
  It 0xae69 0xcdeb;
  It 0xae6a 0xcded;
  It 0xae6b 0xcdee;
  It 0xae6c 0xcdef;
  It 0xae6d 0xcdf1;
  It 0xae6e 0xcdf2;
  It 0xae6f 0xcdf3;
  It 0xae70 0xcdf4;
  It 0xae71 0xcdf5;
  It 0xae72 0xcdf6;
  It 0xae73 0xcdf7;
  It 0xae74 0xcdfa;
  It 0xae75 0xcdfc;
  It 0xae76 0xcdfe;
  It 0xae77 0xcdff;
  It 0xae78 0xce00;
  It 0xae79 0xce01;
  It 0xae7a 0xce02;
  It 0xae81 0xce03;
  It 0xae82 0xce05;
  It 0xae83 0xce06;
  It 0xae84 0xce07;
  It 0xae85 0xce09;
  It 0xae86 0xce0a;
  It 0xae87 0xce0b;
  It 0xae88 0xce0d;
  It 0xae89 0xce0e;
  It 0xae8a 0xce0f;
  It 0xae8b 0xce10;
  It 0xae8c 0xce11;
  It 0xae8d 0xce12;
  It 0xae8e 0xce13;
  It 0xae8f 0xce15;
  It 0xae90 0xce16;
  It 0xae91 0xce17;
  It 0xae92 0xce18;
  It 0xae93 0xce1a;
  It 0xae94 0xce1b;
  It 0xae95 0xce1c;
  It 0xae96 0xce1d;
  It 0xae97 0xce1e;
  It 0xae98 0xce1f;
  It 0xae99 0xce22;
  It 0xae9a 0xce23;
  It 0xae9b 0xce25;
  It 0xae9c 0xce26;
  It 0xae9d 0xce27;
  It 0xae9e 0xce29;
  It 0xae9f 0xce2a;
  It 0xaea0 0xce2b;
  It 0xaf41 0xce2c;
  It 0xaf42 0xce2d;
  It 0xaf43 0xce2e;
  It 0xaf44 0xce2f;
  It 0xaf45 0xce32;
  It 0xaf46 0xce34;
  It 0xaf47 0xce36;
  It 0xaf48 0xce37;
  It 0xaf49 0xce38;
  It 0xaf4a 0xce39;
  It 0xaf4b 0xce3a;
  It 0xaf4c 0xce3b;
  It 0xaf4d 0xce3c;
  It 0xaf4e 0xce3d;
  It 0xaf4f 0xce3e;
  It 0xaf50 0xce3f;
  It 0xaf51 0xce40;
  It 0xaf52 0xce41;
  It 0xaf53 0xce42;
  It 0xaf54 0xce43;
  It 0xaf55 0xce44;
  It 0xaf56 0xce45;
  It 0xaf57 0xce46;
  It 0xaf58 0xce47;
  It 0xaf59 0xce48;
  It 0xaf5a 0xce49;
  It 0xaf61 0xce4a;
  It 0xaf62 0xce4b;
  It 0xaf63 0xce4c;
  It 0xaf64 0xce4d;
  It 0xaf65 0xce4e;
  It 0xaf66 0xce4f;
  It 0xaf67 0xce50;
  It 0xaf68 0xce51;
  It 0xaf69 0xce52;
  It 0xaf6a 0xce53;
  It 0xaf6b 0xce54;
  It 0xaf6c 0xce55;
  It 0xaf6d 0xce56;
  It 0xaf6e 0xce57;
  It 0xaf6f 0xce5a;
  It 0xaf70 0xce5b;
  It 0xaf71 0xce5d;
  It 0xaf72 0xce5e;
  It 0xaf73 0xce62;
  It 0xaf74 0xce63;
  It 0xaf75 0xce64;
  It 0xaf76 0xce65;
  It 0xaf77 0xce66;
  It 0xaf78 0xce67;
  It 0xaf79 0xce6a;
  It 0xaf7a 0xce6c;
  It 0xaf81 0xce6e;
  It 0xaf82 0xce6f;
  It 0xaf83 0xce70;
  It 0xaf84 0xce71;
  It 0xaf85 0xce72;
  It 0xaf86 0xce73;
  It 0xaf87 0xce76;
  It 0xaf88 0xce77;
  It 0xaf89 0xce79;
  It 0xaf8a 0xce7a;
  It 0xaf8b 0xce7b;
  It 0xaf8c 0xce7d;
  It 0xaf8d 0xce7e;
  It 0xaf8e 0xce7f;
  It 0xaf8f 0xce80;
  It 0xaf90 0xce81;
  It 0xaf91 0xce82;
  It 0xaf92 0xce83;
  It 0xaf93 0xce86;
  It 0xaf94 0xce88;
  It 0xaf95 0xce8a;
  It 0xaf96 0xce8b;
  It 0xaf97 0xce8c;
  It 0xaf98 0xce8d;
  It 0xaf99 0xce8e;
  It 0xaf9a 0xce8f;
  It 0xaf9b 0xce92;
  It 0xaf9c 0xce93;
  It 0xaf9d 0xce95;
  It 0xaf9e 0xce96;
  It 0xaf9f 0xce97;
  It 0xafa0 0xce99;
  It 0xb041 0xce9a;
  It 0xb042 0xce9b;
  It 0xb043 0xce9c;
  It 0xb044 0xce9d;
  It 0xb045 0xce9e;
  It 0xb046 0xce9f;
  It 0xb047 0xcea2;
  It 0xb048 0xcea6;
  It 0xb049 0xcea7;
  It 0xb04a 0xcea8;
  It 0xb04b 0xcea9;
  It 0xb04c 0xceaa;
  It 0xb04d 0xceab;
  It 0xb04e 0xceae;
  It 0xb04f 0xceaf;
  It 0xb050 0xceb0;
  It 0xb051 0xceb1;
  It 0xb052 0xceb2;
  It 0xb053 0xceb3;
  It 0xb054 0xceb4;
  It 0xb055 0xceb5;
  It 0xb056 0xceb6;
  It 0xb057 0xceb7;
  It 0xb058 0xceb8;
  It 0xb059 0xceb9;
  It 0xb05a 0xceba;
  It 0xb061 0xcebb;
  It 0xb062 0xcebc;
  It 0xb063 0xcebd;
  It 0xb064 0xcebe;
  It 0xb065 0xcebf;
  It 0xb066 0xcec0;
  It 0xb067 0xcec2;
  It 0xb068 0xcec3;
  It 0xb069 0xcec4;
  It 0xb06a 0xcec5;
  It 0xb06b 0xcec6;
  It 0xb06c 0xcec7;
  It 0xb06d 0xcec8;
  It 0xb06e 0xcec9;
  It 0xb06f 0xceca;
  It 0xb070 0xcecb;
  It 0xb071 0xcecc;
  It 0xb072 0xcecd;
  It 0xb073 0xcece;
  It 0xb074 0xcecf;
  It 0xb075 0xced0;
  It 0xb076 0xced1;
  It 0xb077 0xced2;
  It 0xb078 0xced3;
  It 0xb079 0xced4;
  It 0xb07a 0xced5;
  It 0xb081 0xced6;
  It 0xb082 0xced7;
  It 0xb083 0xced8;
  It 0xb084 0xced9
].

(* encoding/cp949/lookup_from.go:8009-8258 *)
Definition fromTable_032 : list lookupItem := [
  It 0xb085 0xceda;
  It 0xb086 0xcedb;
  It 0xb087 0xcedc;
  It 0xb088 0xcedd;
  It 0xb089 0xcede;
  It 0xb08a 0xcedf;
  It 0xb08b 0xcee0;
  It 0xb08c 0xcee1;
  It 0xb08d 0xcee2;
  It 0xb08e 0xcee3;
  It 0xb08f 0xcee6;
  It 0xb090 0xcee7;
  It 0xb091 0xcee9;
  It 0xb092 0xceea;
  It 0xb093 0xceed;
  It 0xb094 0xceee;
  It 0xb095 0xceef;
  It 0xb096 0xcef0;
  It 0xb097 0xcef1;
  It 0xb098 0xcef2;
  It 0xb099 0xcef3;
  It 0xb09a 0xcef6;
  It 0xb09b 0xcefa;
  It 0xb09c 0xcefb;
  It 0xb09d 0xcefc;
  It 0xb09e 0xcefd;
  It 0xb09f 0xcefe;
  It 0xb0a0 0xceff;
  It 0xb0a1 0xac00;
  It 0xb0a2 0xac01;
  It 0xb0a3 0xac04;
  It 0xb0a4 0xac07;
  It 0xb0a5 0xac08;
  It 0xb0a6 0xac09;
  It 0xb0a7 0xac0a;
  It 0xb0a8 0xac10;
  It 0xb0a9 0xac11;
  It 0xb0aa 0xac12;
  It 0xb0ab 0xac13;
  It 0xb0ac 0xac14;
  It 0xb0ad 0xac15;
  It 0xb0ae 0xac16;
  It 0xb0af 0xac17;
  It 0xb0b0 0xac19;
  It 0xb0b1 0xac1a;
  It 0xb0b2 0xac1b;
  It 0xb0b3 0xac1c;
  It 0xb0b4 0xac1d;
  It 0xb0b5 0xac20;
  It 0xb0b6 0xac24;
  It 0xb0b7 0xac2c;
  It 0xb0b8 0xac2d;
  It 0xb0b9 0xac2f;
  It 0xb0ba 0xac30;
  It 0xb0bb 0xac31;
  It 0xb0bc 0xac38;
  It 0xb0bd 0xac39;
  It 0xb0be 0xac3c;
  It 0xb0bf 0xac40;
  It 0xb0c0 0xac4b;
  It 0xb0c1 0xac4d;
  It 0xb0c2 0xac54;
  It 0xb0c3 0xac58;
  It 0xb0c4 0xac5c;
  It 0xb0c5 0xac70;
  It 0xb0c6 0xac71;
  It 0xb0c7 0xac74;
  It 0xb0c8 0xac77;
  It 0xb0c9 0xac78;
  It 0xb0ca 0xac7a;
  It 0xb0cb 0xac80;
  It 0xb0cc 0xac81;
  It 0xb0cd 0xac83;
  It 0xb0ce 0xac84;
  It 0xb0cf 0xac85;
  It 0xb0d0 0xac86;
  It 0xb0d1 0xac89;
  It 0xb0d2 0xac8a;
  It 0xb0d3 0xac8b;
  It 0xb0d4 0xac8c;
  It 0xb0d5 0xac90;
  It 0xb0d6 0xac94;
  It 0xb0d7 0xac9c;
  It 0xb0d8 0xac9d;
  It 0xb0d9 0xac9f;
  It 0xb0da 0xaca0;
  It 0xb0db 0xaca1;
  It 0xb0dc 0xaca8;
  It 0xb0dd 0xaca9;
  It 0xb0de 0xacaa;
  It 0xb0df 0xacac;
  It 0xb0e0 0xacaf;
  It 0xb0e1 0xacb0;
  It 0xb0e2 0xacb8;
  It 0xb0e3 0xacb9;
  It 0xb0e4 0xacbb;
  It 0xb0e5 0xacbc;
  It 0xb0e6 0xacbd;
  It 0xb0e7 0xacc1;
  It 0xb0e8 0xacc4;
  It 0xb0e9 0xacc8;
  It 0xb0ea 0xaccc;
  It 0xb0eb 0xacd5;
  It 0xb0ec 0xacd7;
  It 0xb0ed 0xace0;
  It 0xb0ee 0xace1;
  It 0xb0ef 0xace4;
  It 0xb0f0 0xace7;
  It 0xb0f1 0xace8;
  It 0xb0f2 0xacea;
  It 0xb0f3 0xacec;
  It 0xb0f4 0xacef;
  It 0xb0f5 0xacf0;
  It 0xb0f6 0xacf1;
  It 0xb0f7 0xacf3;
  It 0xb0f8 0xacf5;
  It 0xb0f9 0xacf6;
  It 0xb0fa 0xacfc;
  It 0xb0fb 0xacfd;
  It 0xb0fc 0xad00;
  It 0xb0fd 0xad04;
  It 0xb0fe 0xad06;
  It 0xb141 0xcf02;
  It 0xb142 0xcf03;
  It 0xb143 0xcf05;
  It 0xb144 0xcf06;
  It 0xb145 0xcf07;
  It 0xb146 0xcf09;
  It 0xb147 0xcf0a;
  It 0xb148 0xcf0b;
  It 0xb149 0xcf0c;
  It 0xb14a 0xcf0d;
  It 0xb14b 0xcf0e;
  It 0xb14c 0xcf0f;
  It 0xb14d 0xcf12;
  It 0xb14e 0xcf14;
  It 0xb14f 0xcf16;
  It 0xb150 0xcf17;
  It 0xb151 0xcf18;
  It 0xb152 0xcf19;
  It 0xb153 0xcf1a;
  It 0xb154 0xcf1b;
  It 0xb155 0xcf1d;
  It 0xb156 0xcf1e;
  It 0xb157 0xcf1f;
  It 0xb158 0xcf21;
  It 0xb159 0xcf22;
  It 0xb15a 0xcf23;
  It 0xb161 0xcf25;
  It 0xb162 0xcf26;
  It 0xb163 0xcf27;
  It 0xb164 0xcf28;
  It 0xb165 0xcf29;
  It 0xb166 0xcf2a;
  It 0xb167 0xcf2b;
  It 0xb168 0xcf2e;
  It 0xb169 0xcf32;
  It 0xb16a 0xcf33;
  It 0xb16b 0xcf34;
  It 0xb16c 0xcf35;
  It 0xb16d 0xcf36;
  It 0xb16e 0xcf37;
  It 0xb16f 0xcf39;
  It 0xb170 0xcf3a;
  It 0xb171 0xcf3b;
  It 0xb172 0xcf3c;
  It 0xb173 0xcf3d;
  It 0xb174 0xcf3e;
  It 0xb175 0xcf3f;
  It 0xb176 0xcf40;
  It 0xb177 0xcf41;
  It 0xb178 0xcf42;
  It 0xb179 0xcf43;
  It 0xb17a 0xcf44;
  It 0xb181 0xcf45;
  It 0xb182 0xcf46;
  It 0xb183 0xcf47;
  It 0xb184 0xcf48;
  It 0xb185 0xcf49;
  It 0xb186 0xcf4a;
  It 0xb187 0xcf4b;
  It 0xb188 0xcf4c;
  It 0xb189 0xcf4d;
  It 0xb18a 0xcf4e;
  It 0xb18b 0xcf4f;
  It 0xb18c 0xcf50;
  It 0xb18d 0xcf51;
  It 0xb18e 0xcf52;
  It 0xb18f 0xcf53;
  It 0xb190 0xcf56;
  It 0xb191 0xcf57;
  It 0xb192 0xcf59;
  It 0xb193 0xcf5a;
  It 0xb194 0xcf5b;
  It 0xb195 0xcf5d;
  It 0xb196 0xcf5e;
  It 0xb197 0xcf5f;
  It 0xb198 0xcf60;
  It 0xb199 0xcf61;
  It 0xb19a 0xcf62;
  It 0xb19b 0xcf63;
  It 0xb19c 0xcf66;
  It 0xb19d 0xcf68;
  It 0xb19e 0xcf6a;
  It 0xb19f 0xcf6b;
  It 0xb1a0 0xcf6c;
  It 0xb1a1 0xad0c;
  It 0xb1a2 0xad0d;
  It 0xb1a3 0xad0f;
  It 0xb1a4 0xad11;
  It 0xb1a5 0xad18;
  It 0xb1a6 0xad1c;
  It 0xb1a7 0xad20;
  It 0xb1a8 0xad29;
  It 0xb1a9 0xad2c;
  It 0xb1aa 0xad2d;
  It 0xb1ab 0xad34;
  It 0xb1ac 0xad35;
  It 0xb1ad 0xad38;
  It 0xb1ae 0xad3c;
  It 0xb1af 0xad44;
  It 0xb1b0 0xad45;
  It 0xb1b1 0xad47;
  It 0xb1b2 0xad49;
  It 0xb1b3 0xad50;
  It 0xb1b4 0xad54;
  It 0xb1b5 0xad58;
  It 0xb1b6 0xad61;
  It 0xb1b7 0xad63;
  It 0xb1b8 0xad6c;
  It 0xb1b9 0xad6d;
  It 0xb1ba 0xad70;
  It 0xb1bb 0xad73;
  It 0xb1bc 0xad74;
  It 0xb1bd 0xad75;
  It 0xb1be 0xad76;
  It 0xb1bf 0xad7b;
  It 0xb1c0 0xad7c;
  It 0xb1c1 0xad7d;
  It 0xb1c2 0xad7f;
  It 0xb1c3 0xad81;
  It 0xb1c4 0xad82;
  It 0xb1c5 0xad88;
  It 0xb1c6 0xad89;
  It 0xb1c7 0xad8c;
  It 0xb1c8 0xad90;
  It 0xb1c9 0xad9c;
  It 0xb1ca 0xad9d;
  It 0xb1cb 0xada4;
  It 0xb1cc 0xadb7
].

(* encoding/cp949/lookup_from.go:8259-8508 *)
Definition fromTable_033 : list lookupItem := [
  It 0xb1cd 0xadc0;
  It 0xb1ce 0xadc1;
  It 0xb1cf 0xadc4;
  It 0xb1d0 0xadc8;
  It 0xb1d1 0xadd0;
  It 0xb1d2 0xadd1;
  It 0xb1d3 0xadd3;
  It 0xb1d4 0xaddc;
  It 0xb1d5 0xade0;
  It 0xb1d6 0xade4;
  It 0xb1d7 0xadf8;
  It 0xb1d8 0xadf9;
  It 0xb1d9 0xadfc;
  It 0xb1da 0xadff;
  It 0xb1db 0xae00;
  It 0xb1dc 0xae01;
  It 0xb1dd 0xae08;
  It 0xb1de 0xae09;
  It 0xb1df 0xae0b;
  It 0xb1e0 0xae0d;
  It 0xb1e1 0xae14;
  It 0xb1e2 0xae30;
  It 0xb1e3 0xae31;
  It 0xb1e4 0xae34;
  It 0xb1e5 0xae37;
  It 0xb1e6 0xae38;
  It 0xb1e7 0xae3a;
  It 0xb1e8 0xae40;
  It 0xb1e9 0xae41;
  It 0xb1ea 0xae43;
  It 0xb1eb 0xae45;
  It 0xb1ec 0xae46;
  It 0xb1ed 0xae4a;
  It 0xb1ee 0xae4c;
  It 0xb1ef 0xae4d;
  It 0xb1f0 0xae4e;
  It 0xb1f1 0xae50;
  It 0xb1f2 0xae54;
  It 0xb1f3 0xae56;
  It 0xb1f4 0xae5c;
  It 0xb1f5 0xae5d;
  It 0xb1f6 0xae5f;
  It 0xb1f7 0xae60;
  It 0xb1f8 0xae61;
  It 0xb1f9 0xae65;
  It 0xb1fa 0xae68;
  It 0xb1fb 0xae69;
  It 0xb1fc 0xae6c;
  It 0xb1fd 0xae70;
  It 0xb1fe 0xae78;
  It 0xb241 0xcf6d;
  It 0xb242 0xcf6e;
  It 0xb243 0xcf6f;
  It 0xb244 0xcf72;
  It 0xb245 0xcf73;
  It 0xb246 0xcf75;
  It 0xb247 0xcf76;
  It 0xb248 0xcf77;
  It 0xb249 0xcf79;
  It 0xb24a 0xcf7a;
  It 0xb24b 0xcf7b;
  It 0xb24c 0xcf7c;
  It 0xb24d 0xcf7d;
  It 0xb24e 0xcf7e;
  It 0xb24f 0xcf7f;
  It 0xb250 0xcf81;
  It 0xb251 0xcf82;
  It 0xb252 0xcf83;
  It 0xb253 0xcf84;
  It 0xb254 0xcf86;
  It 0xb255 0xcf87;
  It 0xb256 0xcf88;
  It 0xb257 0xcf89;
  It 0xb258 0xcf8a;
  It 0xb259 0xcf8b;
  It 0xb25a 0xcf8d;
  It 0xb261 0xcf8e;
  It 0xb262 0xcf8f;
  It 0xb263 0xcf90;
  It 0xb264 0xcf91;
  It 0xb265 0xcf92;
  It 0xb266 0xcf93;
  It 0xb267 0xcf94;
  It 0xb268 0xcf95;
  It 0xb269 0xcf96;
  It 0xb26a 0xcf97;
  It 0xb26b 0xcf98;
  It 0xb26c 0xcf99;
  It 0xb26d 0xcf9a;
  It 0xb26e 0xcf9b;
  It 0xb26f 0xcf9c;
  It 0xb270 0xcf9d;
  It 0xb271 0xcf9e;
  It 0xb272 0xcf9f;
  It 0xb273 0xcfa0;
  It 0xb274 0xcfa2;
  It 0xb275 0xcfa3;
  It 0xb276 0xcfa4;
  It 0xb277 0xcfa5;
  It 0xb278 0xcfa6;
  It 0xb279 0xcfa7;
  It 0xb27a 0xcfa9;
  It 0xb281 0xcfaa;
  It 0xb282 0xcfab;
  It 0xb283 0xcfac;
  It 0xb284 0xcfad;
  It 0xb285 0xcfae;
  It 0xb286 0xcfaf;
  It 0xb287 0xcfb1;
  It 0xb288 0xcfb2;
  It 0xb289 0xcfb3;
  It 0xb28a 0xcfb4;
  It 0xb28b 0xcfb5;
  It 0xb28c 0xcfb6;
  It 0xb28d 0xcfb7;
  It 0xb28e 0xcfb8;
  It 0xb28f 0xcfb9;
  It 0xb290 0xcfba;
  It 0xb291 0xcfbb;
  It 0xb292 0xcfbc;
  It 0xb293 0xcfbd;
  It 0xb294 0xcfbe;
  It 0xb295 0xcfbf;
  It 0xb296 0xcfc0;
  It 0xb297 0xcfc1;
  It 0xb298 0xcfc2;
  It 0xb299 0xcfc3;
  It 0xb29a 0xcfc5;
  It 0xb29b 0xcfc6;
  It 0xb29c 0xcfc7;
  It 0xb29d 0xcfc8;
  It 0xb29e 0xcfc9;
  It 0xb29f 0xcfca;
  It 0xb2a0 0xcfcb;
  It 0xb2a1 0xae79;
  It 0xb2a2 0xae7b;
  It 0xb2a3 0xae7c;
  It 0xb2a4 0xae7d;
  It 0xb2a5 0xae84;
  It 0xb2a6 0xae85;
  It 0xb2a7 0xae8c;
  It 0xb2a8 0xaebc;
  It 0xb2a9 0xaebd;
  It 0xb2aa 0xaebe;
  It 0xb2ab 0xaec0;
  It 0xb2ac 0xaec4;
  It 0xb2ad 0xaecc;
  It 0xb2ae 0xaecd;
  It 0xb2af 0xaecf;
  It 0xb2b0 0xaed0;
  It 0xb2b1 0xaed1;
  It 0xb2b2 0xaed8;
  It 0xb2b3 0xaed9;
  It 0xb2b4 0xaedc;
  It 0xb2b5 0xaee8;
  It 0xb2b6 0xaeeb;
  It 0xb2b7 0xaeed;
  It 0xb2b8 0xaef4;
  It 0xb2b9 0xaef8;
  It 0xb2ba 0xaefc;
  It 0xb2bb 0xaf07;
  It 0xb2bc 0xaf08;
  It 0xb2bd 0xaf0d;
  It 0xb2be 0xaf10;
  It 0xb2bf 0xaf2c;
  It 0xb2c0 0xaf2d;
  It 0xb2c1 0xaf30;
  It 0xb2c2 0xaf32;
  It 0xb2c3 0xaf34;
  It 0xb2c4 0xaf3c;
  It 0xb2c5 0xaf3d;
  It 0xb2c6 0xaf3f;
  It 0xb2c7 0xaf41;
  It 0xb2c8 0xaf42;
  It 0xb2c9 0xaf43;
  It 0xb2ca 0xaf48;
  It 0xb2cb 0xaf49;
  It 0xb2cc 0xaf50;
  It 0xb2cd 0xaf5c;
  It 0xb2ce 0xaf5d;
  It 0xb2cf 0xaf64;
  It 0xb2d0 0xaf65;
  It 0xb2d1 0xaf79;
  It 0xb2d2 0xaf80;
  It 0xb2d3 0xaf84;
  It 0xb2d4 0xaf88;
  It 0xb2d5 0xaf90;
  It 0xb2d6 0xaf91;
  It 0xb2d7 0xaf95;
  It 0xb2d8 0xaf9c;
  It 0xb2d9 0xafb8;
  It 0xb2da 0xafb9;
  It 0xb2db 0xafbc;
  It 0xb2dc 0xafc0;
  It 0xb2dd 0xafc7;
  It 0xb2de 0xafc8;
  It 0xb2df 0xafc9;
  It 0xb2e0 0xafcb;
  It 0xb2e1 0xafcd;
  It 0xb2e2 0xafce;
  It 0xb2e3 0xafd4;
  It 0xb2e4 0xafdc;
  It 0xb2e5 0xafe8;
  It 0xb2e6 0xafe9;
  It 0xb2e7 0xaff0;
  It 0xb2e8 0xaff1;
  It 0xb2e9 0xaff4;
  It 0xb2ea 0xaff8;
  It 0xb2eb 0xb000;
  It 0xb2ec 0xb001;
  It 0xb2ed 0xb004;
  It 0xb2ee 0xb00c;
  It 0xb2ef 0xb010;
  It 0xb2f0 0xb014;
  It 0xb2f1 0xb01c;
  It 0xb2f2 0xb01d;
  It 0xb2f3 0xb028;
  It 0xb2f4 0xb044;
  It 0xb2f5 0xb045;
  It 0xb2f6 0xb048;
  It 0xb2f7 0xb04a;
  It 0xb2f8 0xb04c;
  It 0xb2f9 0xb04e;
  It 0xb2fa 0xb053;
  It 0xb2fb 0xb054;
  It 0xb2fc 0xb055;
  It 0xb2fd 0xb057;
  It 0xb2fe 0xb059;
  It 0xb341 0xcfcc;
  It 0xb342 0xcfcd;
  It 0xb343 0xcfce;
  It 0xb344 0xcfcf;
  It 0xb345 0xcfd0;
  It 0xb346 0xcfd1;
  It 0xb347 0xcfd2;
  It 0xb348 0xcfd3;
  It 0xb349 0xcfd4;
  It 0xb34a 0xcfd5;
  It 0xb34b 0xcfd6;
  It 0xb34c 0xcfd7;
  It 0xb34d 0xcfd8;
  It 0xb34e 0xcfd9;
  It 0xb34f 0xcfda;
  It 0xb350 0xcfdb;
  It 0xb351 0xcfdc;
  It 0xb352 0xcfdd;
  It 0xb353 0xcfde;
  It 0xb354 0xcfdf;
  It 0xb355 0xcfe2;
  It 0xb356 0xcfe3
].

(* encoding/cp949/lookup_from.go:8509-8758 *)
Definition fromTable_034 : list lookupItem := [
  It 0xb357 0xcfe5;
  It 0xb358 0xcfe6;
  It 0xb359 0xcfe7;
  It 0xb35a 0xcfe9;
  It 0xb361 0xcfea;
  It 0xb362 0xcfeb;
  It 0xb363 0xcfec;
  It 0xb364 0xcfed;
  It 0xb365 0xcfee;
  It 0xb366 0xcfef;
  It 0xb367 0xcff2;
  It 0xb368 0xcff4;
  It 0xb369 0xcff6;
  It 0xb36a 0xcff7;
  It 0xb36b 0xcff8;
  It 0xb36c 0xcff9;
  It 0xb36d 0xcffa;
  It 0xb36e 0xcffb;
  It 0xb36f 0xcffd;
  It 0xb370 0xcffe;
  It 0xb371 0xcfff;
  It 0xb372 0xd001;
  It 0xb373 0xd002;
  It 0xb374 0xd003;
  It 0xb375 0xd005;
  It 0xb376 0xd006;
  It 0xb377 0xd007;
  It 0xb378 0xd008;
  It 0xb379 0xd009;
  It 0xb37a 0xd00a;
  It 0xb381 0xd00b;
  It 0xb382 0xd00c;
  It 0xb383 0xd00d;
  It 0xb384 0xd00e;
  It 0xb385 0xd00f;
  It 0xb386 0xd010;
  It 0xb387 0xd012;
  It 0xb388 0xd013;
  It 0xb389 0xd014;
  It 0xb38a 0xd015;
  It 0xb38b 0xd016;
  It 0xb38c 0xd017;
  It 0xb38d 0xd019;
  It 0xb38e 0xd01a;
  It 0xb38f 0xd01b;
  It 0xb390 0xd01c;
  It 0xb391 0xd01d;
  It 0xb392 0xd01e;
  It 0xb393 0xd01f;
  It 0xb394 0xd020;
  It 0xb395 0xd021;
  It 0xb396 0xd022;
  It 0xb397 0xd023;
  It 0xb398 0xd024;
  It 0xb399 0xd025;
  It 0xb39a 0xd026;
  It 0xb39b 0xd027;
  It 0xb39c 0xd028;
  It 0xb39d 0xd029;
  It 0xb39e 0xd02a;
  It 0xb39f 0xd02b;
  It 0xb3a0 0xd02c;
  It 0xb3a1 0xb05d;
  It 0xb3a2 0xb07c;
  It 0xb3a3 0xb07d;
  It 0xb3a4 0xb080;
  It 0xb3a5 0xb084;
  It 0xb3a6 0xb08c;
  It 0xb3a7 0xb08d;
  It 0xb3a8 0xb08f;
  It 0xb3a9 0xb091;
  It 0xb3aa 0xb098;
  It 0xb3ab 0xb099;
  It 0xb3ac 0xb09a;
  It 0xb3ad 0xb09c;
  It 0xb3ae 0xb09f;
  It 0xb3af 0xb0a0;
  It 0xb3b0 0xb0a1;
  It 0xb3b1 0xb0a2;
  It 0xb3b2 0xb0a8;
  It 0xb3b3 0xb0a9;
  It 0xb3b4 0xb0ab;
  It 0xb3b5 0xb0ac;
  It 0xb3b6 0xb0ad;
  It 0xb3b7 0xb0ae;
  It 0xb3b8 0xb0af;
  It 0xb3b9 0xb0b1;
  It 0xb3ba 0xb0b3;
  It 0xb3bb 0xb0b4;
  It 0xb3bc 0xb0b5;
  It 0xb3bd 0xb0b8;
  It 0xb3be 0xb0bc;
  It 0xb3bf 0xb0c4;
  It 0xb3c0 0xb0c5;
  It 0xb3c1 0xb0c7;
  It 0xb3c2 0xb0c8;
  It 0xb3c3 0xb0c9;
  It 0xb3c4 0xb0d0;
  It 0xb3c5 0xb0d1;
  It 0xb3c6 0xb0d4;
  It 0xb3c7 0xb0d8;
  It 0xb3c8 0xb0e0;
  It 0xb3c9 0xb0e5;
  It 0xb3ca 0xb108;
  It 0xb3cb 0xb109;
  It 0xb3cc 0xb10b;
  It 0xb3cd 0xb10c;
  It 0xb3ce 0xb110;
  It 0xb3cf 0xb112;
  It 0xb3d0 0xb113;
  It 0xb3d1 0xb118;
  It 0xb3d2 0xb119;
  It 0xb3d3 0xb11b;
  It 0xb3d4 0xb11c;
  It 0xb3d5 0xb11d;
  It 0xb3d6 0xb123;
  It 0xb3d7 0xb124;
  It 0xb3d8 0xb125;
  It 0xb3d9 0xb128;
  It 0xb3da 0xb12c;
  It 0xb3db 0xb134;
  It 0xb3dc 0xb135;
  It 0xb3dd 0xb137;
  It 0xb3de 0xb138;
  It 0xb3df 0xb139;
  It 0xb3e0 0xb140;
  It 0xb3e1 0xb141;
  It 0xb3e2 0xb144;
  It 0xb3e3 0xb148;
  It 0xb3e4 0xb150;
  It 0xb3e5 0xb151;
  It 0xb3e6 0xb154;
  It 0xb3e7 0xb155;
  It 0xb3e8 0xb158;
  It 0xb3e9 0xb15c;
  It 0xb3ea 0xb160;
  It 0xb3eb 0xb178;
  It 0xb3ec 0xb179;
  It 0xb3ed 0xb17c;
  It 0xb3ee 0xb180;
  It 0xb3ef 0xb182;
  It 0xb3f0 0xb188;
  It 0xb3f1 0xb189;
  It 0xb3f2 0xb18b;
  It 0xb3f3 0xb18d;
  It 0xb3f4 0xb192;
  It 0xb3f5 0xb193;
  It 0xb3f6 0xb194;
  It 0xb3f7 0xb198;
  It 0xb3f8 0xb19c;
  It 0xb3f9 0xb1a8;
  It 0xb3fa 0xb1cc;
  It 0xb3fb 0xb1d0;
  It 0xb3fc 0xb1d4;
  It 0xb3fd 0xb1dc;
  It 0xb3fe 0xb1dd;
  It 0xb441 0xd02e;
  It 0xb442 0xd02f;
  It 0xb443 0xd030;
  It 0xb444 0xd031;
  It 0xb445 0xd032;
  It 0xb446 0xd033;
  It 0xb447 0xd036;
  It 0xb448 0xd037;
  It 0xb449 0xd039;
  It 0xb44a 0xd03a;
  It 0xb44b 0xd03b;
  It 0xb44c 0xd03d;
  It 0xb44d 0xd03e;
  It 0xb44e 0xd03f;
  It 0xb44f 0xd040;
  It 0xb450 0xd041;
  It 0xb451 0xd042;
  It 0xb452 0xd043;
  It 0xb453 0xd046;
  It 0xb454 0xd048;
  It 0xb455 0xd04a;
  It 0xb456 0xd04b;
  It 0xb457 0xd04c;
  It 0xb458 0xd04d;
  It 0xb459 0xd04e;
  It 0xb45a 0xd04f;
  It 0xb461 0xd051;
  It 0xb462 0xd052;
  It 0xb463 0xd053;
  It 0xb464 0xd055;
  It 0xb465 0xd056;
  It 0xb466 0xd057;
  It 0xb467 0xd059;
  It 0xb468 0xd05a;
  It 0xb469 0xd05b;
  It 0xb46a 0xd05c;
  It 0xb46b 0xd05d;
  It 0xb46c 0xd05e;
  It 0xb46d 0xd05f;
  It 0xb46e 0xd061;
  It 0xb46f 0xd062;
  It 0xb470 0xd063;
  It 0xb471 0xd064;
  It 0xb472 0xd065;
  It 0xb473 0xd066;
  It 0xb474 0xd067;
  It 0xb475 0xd068;
  It 0xb476 0xd069;
  It 0xb477 0xd06a;
  It 0xb478 0xd06b;
  It 0xb479 0xd06e;
  It 0xb47a 0xd06f;
  It 0xb481 0xd071;
  It 0xb482 0xd072;
  It 0xb483 0xd073;
  It 0xb484 0xd075;
  It 0xb485 0xd076;
  It 0xb486 0xd077;
  It 0xb487 0xd078;
  It 0xb488 0xd079;
  It 0xb489 0xd07a;
  It 0xb48a 0xd07b;
  It 0xb48b 0xd07e;
  It 0xb48c 0xd07f;
  It 0xb48d 0xd080;
  It 0xb48e 0xd082;
  It 0xb48f 0xd083;
  It 0xb490 0xd084;
  It 0xb491 0xd085;
  It 0xb492 0xd086;
  It 0xb493 0xd087;
  It 0xb494 0xd088;
  It 0xb495 0xd089;
  It 0xb496 0xd08a;
  It 0xb497 0xd08b;
  It 0xb498 0xd08c;
  It 0xb499 0xd08d;
  It 0xb49a 0xd08e;
  It 0xb49b 0xd08f;
  It 0xb49c 0xd090;
  It 0xb49d 0xd091;
  It 0xb49e 0xd092;
  It 0xb49f 0xd093;
  It 0xb4a0 0xd094;
  It 0xb4a1 0xb1df;
  It 0xb4a2 0xb1e8;
  It 0xb4a3 0xb1e9;
  It 0xb4a4 0xb1ec;
  It 0xb4a5 0xb1f0;
  It 0xb4a6 0xb1f9;
  It 0xb4a7 0xb1fb;
  It 0xb4a8 0xb1fd;
  It 0xb4a9 0xb204;
  It 0xb4aa 0xb205
].

(* encoding/cp949/lookup_from.go:8759-9008 *)
Definition fromTable_035 : list lookupItem := [
  It 0xb4ab 0xb208;
  It 0xb4ac 0xb20b;
  It 0xb4ad 0xb20c;
  It 0xb4ae 0xb214;
  It 0xb4af 0xb215;
  It 0xb4b0 0xb217;
  It 0xb4b1 0xb219;
  It 0xb4b2 0xb220;
  It 0xb4b3 0xb234;
  It 0xb4b4 0xb23c;
  It 0xb4b5 0xb258;
  It 0xb4b6 0xb25c;
  It 0xb4b7 0xb260;
  It 0xb4b8 0xb268;
  It 0xb4b9 0xb269;
  It 0xb4ba 0xb274;
  It 0xb4bb 0xb275;
  It 0xb4bc 0xb27c;
  It 0xb4bd 0xb284;
  It 0xb4be 0xb285;
  It 0xb4bf 0xb289;
  It 0xb4c0 0xb290;
  It 0xb4c1 0xb291;
  It 0xb4c2 0xb294;
  It 0xb4c3 0xb298;
  It 0xb4c4 0xb299;
  It 0xb4c5 0xb29a;
  It 0xb4c6 0xb2a0;
  It 0xb4c7 0xb2a1;
  It 0xb4c8 0xb2a3;
  It 0xb4c9 0xb2a5;
  It 0xb4ca 0xb2a6;
  It 0xb4cb 0xb2aa;
  It 0xb4cc 0xb2ac;
  It 0xb4cd 0xb2b0;
  It 0xb4ce 0xb2b4;
  It 0xb4cf 0xb2c8;
  It 0xb4d0 0xb2c9;
  It 0xb4d1 0xb2cc;
  It 0xb4d2 0xb2d0;
  It 0xb4d3 0xb2d2;
  It 0xb4d4 0xb2d8;
  It 0xb4d5 0xb2d9;
  It 0xb4d6 0xb2db;
  It 0xb4d7 0xb2dd;
  It 0xb4d8 0xb2e2;
  It 0xb4d9 0xb2e4;
  It 0xb4da 0xb2e5;
  It 0xb4db 0xb2e6;
  It 0xb4dc 0xb2e8;
  It 0xb4dd 0xb2eb;
  It 0xb4de 0xb2ec;
  It 0xb4df 0xb2ed;
  It 0xb4e0 0xb2ee;
  It 0xb4e1 0xb2ef;
  It 0xb4e2 0xb2f3;
  It 0xb4e3 0xb2f4;
  It 0xb4e4 0xb2f5;
  It 0xb4e5 0xb2f7;
  It 0xb4e6 0xb2f8;
  It 0xb4e7 0xb2f9;
  It 0xb4e8 0xb2fa;
  It 0xb4e9 0xb2fb;
  It 0xb4ea 0xb2ff;
  It 0xb4eb 0xb300;
  It 0xb4ec 0xb301;
  It 0xb4ed 0xb304;
  It 0xb4ee 0xb308;
  It 0xb4ef 0xb310;
  It 0xb4f0 0xb311;
  It 0xb4f1 0xb313;
  It 0xb4f2 0xb314;
  It 0xb4f3 0xb315;
  It 0xb4f4 0xb31c;
  It 0xb4f5 0xb354;
  It 0xb4f6 0xb355;
  It 0xb4f7 0xb356;
  It 0xb4f8 0xb358;
  It 0xb4f9 0xb35b;
  It 0xb4fa 0xb35c;
  It 0xb4fb 0xb35e;
  It 0xb4fc 0xb35f;
  It 0xb4fd 0xb364;
  It 0xb4fe 0xb365;
  It 0xb541 0xd095;
  It 0xb542 0xd096;
  It 0xb543 0xd097;
  It 0xb544 0xd098;
  It 0xb545 0xd099;
  It 0xb546 0xd09a;
  It 0xb547 0xd09b;
  It 0xb548 0xd09c;
  It 0xb549 0xd09d;
  It 0xb54a 0xd09e;
  It 0xb54b 0xd09f;
  It 0xb54c 0xd0a0;
  It 0xb54d 0xd0a1;
  It 0xb54e 0xd0a2;
  It 0xb54f 0xd0a3;
  It 0xb550 0xd0a6;
  It 0xb551 0xd0a7;
  It 0xb552 0xd0a9;
  It 0xb553 0xd0aa;
  It 0xb554 0xd0ab;
  It 0xb555 0xd0ad;
  It 0xb556 0xd0ae;
  It 0xb557 0xd0af;
  It 0xb558 0xd0b0;
  It 0xb559 0xd0b1;
  It 0xb55a 0xd0b2;
  It 0xb561 0xd0b3;
  It 0xb562 0xd0b6;
  It 0xb563 0xd0b8;
  It 0xb564 0xd0ba;
  It 0xb565 0xd0bb;
  It 0xb566 0xd0bc;
  It 0xb567 0xd0bd;
  It 0xb568 0xd0be;
  It 0xb569 0xd0bf;
  It 0xb56a 0xd0c2;
  It 0xb56b 0xd0c3;
  It 0xb56c 0xd0c5;
  It 0xb56d 0xd0c6;
  It 0xb56e 0xd0c7;
  It 0xb56f 0xd0ca;
  It 0xb570 0xd0cb;
  It 0xb571 0xd0cc;
  It 0xb572 0xd0cd;
  It 0xb573 0xd0ce;
  It 0xb574 0xd0cf;
  It 0xb575 0xd0d2;
  It 0xb576 0xd0d6;
  It 0xb577 0xd0d7;
  It 0xb578 0xd0d8;
  It 0xb579 0xd0d9;
  It 0xb57a 0xd0da;
  It 0xb581 0xd0db;
  It 0xb582 0xd0de;
  It 0xb583 0xd0df;
  It 0xb584 0xd0e1;
  It 0xb585 0xd0e2;
  It 0xb586 0xd0e3;
  It 0xb587 0xd0e5;
  It 0xb588 0xd0e6;
  It 0xb589 0xd0e7;
  It 0xb58a 0xd0e8;
  It 0xb58b 0xd0e9;
  It 0xb58c 0xd0ea;
  It 0xb58d 0xd0eb;
  It 0xb58e 0xd0ee;
  It 0xb58f 0xd0f2;
  It 0xb590 0xd0f3;
  It 0xb591 0xd0f4;
  It 0xb592 0xd0f5;
  It 0xb593 0xd0f6;
  It 0xb594 0xd0f7;
  It 0xb595 0xd0f9;
  It 0xb596 0xd0fa;
  It 0xb597 0xd0fb;
  It 0xb598 0xd0fc;
  It 0xb599 0xd0fd;
  It 0xb59a 0xd0fe;
  It 0xb59b 0xd0ff;
  It 0xb59c 0xd100;
  It 0xb59d 0xd101;
  It 0xb59e 0xd102;
  It 0xb59f 0xd103;
  It 0xb5a0 0xd104;
  It 0xb5a1 0xb367;
  It 0xb5a2 0xb369;
  It 0xb5a3 0xb36b;
  It 0xb5a4 0xb36e;
  It 0xb5a5 0xb370;
  It 0xb5a6 0xb371;
  It 0xb5a7 0xb374;
  It 0xb5a8 0xb378;
  It 0xb5a9 0xb380;
  It 0xb5aa 0xb381;
  It 0xb5ab 0xb383;
  It 0xb5ac 0xb384;
  It 0xb5ad 0xb385;
  It 0xb5ae 0xb38c;
  It 0xb5af 0xb390;
  It 0xb5b0 0xb394;
  It 0xb5b1 0xb3a0;
  It 0xb5b2 0xb3a1;
  It 0xb5b3 0xb3a8;
  It 0xb5b4 0xb3ac;
  It 0xb5b5 0xb3c4;
  It 0xb5b6 0xb3c5;
  It 0xb5b7 0xb3c8;
  It 0xb5b8 0xb3cb;
  It 0xb5b9 0xb3cc;
  It 0xb5ba 0xb3ce;
  It 0xb5bb 0xb3d0;
  It 0xb5bc 0xb3d4;
  It 0xb5bd 0xb3d5;
  It 0xb5be 0xb3d7;
  It 0xb5bf 0xb3d9;
  It 0xb5c0 0xb3db;
  It 0xb5c1 0xb3dd;
  It 0xb5c2 0xb3e0;
  It 0xb5c3 0xb3e4;
  It 0xb5c4 0xb3e8;
  It 0xb5c5 0xb3fc;
  It 0xb5c6 0xb410;
  It 0xb5c7 0xb418;
  It 0xb5c8 0xb41c;
  It 0xb5c9 0xb420;
  It 0xb5ca 0xb428;
  It 0xb5cb 0xb429;
  It 0xb5cc 0xb42b;
  It 0xb5cd 0xb434;
  It 0xb5ce 0xb450;
  It 0xb5cf 0xb451;
  It 0xb5d0 0xb454;
  It 0xb5d1 0xb458;
  It 0xb5d2 0xb460;
  It 0xb5d3 0xb461;
  It 0xb5d4 0xb463;
  It 0xb5d5 0xb465;
  It 0xb5d6 0xb46c;
  It 0xb5d7 0xb480;
  It 0xb5d8 0xb488;
  It 0xb5d9 0xb49d;
  It 0xb5da 0xb4a4;
  It 0xb5db 0xb4a8;
  It 0xb5dc 0xb4ac;
  It 0xb5dd 0xb4b5;
  It 0xb5de 0xb4b7;
  It 0xb5df 0xb4b9;
  It 0xb5e0 0xb4c0;
  It 0xb5e1 0xb4c4;
  It 0xb5e2 0xb4c8;
  It 0xb5e3 0xb4d0;
  It 0xb5e4 0xb4d5;
  It 0xb5e5 0xb4dc;
  It 0xb5e6 0xb4dd;
  It 0xb5e7 0xb4e0;
  It 0xb5e8 0xb4e3;
  It 0xb5e9 0xb4e4;
  It 0xb5ea 0xb4e6;
  It 0xb5eb 0xb4ec;
  It 0xb5ec 0xb4ed;
  It 0xb5ed 0xb4ef;
  It 0xb5ee 0xb4f1;
  It 0xb5ef 0xb4f8;
  It 0xb5f0 0xb514;
  It 0xb5f1 0xb515;
  It 0xb5f2 0xb518
].

(* encoding/cp949/lookup_from.go:9009-9258 *)
Definition fromTable_036 : list lookupItem := [
  It 0xb5f3 0xb51b;
  It 0xb5f4 0xb51c;
  It 0xb5f5 0xb524;
  It 0xb5f6 0xb525;
  It 0xb5f7 0xb527;
  It 0xb5f8 0xb528;
  It 0xb5f9 0xb529;
  It 0xb5fa 0xb52a;
  It 0xb5fb 0xb530;
  It 0xb5fc 0xb531;
  It 0xb5fd 0xb534;
  It 0xb5fe 0xb538;
  It 0xb641 0xd105;
  It 0xb642 0xd106;
  It 0xb643 0xd107;
  It 0xb644 0xd108;
  It 0xb645 0xd109;
  It 0xb646 0xd10a;
  It 0xb647 0xd10b;
  It 0xb648 0xd10c;
  It 0xb649 0xd10e;
  It 0xb64a 0xd10f;
  It 0xb64b 0xd110;
  It 0xb64c 0xd111;
  It 0xb64d 0xd112;
  It 0xb64e 0xd113;
  It 0xb64f 0xd114;
  It 0xb650 0xd115;
  It 0xb651 0xd116;
  It 0xb652 0xd117;
  It 0xb653 0xd118;
  It 0xb654 0xd119;
  It 0xb655 0xd11a;
  It 0xb656 0xd11b;
  It 0xb657 0xd11c;
  It 0xb658 0xd11d;
  It 0xb659 0xd11e;
  It 0xb65a 0xd11f;
  It 0xb661 0xd120;
  It 0xb662 0xd121;
  It 0xb663 0xd122;
  It 0xb664 0xd123;
  It 0xb665 0xd124;
  It 0xb666 0xd125;
  It 0xb667 0xd126;
  It 0xb668 0xd127;
  It 0xb669 0xd128;
  It 0xb66a 0xd129;
  It 0xb66b 0xd12a;
  It 0xb66c 0xd12b;
  It 0xb66d 0xd12c;
  It 0xb66e 0xd12d;
  It 0xb66f 0xd12e;
  It 0xb670 0xd12f;
  It 0xb671 0xd132;
  It 0xb672 0xd133;
  It 0xb673 0xd135;
  It 0xb674 0xd136;
  It 0xb675 0xd137;
  It 0xb676 0xd139;
  It 0xb677 0xd13b;
  It 0xb678 0xd13c;
  It 0xb679 0xd13d;
  It 0xb67a 0xd13e;
  It 0xb681 0xd13f;
  It 0xb682 0xd142;
  It 0xb683 0xd146;
  It 0xb684 0xd147;
  It 0xb685 0xd148;
  It 0xb686 0xd149;
  It 0xb687 0xd14a;
  It 0xb688 0xd14b;
  It 0xb689 0xd14e;
  It 0xb68a 0xd14f;
  It 0xb68b 0xd151;
  It 0xb68c 0xd152;
  It 0xb68d 0xd153;
  It 0xb68e 0xd155;
  It 0xb68f 0xd156;
  It 0xb690 0xd157;
  It 0xb691 0xd158;
  It 0xb692 0xd159;
  It 0xb693 0xd15a;
  It 0xb694 0xd15b;
  It 0xb695 0xd15e;
  It 0xb696 0xd160;
  It 0xb697 0xd162;
  It 0xb698 0xd163;
  It 0xb699 0xd164;
  It 0xb69a 0xd165;
  It 0xb69b 0xd166;
  It 0xb69c 0xd167;
  It 0xb69d 0xd169;
  It 0xb69e 0xd16a;
  It 0xb69f 0xd16b;
  It 0xb6a0 0xd16d;
  It 0xb6a1 0xb540;
  It 0xb6a2 0xb541;
  It 0xb6a3 0xb543;
  It 0xb6a4 0xb544;
  It 0xb6a5 0xb545;
  It 0xb6a6 0xb54b;
  It 0xb6a7 0xb54c;
  It 0xb6a8 0xb54d;
  It 0xb6a9 0xb550;
  It 0xb6aa 0xb554;
  It 0xb6ab 0xb55c;
  It 0xb6ac 0xb55d;
  It 0xb6ad 0xb55f;
  It 0xb6ae 0xb560;
  It 0xb6af 0xb561;
  It 0xb6b0 0xb5a0;
  It 0xb6b1 0xb5a1;
  It 0xb6b2 0xb5a4;
  It 0xb6b3 0xb5a8;
  It 0xb6b4 0xb5aa;
  It 0xb6b5 0xb5ab;
  It 0xb6b6 0xb5b0;
  It 0xb6b7 0xb5b1;
  It 0xb6b8 0xb5b3;
  It 0xb6b9 0xb5b4;
  It 0xb6ba 0xb5b5;
  It 0xb6bb 0xb5bb;
  It 0xb6bc 0xb5bc;
  It 0xb6bd 0xb5bd;
  It 0xb6be 0xb5c0;
  It 0xb6bf 0xb5c4;
  It 0xb6c0 0xb5cc;
  It 0xb6c1 0xb5cd;
  It 0xb6c2 0xb5cf;
  It 0xb6c3 0xb5d0;
  It 0xb6c4 0xb5d1;
  It 0xb6c5 0xb5d8;
  It 0xb6c6 0xb5ec;
  It 0xb6c7 0xb610;
  It 0xb6c8 0xb611;
  It 0xb6c9 0xb614;
  It 0xb6ca 0xb618;
  It 0xb6cb 0xb625;
  It 0xb6cc 0xb62c;
  It 0xb6cd 0xb634;
  It 0xb6ce 0xb648;
  It 0xb6cf 0xb664;
  It 0xb6d0 0xb668;
  It 0xb6d1 0xb69c;
  It 0xb6d2 0xb69d;
  It 0xb6d3 0xb6a0;
  It 0xb6d4 0xb6a4;
  It 0xb6d5 0xb6ab;
  It 0xb6d6 0xb6ac;
  It 0xb6d7 0xb6b1;
  It 0xb6d8 0xb6d4;
  It 0xb6d9 0xb6f0;
  It 0xb6da 0xb6f4;
  It 0xb6db 0xb6f8;
  It 0xb6dc 0xb700;
  It 0xb6dd 0xb701;
  It 0xb6de 0xb705;
  It 0xb6df 0xb728;
  It 0xb6e0 0xb729;
  It 0xb6e1 0xb72c;
  It 0xb6e2 0xb72f;
  It 0xb6e3 0xb730;
  It 0xb6e4 0xb738;
  It 0xb6e5 0xb739;
  It 0xb6e6 0xb73b;
  It 0xb6e7 0xb744;
  It 0xb6e8 0xb748;
  It 0xb6e9 0xb74c;
  It 0xb6ea 0xb754;
  It 0xb6eb 0xb755;
  It 0xb6ec 0xb760;
  It 0xb6ed 0xb764;
  It 0xb6ee 0xb768;
  It 0xb6ef 0xb770;
  It 0xb6f0 0xb771;
  It 0xb6f1 0xb773;
  It 0xb6f2 0xb775;
  It 0xb6f3 0xb77c;
  It 0xb6f4 0xb77d;
  It 0xb6f5 0xb780;
  It 0xb6f6 0xb784;
  It 0xb6f7 0xb78c;
  It 0xb6f8 0xb78d;
  It 0xb6f9 0xb78f;
  It 0xb6fa 0xb790;
  It 0xb6fb 0xb791;
  It 0xb6fc 0xb792;
  It 0xb6fd 0xb796;
  It 0xb6fe 0xb797;
  It 0xb741 0xd16e;
  It 0xb742 0xd16f;
  It 0xb743 0xd170;
  It 0xb744 0xd171;
  It 0xb745 0xd172;
  It 0xb746 0xd173;
  It 0xb747 0xd174;
  It 0xb748 0xd175;
  It 0xb749 0xd176;
  It 0xb74a 0xd177;
  It 0xb74b 0xd178;
  It 0xb74c 0xd179;
  It 0xb74d 0xd17a;
  It 0xb74e 0xd17b;
  It 0xb74f 0xd17d;
  It 0xb750 0xd17e;
  It 0xb751 0xd17f;
  It 0xb752 0xd180;
  It 0xb753 0xd181;
  It 0xb754 0xd182;
  It 0xb755 0xd183;
  It 0xb756 0xd185;
  It 0xb757 0xd186;
  It 0xb758 0xd187;
  It 0xb759 0xd189;
  It 0xb75a 0xd18a;
  It 0xb761 0xd18b;
  It 0xb762 0xd18c;
  It 0xb763 0xd18d;
  It 0xb764 0xd18e;
  It 0xb765 0xd18f;
  It 0xb766 0xd190;
  It 0xb767 0xd191;
  It 0xb768 0xd192;
  It 0xb769 0xd193;
  It 0xb76a 0xd194;
  It 0xb76b 0xd195;
  It 0xb76c 0xd196;
  It 0xb76d 0xd197;
  It 0xb76e 0xd198;
  It 0xb76f 0xd199;
  It 0xb770 0xd19a;
  It 0xb771 0xd19b;
  It 0xb772 0xd19c;
  It 0xb773 0xd19d;
  It 0xb774 0xd19e;
  It 0xb775 0xd19f;
  It 0xb776 0xd1a2;
  It 0xb777 0xd1a3;
  It 0xb778 0xd1a5;
  It 0xb779 0xd1a6;
  It 0xb77a 0xd1a7;
  It 0xb781 0xd1a9;
  It 0xb782 0xd1aa;
  It 0xb783 0xd1ab;
  It 0xb784 0xd1ac;
  It 0xb785 0xd1ad;
  It 0xb786 0xd1ae;
  It 0xb787 0xd1af;
  It 0xb788 0xd1b2
].

(* encoding/cp949/lookup_from.go:9259-9508 *)
Definition fromTable_037 : list lookupItem := [
  It 0xb789 0xd1b4;
  It 0xb78a 0xd1b6;
  It 0xb78b 0xd1b7;
  It 0xb78c 0xd1b8;
  It 0xb78d 0xd1b9;
  It 0xb78e 0xd1bb;
  It 0xb78f 0xd1bd;
  It 0xb790 0xd1be;
  It 0xb791 0xd1bf;
  It 0xb792 0xd1c1;
  It 0xb793 0xd1c2;
  It 0xb794 0xd1c3;
  It 0xb795 0xd1c4;
  It 0xb796 0xd1c5;
  It 0xb797 0xd1c6;
  It 0xb798 0xd1c7;
  It 0xb799 0xd1c8;
  It 0xb79a 0xd1c9;
  It 0xb79b 0xd1ca;
  It 0xb79c 0xd1cb;
  It 0xb79d 0xd1cc;
  It 0xb79e 0xd1cd;
  It 0xb79f 0xd1ce;
  It 0xb7a0 0xd1cf;
  It 0xb7a1 0xb798;
  It 0xb7a2 0xb799;
  It 0xb7a3 0xb79c;
  It 0xb7a4 0xb7a0;
  It 0xb7a5 0xb7a8;
  It 0xb7a6 0xb7a9;
  It 0xb7a7 0xb7ab;
  It 0xb7a8 0xb7ac;
  It 0xb7a9 0xb7ad;
  It 0xb7aa 0xb7b4;
  It 0xb7ab 0xb7b5;
  It 0xb7ac 0xb7b8;
  It 0xb7ad 0xb7c7;
  It 0xb7ae 0xb7c9;
  It 0xb7af 0xb7ec;
  It 0xb7b0 0xb7ed;
  It 0xb7b1 0xb7f0;
  It 0xb7b2 0xb7f4;
  It 0xb7b3 0xb7fc;
  It 0xb7b4 0xb7fd;
  It 0xb7b5 0xb7ff;
  It 0xb7b6 0xb800;
  It 0xb7b7 0xb801;
  It 0xb7b8 0xb807;
  It 0xb7b9 0xb808;
  It 0xb7ba 0xb809;
  It 0xb7bb 0xb80c;
  It 0xb7bc 0xb810;
  It 0xb7bd 0xb818;
  It 0xb7be 0xb819;
  It 0xb7bf 0xb81b;
  It 0xb7c0 0xb81d;
  It 0xb7c1 0xb824;
  It 0xb7c2 0xb825;
  It 0xb7c3 0xb828;
  It 0xb7c4 0xb82c;
  It 0xb7c5 0xb834;
  It 0xb7c6 0xb835;
  It 0xb7c7 0xb837;
  It 0xb7c8 0xb838;
  It 0xb7c9 0xb839;
  It 0xb7ca 0xb840;
  It 0xb7cb 0xb844;
  It 0xb7cc 0xb851;
  It 0xb7cd 0xb853;
  It 0xb7ce 0xb85c;
  It 0xb7cf 0xb85d;
  It 0xb7d0 0xb860;
  It 0xb7d1 0xb864;
  It 0xb7d2 0xb86c;
  It 0xb7d3 0xb86d;
  It 0xb7d4 0xb86f;
  It 0xb7d5 0xb871;
  It 0xb7d6 0xb878;
  It 0xb7d7 0xb87c;
  It 0xb7d8 0xb88d;
  It 0xb7d9 0xb8a8;
  It 0xb7da 0xb8b0;
  It 0xb7db 0xb8b4;
  It 0xb7dc 0xb8b8;
  It 0xb7dd 0xb8c0;
  It 0xb7de 0xb8c1;
  It 0xb7df 0xb8c3;
  It 0xb7e0 0xb8c5;
  It 0xb7e1 0xb8cc;
  It 0xb7e2 0xb8d0;
  It 0xb7e3 0xb8d4;
  It 0xb7e4 0xb8dd;
  It 0xb7e5 0xb8df;
  It 0xb7e6 0xb8e1;
  It 0xb7e7 0xb8e8;
  It 0xb7e8 0xb8e9;
  It 0xb7e9 0xb8ec;
  It 0xb7ea 0xb8f0;
  It 0xb7eb 0xb8f8;
  It 0xb7ec 0xb8f9;
  It 0xb7ed 0xb8fb;
  It 0xb7ee 0xb8fd;
  It 0xb7ef 0xb904;
  It 0xb7f0 0xb918;
  It 0xb7f1 0xb920;
  It 0xb7f2 0xb93c;
  It 0xb7f3 0xb93d;
  It 0xb7f4 0xb940;
  It 0xb7f5 0xb944;
  It 0xb7f6 0xb94c;
  It 0xb7f7 0xb94f;
  It 0xb7f8 0xb951;
  It 0xb7f9 0xb958;
  It 0xb7fa 0xb959;
  It 0xb7fb 0xb95c;
  It 0xb7fc 0xb960;
  It 0xb7fd 0xb968;
  It 0xb7fe 0xb969;
  It 0xb841 0xd1d0;
  It 0xb842 0xd1d1;
  It 0xb843 0xd1d2;
  It 0xb844 0xd1d3;
  It 0xb845 0xd1d4;
  It 0xb846 0xd1d5;
  It 0xb847 0xd1d6;
  It 0xb848 0xd1d7;
  It 0xb849 0xd1d9;
  It 0xb84a 0xd1da;
  It 0xb84b 0xd1db;
  It 0xb84c 0xd1dc;
  It 0xb84d 0xd1dd;
  It 0xb84e 0xd1de;
  It 0xb84f 0xd1df;
  It 0xb850 0xd1e0;
  It 0xb851 0xd1e1;
  It 0xb852 0xd1e2;
  It 0xb853 0xd1e3;
  It 0xb854 0xd1e4;
  It 0xb855 0xd1e5;
  It 0xb856 0xd1e6;
  It 0xb857 0xd1e7;
  It 0xb858 0xd1e8;
  It 0xb859 0xd1e9;
  It 0xb85a 0xd1ea;
  It 0xb861 0xd1eb;
  It 0xb862 0xd1ec;
  It 0xb863 0xd1ed;
  It 0xb864 0xd1ee;
  It 0xb865 0xd1ef;
  It 0xb866 0xd1f0;
  It 0xb867 0xd1f1;
  It 0xb868 0xd1f2;
  It 0xb869 0xd1f3;
  It 0xb86a 0xd1f5;
  It 0xb86b 0xd1f6;
  It 0xb86c 0xd1f7;
  It 0xb86d 0xd1f9;
  It 0xb86e 0xd1fa;
  It 0xb86f 0xd1fb;
  It 0xb870 0xd1fc;
  It 0xb871 0xd1fd;
  It 0xb872 0xd1fe;
  It 0xb873 0xd1ff;
  It 0xb874 0xd200;
  It 0xb875 0xd201;
  It 0xb876 0xd202;
  It 0xb877 0xd203;
  It 0xb878 0xd204;
  It 0xb879 0xd205;
  It 0xb87a 0xd206;
  It 0xb881 0xd208;
  It 0xb882 0xd20a;
  It 0xb883 0xd20b;
  It 0xb884 0xd20c;
  It 0xb885 0xd20d;
  It 0xb886 0xd20e;
  It 0xb887 0xd20f;
  It 0xb888 0xd211;
  It 0xb889 0xd212;
  It 0xb88a 0xd213;
  It 0xb88b 0xd214;
  It 0xb88c 0xd215;
  It 0xb88d 0xd216;
  It 0xb88e 0xd217;
  It 0xb88f 0xd218;
  It 0xb890 0xd219;
  It 0xb891 0xd21a;
  It 0xb892 0xd21b;
  It 0xb893 0xd21c;
  It 0xb894 0xd21d;
  It 0xb895 0xd21e;
  It 0xb896 0xd21f;
  It 0xb897 0xd220;
  It 0xb898 0xd221;
  It 0xb899 0xd222;
  It 0xb89a 0xd223;
  It 0xb89b 0xd224;
  It 0xb89c 0xd225;
  It 0xb89d 0xd226;
  It 0xb89e 0xd227;
  It 0xb89f 0xd228;
  It 0xb8a0 0xd229;
  It 0xb8a1 0xb96b;
  It 0xb8a2 0xb96d;
  It 0xb8a3 0xb974;
  It 0xb8a4 0xb975;
  It 0xb8a5 0xb978;
  It 0xb8a6 0xb97c;
  It 0xb8a7 0xb984;
  It 0xb8a8 0xb985;
  It 0xb8a9 0xb987;
  It 0xb8aa 0xb989;
  It 0xb8ab 0xb98a;
  It 0xb8ac 0xb98d;
  It 0xb8ad 0xb98e;
  It 0xb8ae 0xb9ac;
  It 0xb8af 0xb9ad;
  It 0xb8b0 0xb9b0;
  It 0xb8b1 0xb9b4;
  It 0xb8b2 0xb9bc;
  It 0xb8b3 0xb9bd;
  It 0xb8b4 0xb9bf;
  It 0xb8b5 0xb9c1;
  It 0xb8b6 0xb9c8;
  It 0xb8b7 0xb9c9;
  It 0xb8b8 0xb9cc;
  It 0xb8b9 0xb9ce;
  It 0xb8ba 0xb9cf;
  It 0xb8bb 0xb9d0;
  It 0xb8bc 0xb9d1;
  It 0xb8bd 0xb9d2;
  It 0xb8be 0xb9d8;
  It 0xb8bf 0xb9d9;
  It 0xb8c0 0xb9db;
  It 0xb8c1 0xb9dd;
  It 0xb8c2 0xb9de;
  It 0xb8c3 0xb9e1;
  It 0xb8c4 0xb9e3;
  It 0xb8c5 0xb9e4;
  It 0xb8c6 0xb9e5;
  It 0xb8c7 0xb9e8;
  It 0xb8c8 0xb9ec;
  It 0xb8c9 0xb9f4;
  It 0xb8ca 0xb9f5;
  It 0xb8cb 0xb9f7;
  It 0xb8cc 0xb9f8;
  It 0xb8cd 0xb9f9;
  It 0xb8ce 0xb9fa;
  It 0xb8cf 0xba00;
  It 0xb8d0 0xba01
].

(* encoding/cp949/lookup_from.go:9509-9758 *)
Definition fromTable_038 : list lookupItem := [
  It 0xb8d1 0xba08;
  It 0xb8d2 0xba15;
  It 0xb8d3 0xba38;
  It 0xb8d4 0xba39;
  It 0xb8d5 0xba3c;
  It 0xb8d6 0xba40;
  It 0xb8d7 0xba42;
  It 0xb8d8 0xba48;
  It 0xb8d9 0xba49;
  It 0xb8da 0xba4b;
  It 0xb8db 0xba4d;
  It 0xb8dc 0xba4e;
  It 0xb8dd 0xba53;
  It 0xb8de 0xba54;
  It 0xb8df 0xba55;
  It 0xb8e0 0xba58;
  It 0xb8e1 0xba5c;
  It 0xb8e2 0xba64;
  It 0xb8e3 0xba65;
  It 0xb8e4 0xba67;
  It 0xb8e5 0xba68;
  It 0xb8e6 0xba69;
  It 0xb8e7 0xba70;
  It 0xb8e8 0xba71;
  It 0xb8e9 0xba74;
  It 0xb8ea 0xba78;
  It 0xb8eb 0xba83;
  It 0xb8ec 0xba84;
  It 0xb8ed 0xba85;
  It 0xb8ee 0xba87;
  It 0xb8ef 0xba8c;
  It 0xb8f0 0xbaa8;
  It 0xb8f1 0xbaa9;
  It 0xb8f2 0xbaab;
  It 0xb8f3 0xbaac;
  It 0xb8f4 0xbab0;
  It 0xb8f5 0xbab2;
  It 0xb8f6 0xbab8;
  It 0xb8f7 0xbab9;
  It 0xb8f8 0xbabb;
  It 0xb8f9 0xbabd;
  It 0xb8fa 0xbac4;
  It 0xb8fb 0xbac8;
  It 0xb8fc 0xbad8;
  It 0xb8fd 0xbad9;
  It 0xb8fe 0xbafc;
  It 0xb941 0xd22a;
  It 0xb942 0xd22b;
  It 0xb943 0xd22e;
  It 0xb944 0xd22f;
  It 0xb945 0xd231;
  It 0xb946 0xd232;
  It 0xb947 0xd233;
  It 0xb948 0xd235;
  It 0xb949 0xd236;
  It 0xb94a 0xd237;
  It 0xb94b 0xd238;
  It 0xb94c 0xd239;
  It 0xb94d 0xd23a;
  It 0xb94e 0xd23b;
  It 0xb94f 0xd23e;
  It 0xb950 0xd240;
  It 0xb951 0xd242;
  It 0xb952 0xd243;
  It 0xb953 0xd244;
  It 0xb954 0xd245;
  It 0xb955 0xd246;
  It 0xb956 0xd247;
  It 0xb957 0xd249;
  It 0xb958 0xd24a;
  It 0xb959 0xd24b;
  It 0xb95a 0xd24c;
  It 0xb961 0xd24d;
  It 0xb962 0xd24e;
  It 0xb963 0xd24f;
  It 0xb964 0xd250;
  It 0xb965 0xd251;
  It 0xb966 0xd252;
  It 0xb967 0xd253;
  It 0xb968 0xd254;
  It 0xb969 0xd255;
  It 0xb96a 0xd256;
  It 0xb96b 0xd257;
  It 0xb96c 0xd258;
  It 0xb96d 0xd259;
  It 0xb96e 0xd25a;
  It 0xb96f 0xd25b;
  It 0xb970 0xd25d;
  It 0xb971 0xd25e;
  It 0xb972 0xd25f;
  It 0xb973 0xd260;
  It 0xb974 0xd261;
  It 0xb975 0xd262;
  It 0xb976 0xd263;
  It 0xb977 0xd265;
  It 0xb978 0xd266;
  It 0xb979 0xd267;
  It 0xb97a 0xd268;
  It 0xb981 0xd269;
  It 0xb982 0xd26a;
  It 0xb983 0xd26b;
  It 0xb984 0xd26c;
  It 0xb985 0xd26d;
  It 0xb986 0xd26e;
  It 0xb987 0xd26f;
  It 0xb988 0xd270;
  It 0xb989 0xd271;
  It 0xb98a 0xd272;
  It 0xb98b 0xd273;
  It 0xb98c 0xd274;
  It 0xb98d 0xd275;
  It 0xb98e 0xd276;
  It 0xb98f 0xd277;
  It 0xb990 0xd278;
  It 0xb991 0xd279;
  It 0xb992 0xd27a;
  It 0xb993 0xd27b;
  It 0xb994 0xd27c;
  It 0xb995 0xd27d;
  It 0xb996 0xd27e;
  It 0xb997 0xd27f;
  It 0xb998 0xd282;
  It 0xb999 0xd283;
  It 0xb99a 0xd285;
  It 0xb99b 0xd286;
  It 0xb99c 0xd287;
  It 0xb99d 0xd289;
  It 0xb99e 0xd28a;
  It 0xb99f 0xd28b;
  It 0xb9a0 0xd28c;
  It 0xb9a1 0xbb00;
  It 0xb9a2 0xbb04;
  It 0xb9a3 0xbb0d;
  It 0xb9a4 0xbb0f;
  It 0xb9a5 0xbb11;
  It 0xb9a6 0xbb18;
  It 0xb9a7 0xbb1c;
  It 0xb9a8 0xbb20;
  It 0xb9a9 0xbb29;
  It 0xb9aa 0xbb2b;
  It 0xb9ab 0xbb34;
  It 0xb9ac 0xbb35;
  It 0xb9ad 0xbb36;
  It 0xb9ae 0xbb38;
  It 0xb9af 0xbb3b;
  It 0xb9b0 0xbb3c;
  It 0xb9b1 0xbb3d;
  It 0xb9b2 0xbb3e;
  It 0xb9b3 0xbb44;
  It 0xb9b4 0xbb45;
  It 0xb9b5 0xbb47;
  It 0xb9b6 0xbb49;
  It 0xb9b7 0xbb4d;
  It 0xb9b8 0xbb4f;
  It 0xb9b9 0xbb50;
  It 0xb9ba 0xbb54;
  It 0xb9bb 0xbb58;
  It 0xb9bc 0xbb61;
  It 0xb9bd 0xbb63;
  It 0xb9be 0xbb6c;
  It 0xb9bf 0xbb88;
  It 0xb9c0 0xbb8c;
  It 0xb9c1 0xbb90;
  It 0xb9c2 0xbba4;
  It 0xb9c3 0xbba8;
  It 0xb9c4 0xbbac;
  It 0xb9c5 0xbbb4;
  It 0xb9c6 0xbbb7;
  It 0xb9c7 0xbbc0;
  It 0xb9c8 0xbbc4;
  It 0xb9c9 0xbbc8;
  It 0xb9ca 0xbbd0;
  It 0xb9cb 0xbbd3;
  It 0xb9cc 0xbbf8;
  It 0xb9cd 0xbbf9;
  It 0xb9ce 0xbbfc;
  It 0xb9cf 0xbbff;
  It 0xb9d0 0xbc00;
  It 0xb9d1 0xbc02;
  It 0xb9d2 0xbc08;
  It 0xb9d3 0xbc09;
  It 0xb9d4 0xbc0b;
  It 0xb9d5 0xbc0c;
  It 0xb9d6 0xbc0d;
  It 0xb9d7 0xbc0f;
  It 0xb9d8 0xbc11;
  It 0xb9d9 0xbc14;
  It 0xb9da 0xbc15;
  It 0xb9db 0xbc16;
  It 0xb9dc 0xbc17;
  It 0xb9dd 0xbc18;
  It 0xb9de 0xbc1b;
  It 0xb9df 0xbc1c;
  It 0xb9e0 0xbc1d;
  It 0xb9e1 0xbc1e;
  It 0xb9e2 0xbc1f;
  It 0xb9e3 0xbc24;
  It 0xb9e4 0xbc25;
  It 0xb9e5 0xbc27;
  It 0xb9e6 0xbc29;
  It 0xb9e7 0xbc2d;
  It 0xb9e8 0xbc30;
  It 0xb9e9 0xbc31;
  It 0xb9ea 0xbc34;
  It 0xb9eb 0xbc38;
  It 0xb9ec 0xbc40;
  It 0xb9ed 0xbc41;
  It 0xb9ee 0xbc43;
  It 0xb9ef 0xbc44;
  It 0xb9f0 0xbc45;
  It 0xb9f1 0xbc49;
  It 0xb9f2 0xbc4c;
  It 0xb9f3 0xbc4d;
  It 0xb9f4 0xbc50;
  It 0xb9f5 0xbc5d;
  It 0xb9f6 0xbc84;
  It 0xb9f7 0xbc85;
  It 0xb9f8 0xbc88;
  It 0xb9f9 0xbc8b;
  It 0xb9fa 0xbc8c;
  It 0xb9fb 0xbc8e;
  It 0xb9fc 0xbc94;
  It 0xb9fd 0xbc95;
  It 0xb9fe 0xbc97;
  It 0xba41 0xd28d;
  It 0xba42 0xd28e;
  It 0xba43 0xd28f;
  It 0xba44 0xd292;
  It 0xba45 0xd293;
  It 0xba46 0xd294;
  It 0xba47 0xd296;
  It 0xba48 0xd297;
  It 0xba49 0xd298;
  It 0xba4a 0xd299;
  It 0xba4b 0xd29a;
  It 0xba4c 0xd29b;
  It 0xba4d 0xd29d;
  It 0xba4e 0xd29e;
  It 0xba4f 0xd29f;
  It 0xba50 0xd2a1;
  It 0xba51 0xd2a2;
  It 0xba52 0xd2a3;
  It 0xba53 0xd2a5;
  It 0xba54 0xd2a6;
  It 0xba55 0xd2a7;
  It 0xba56 0xd2a8;
  It 0xba57 0xd2a9;
  It 0xba58 0xd2aa;
  It 0xba59 0xd2ab;
  It 0xba5a 0xd2ad
].

(* encoding/cp949/lookup_from.go:9759-10008 *)
Definition fromTable_039 : list lookupItem := [
  It 0xba61 0xd2ae;
  It 0xba62 0xd2af;
  It 0xba63 0xd2b0;
  It 0xba64 0xd2b2;
  It 0xba65 0xd2b3;
  It 0xba66 0xd2b4;
  It 0xba67 0xd2b5;
  It 0xba68 0xd2b6;
  It 0xba69 0xd2b7;
  It 0xba6a 0xd2ba;
  It 0xba6b 0xd2bb;
  It 0xba6c 0xd2bd;
  It 0xba6d 0xd2be;
  It 0xba6e 0xd2c1;
  It 0xba6f 0xd2c3;
  It 0xba70 0xd2c4;
  It 0xba71 0xd2c5;
  It 0xba72 0xd2c6;
  It 0xba73 0xd2c7;
  It 0xba74 0xd2ca;
  It 0xba75 0xd2cc;
  It 0xba76 0xd2cd;
  It 0xba77 0xd2ce;
  It 0xba78 0xd2cf;
  It 0xba79 0xd2d0;
  It 0xba7a 0xd2d1;
  It 0xba81 0xd2d2;
  It 0xba82 0xd2d3;
  It 0xba83 0xd2d5;
  It 0xba84 0xd2d6;
  It 0xba85 0xd2d7;
  It 0xba86 0xd2d9;
  It 0xba87 0xd2da;
  It 0xba88 0xd2db;
  It 0xba89 0xd2dd;
  It 0xba8a 0xd2de;
  It 0xba8b 0xd2df;
  It 0xba8c 0xd2e0;
  It 0xba8d 0xd2e1;
  It 0xba8e 0xd2e2;
  It 0xba8f 0xd2e3;
  It 0xba90 0xd2e6;
  It 0xba91 0xd2e7;
  It 0xba92 0xd2e8;
  It 0xba93 0xd2e9;
  It 0xba94 0xd2ea;
  It 0xba95 0xd2eb;
  It 0xba96 0xd2ec;
  It 0xba97 0xd2ed;
  It 0xba98 0xd2ee;
  It 0xba99 0xd2ef;
  It 0xba9a 0xd2f2;
  It 0xba9b 0xd2f3;
  It 0xba9c 0xd2f5;
  It 0xba9d 0xd2f6;
  It 0xba9e 0xd2f7;
  It 0xba9f 0xd2f9;
  It 0xbaa0 0xd2fa;
  It 0xbaa1 0xbc99;
  It 0xbaa2 0xbc9a;
  It 0xbaa3 0xbca0;
  It 0xbaa4 0xbca1;
  It 0xbaa5 0xbca4;
  It 0xbaa6 0xbca7;
  It 0xbaa7 0xbca8;
  It 0xbaa8 0xbcb0;
  It 0xbaa9 0xbcb1;
  It 0xbaaa 0xbcb3;
  It 0xbaab 0xbcb4;
  It 0xbaac 0xbcb5;
  It 0xbaad 0xbcbc;
  It 0xbaae 0xbcbd;
  It 0xbaaf 0xbcc0;
  It 0xbab0 0xbcc4;
  It 0xbab1 0xbccd;
  It 0xbab2 0xbccf;
  It 0xbab3 0xbcd0;
  It 0xbab4 0xbcd1;
  It 0xbab5 0xbcd5;
  It 0xbab6 0xbcd8;
  It 0xbab7 0xbcdc;
  It 0xbab8 0xbcf4;
  It 0xbab9 0xbcf5;
  It 0xbaba 0xbcf6;
  It 0xbabb 0xbcf8;
  It 0xbabc 0xbcfc;
  It 0xbabd 0xbd04;
  It 0xbabe 0xbd05;
  It 0xbabf 0xbd07;
  It 0xbac0 0xbd09;
  It 0xbac1 0xbd10;
  It 0xbac2 0xbd14;
  It 0xbac3 0xbd24;
  It 0xbac4 0xbd2c;
  It 0xbac5 0xbd40;
  It 0xbac6 0xbd48;
  It 0xbac7 0xbd49;
  It 0xbac8 0xbd4c;
  It 0xbac9 0xbd50;
  It 0xbaca 0xbd58;
  It 0xbacb 0xbd59;
  It 0xbacc 0xbd64;
  It 0xbacd 0xbd68;
  It 0xbace 0xbd80;
  It 0xbacf 0xbd81;
  It 0xbad0 0xbd84;
  It 0xbad1 0xbd87;
  It 0xbad2 0xbd88;
  It 0xbad3 0xbd89;
  It 0xbad4 0xbd8a;
  It 0xbad5 0xbd90;
  It 0xbad6 0xbd91;
  It 0xbad7 0xbd93;
  It 0xbad8 0xbd95;
  It 0xbad9 0xbd99;
  It 0xbada 0xbd9a;
  It 0xbadb 0xbd9c;
  It 0xbadc 0xbda4;
  It 0xbadd 0xbdb0;
  It 0xbade 0xbdb8;
  It 0xbadf 0xbdd4;
  It 0xbae0 0xbdd5;
  It 0xbae1 0xbdd8;
  It 0xbae2 0xbddc;
  It 0xbae3 0xbde9;
  It 0xbae4 0xbdf0;
  It 0xbae5 0xbdf4;
  It 0xbae6 0xbdf8;
  It 0xbae7 0xbe00;
  It 0xbae8 0xbe03;
  It 0xbae9 0xbe05;
  It 0xbaea 0xbe0c;
  It 0xbaeb 0xbe0d;
  It 0xbaec 0xbe10;
  It 0xbaed 0xbe14;
  It 0xbaee 0xbe1c;
  It 0xbaef 0xbe1d;
  It 0xbaf0 0xbe1f;
  It 0xbaf1 0xbe44;
  It 0xbaf2 0xbe45;
  It 0xbaf3 0xbe48;
  It 0xbaf4 0xbe4c;
  It 0xbaf5 0xbe4e;
  It 0xbaf6 0xbe54;
  It 0xbaf7 0xbe55;
  It 0xbaf8 0xbe57;
  It 0xbaf9 0xbe59;
  It 0xbafa 0xbe5a;
  It 0xbafb 0xbe5b;
  It 0xbafc 0xbe60;
  It 0xbafd 0xbe61;
  It 0xbafe 0xbe64;
  It 0xbb41 0xd2fb;
  It 0xbb42 0xd2fc;
  It 0xbb43 0xd2fd;
  It 0xbb44 0xd2fe;
  It 0xbb45 0xd2ff;
  It 0xbb46 0xd302;
  It 0xbb47 0xd304;
  It 0xbb48 0xd306;
  It 0xbb49 0xd307;
  It 0xbb4a 0xd308;
  It 0xbb4b 0xd309;
  It 0xbb4c 0xd30a;
  It 0xbb4d 0xd30b;
  It 0xbb4e 0xd30f;
  It 0xbb4f 0xd311;
  It 0xbb50 0xd312;
  It 0xbb51 0xd313;
  It 0xbb52 0xd315;
  It 0xbb53 0xd317;
  It 0xbb54 0xd318;
  It 0xbb55 0xd319;
  It 0xbb56 0xd31a;
  It 0xbb57 0xd31b;
  It 0xbb58 0xd31e;
  It 0xbb59 0xd322;
  It 0xbb5a 0xd323;
  It 0xbb61 0xd324;
  It 0xbb62 0xd326;
  It 0xbb63 0xd327;
  It 0xbb64 0xd32a;
  It 0xbb65 0xd32b;
  It 0xbb66 0xd32d;
  It 0xbb67 0xd32e;
  It 0xbb68 0xd32f;
  It 0xbb69 0xd331;
  It 0xbb6a 0xd332;
  It 0xbb6b 0xd333;
  It 0xbb6c 0xd334;
  It 0xbb6d 0xd335;
  It 0xbb6e 0xd336;
  It 0xbb6f 0xd337;
  It 0xbb70 0xd33a;
  It 0xbb71 0xd33e;
  It 0xbb72 0xd33f;
  It 0xbb73 0xd340;
  It 0xbb74 0xd341;
  It 0xbb75 0xd342;
  It 0xbb76 0xd343;
  It 0xbb77 0xd346;
  It 0xbb78 0xd347;
  It 0xbb79 0xd348;
  It 0xbb7a 0xd349;
  It 0xbb81 0xd34a;
  It 0xbb82 0xd34b;
  It 0xbb83 0xd34c;
  It 0xbb84 0xd34d;
  It 0xbb85 0xd34e;
  It 0xbb86 0xd34f;
  It 0xbb87 0xd350;
  It 0xbb88 0xd351;
  It 0xbb89 0xd352;
  It 0xbb8a 0xd353;
  It 0xbb8b 0xd354;
  It 0xbb8c 0xd355;
  It 0xbb8d 0xd356;
  It 0xbb8e 0xd357;
  It 0xbb8f 0xd358;
  It 0xbb90 0xd359;
  It 0xbb91 0xd35a;
  It 0xbb92 0xd35b;
  It 0xbb93 0xd35c;
  It 0xbb94 0xd35d;
  It 0xbb95 0xd35e;
  It 0xbb96 0xd35f;
  It 0xbb97 0xd360;
  It 0xbb98 0xd361;
  It 0xbb99 0xd362;
  It 0xbb9a 0xd363;
  It 0xbb9b 0xd364;
  It 0xbb9c 0xd365;
  It 0xbb9d 0xd366;
  It 0xbb9e 0xd367;
  It 0xbb9f 0xd368;
  It 0xbba0 0xd369;
  It 0xbba1 0xbe68;
  It 0xbba2 0xbe6a;
  It 0xbba3 0xbe70;
  It 0xbba4 0xbe71;
  It 0xbba5 0xbe73;
  It 0xbba6 0xbe74;
  It 0xbba7 0xbe75;
  It 0xbba8 0xbe7b;
  It 0xbba9 0xbe7c;
  It 0xbbaa 0xbe7d;
  It 0xbbab 0xbe80;
  It 0xbbac 0xbe84;
  It 0xbbad 0xbe8c;
  It 0xbbae 0xbe8d
].

(* encoding/cp949/lookup_from.go:10009-10258 *)
Definition fromTable_040 : list lookupItem := [
  It 0xbbaf 0xbe8f;
  It 0xbbb0 0xbe90;
  It 0xbbb1 0xbe91;
  It 0xbbb2 0xbe98;
  It 0xbbb3 0xbe99;
  It 0xbbb4 0xbea8;
  It 0xbbb5 0xbed0;
  It 0xbbb6 0xbed1;
  It 0xbbb7 0xbed4;
  It 0xbbb8 0xbed7;
  It 0xbbb9 0xbed8;
  It 0xbbba 0xbee0;
  It 0xbbbb 0xbee3;
  It 0xbbbc 0xbee4;
  It 0xbbbd 0xbee5;
  It 0xbbbe 0xbeec;
  It 0xbbbf 0xbf01;
  It 0xbbc0 0xbf08;
  It 0xbbc1 0xbf09;
  It 0xbbc2 0xbf18;
  It 0xbbc3 0xbf19;
  It 0xbbc4 0xbf1b;
  It 0xbbc5 0xbf1c;
  It 0xbbc6 0xbf1d;
  It 0xbbc7 0xbf40;
  It 0xbbc8 0xbf41;
  It 0xbbc9 0xbf44;
  It 0xbbca 0xbf48;
  It 0xbbcb 0xbf50;
  It 0xbbcc 0xbf51;
  It 0xbbcd 0xbf55;
  It 0xbbce 0xbf94;
  It 0xbbcf 0xbfb0;
  It 0xbbd0 0xbfc5;
  It 0xbbd1 0xbfcc;
  It 0xbbd2 0xbfcd;
  It 0xbbd3 0xbfd0;
  It 0xbbd4 0xbfd4;
  It 0xbbd5 0xbfdc;
  It 0xbbd6 0xbfdf;
  It 0xbbd7 0xbfe1;
  It 0xbbd8 0xc03c;
  It 0xbbd9 0xc051;
  It 0xbbda 0xc058;
  It 0xbbdb 0xc05c;
  It 0xbbdc 0xc060;
  It 0xbbdd 0xc068;
  It 0xbbde 0xc069;
  It 0xbbdf 0xc090;
  It 0xbbe0 0xc091;
  It 0xbbe1 0xc094;
  It 0xbbe2 0xc098;
  It 0xbbe3 0xc0a0;
  It 0xbbe4 0xc0a1;
  It 0xbbe5 0xc0a3;
  It 0xbbe6 0xc0a5;
  It 0xbbe7 0xc0ac;
  It 0xbbe8 0xc0ad;
  It 0xbbe9 0xc0af;
  It 0xbbea 0xc0b0;
  It 0xbbeb 0xc0b3;
  It 0xbbec 0xc0b4;
  It 0xbbed 0xc0b5;
  It 0xbbee 0xc0b6;
  It 0xbbef 0xc0bc;
  It 0xbbf0 0xc0bd;
  It 0xbbf1 0xc0bf;
  It 0xbbf2 0xc0c0;
  It 0xbbf3 0xc0c1;
  It 0xbbf4 0xc0c5;
  It 0xbbf5 0xc0c8;
  It 0xbbf6 0xc0c9;
  It 0xbbf7 0xc0cc;
  It 0xbbf8 0xc0d0;
  It 0xbbf9 0xc0d8;
  It 0xbbfa 0xc0d9;
  It 0xbbfb 0xc0db;
  It 0xbbfc 0xc0dc;
  It 0xbbfd 0xc0dd;
  It 0xbbfe 0xc0e4;
  It 0xbc41 0xd36a;
  It 0xbc42 0xd36b;
  It 0xbc43 0xd36c;
  It 0xbc44 0xd36d;
  It 0xbc45 0xd36e;
  It 0xbc46 0xd36f;
  It 0xbc47 0xd370;
  It 0xbc48 0xd371;
  It 0xbc49 0xd372;
  It 0xbc4a 0xd373;
  It 0xbc4b 0xd374;
  It 0xbc4c 0xd375;
  It 0xbc4d 0xd376;
  It 0xbc4e 0xd377;
  It 0xbc4f 0xd378;
  It 0xbc50 0xd379;
  It 0xbc51 0xd37a;
  It 0xbc52 0xd37b;
  It 0xbc53 0xd37e;
  It 0xbc54 0xd37f;
  It 0xbc55 0xd381;
  It 0xbc56 0xd382;
  It 0xbc57 0xd383;
  It 0xbc58 0xd385;
  It 0xbc59 0xd386;
  It 0xbc5a 0xd387;
  It 0xbc61 0xd388;
  It 0xbc62 0xd389;
  It 0xbc63 0xd38a;
  It 0xbc64 0xd38b;
  It 0xbc65 0xd38e;
  It 0xbc66 0xd392;
  It 0xbc67 0xd393;
  It 0xbc68 0xd394;
  It 0xbc69 0xd395;
  It 0xbc6a 0xd396;
  It 0xbc6b 0xd397;
  It 0xbc6c 0xd39a;
  It 0xbc6d 0xd39b;
  It 0xbc6e 0xd39d;
  It 0xbc6f 0xd39e;
  It 0xbc70 0xd39f;
  It 0xbc71 0xd3a1;
  It 0xbc72 0xd3a2;
  It 0xbc73 0xd3a3;
  It 0xbc74 0xd3a4;
  It 0xbc75 0xd3a5;
  It 0xbc76 0xd3a6;
  It 0xbc77 0xd3a7;
  It 0xbc78 0xd3aa;
  It 0xbc79 0xd3ac;
  It 0xbc7a 0xd3ae;
  It 0xbc81 0xd3af;
  It 0xbc82 0xd3b0;
  It 0xbc83 0xd3b1;
  It 0xbc84 0xd3b2;
  It 0xbc85 0xd3b3;
  It 0xbc86 0xd3b5;
  It 0xbc87 0xd3b6;
  It 0xbc88 0xd3b7;
  It 0xbc89 0xd3b9;
  It 0xbc8a 0xd3ba;
  It 0xbc8b 0xd3bb;
  It 0xbc8c 0xd3bd;
  It 0xbc8d 0xd3be;
  It 0xbc8e 0xd3bf;
  It 0xbc8f 0xd3c0;
  It 0xbc90 0xd3c1;
  It 0xbc91 0xd3c2;
  It 0xbc92 0xd3c3;
  It 0xbc93 0xd3c6;
  It 0xbc94 0xd3c7;
  It 0xbc95 0xd3ca;
  It 0xbc96 0xd3cb;
  It 0xbc97 0xd3cc;
  It 0xbc98 0xd3cd;
  It 0xbc99 0xd3ce;
  It 0xbc9a 0xd3cf;
  It 0xbc9b 0xd3d1;
  It 0xbc9c 0xd3d2;
  It 0xbc9d 0xd3d3;
  It 0xbc9e 0xd3d4;
  It 0xbc9f 0xd3d5;
  It 0xbca0 0xd3d6;
  It 0xbca1 0xc0e5;
  It 0xbca2 0xc0e8;
  It 0xbca3 0xc0ec;
  It 0xbca4 0xc0f4;
  It 0xbca5 0xc0f5;
  It 0xbca6 0xc0f7;
  It 0xbca7 0xc0f9;
  It 0xbca8 0xc100;
  It 0xbca9 0xc104;
  It 0xbcaa 0xc108;
  It 0xbcab 0xc110;
  It 0xbcac 0xc115;
  It 0xbcad 0xc11c;
  It 0xbcae 0xc11d;
  It 0xbcaf 0xc11e;
  It 0xbcb0 0xc11f;
  It 0xbcb1 0xc120;
  It 0xbcb2 0xc123;
  It 0xbcb3 0xc124;
  It 0xbcb4 0xc126;
  It 0xbcb5 0xc127;
  It 0xbcb6 0xc12c;
  It 0xbcb7 0xc12d;
  It 0xbcb8 0xc12f;
  It 0xbcb9 0xc130;
  It 0xbcba 0xc131;
  It 0xbcbb 0xc136;
  It 0xbcbc 0xc138;
  It 0xbcbd 0xc139;
  It 0xbcbe 0xc13c;
  It 0xbcbf 0xc140;
  It 0xbcc0 0xc148;
  It 0xbcc1 0xc149;
  It 0xbcc2 0xc14b;
  It 0xbcc3 0xc14c;
  It 0xbcc4 0xc14d;
  It 0xbcc5 0xc154;
  It 0xbcc6 0xc155;
  It 0xbcc7 0xc158;
  It 0xbcc8 0xc15c;
  It 0xbcc9 0xc164;
  It 0xbcca 0xc165;
  It 0xbccb 0xc167;
  It 0xbccc 0xc168;
  It 0xbccd 0xc169;
  It 0xbcce 0xc170;
  It 0xbccf 0xc174;
  It 0xbcd0 0xc178;
  It 0xbcd1 0xc185;
  It 0xbcd2 0xc18c;
  It 0xbcd3 0xc18d;
  It 0xbcd4 0xc18e;
  It 0xbcd5 0xc190;
  It 0xbcd6 0xc194;
  It 0xbcd7 0xc196;
  It 0xbcd8 0xc19c;
  It 0xbcd9 0xc19d;
  It 0xbcda 0xc19f;
  It 0xbcdb 0xc1a1;
  It 0xbcdc 0xc1a5;
  It 0xbcdd 0xc1a8;
  It 0xbcde 0xc1a9;
  It 0xbcdf 0xc1ac;
  It 0xbce0 0xc1b0;
  It 0xbce1 0xc1bd;
  It 0xbce2 0xc1c4;
  It 0xbce3 0xc1c8;
  It 0xbce4 0xc1cc;
  It 0xbce5 0xc1d4;
  It 0xbce6 0xc1d7;
  It 0xbce7 0xc1d8;
  It 0xbce8 0xc1e0;
  It 0xbce9 0xc1e4;
  It 0xbcea 0xc1e8;
  It 0xbceb 0xc1f0;
  It 0xbcec 0xc1f1;
  It 0xbced 0xc1f3;
  It 0xbcee 0xc1fc;
  It 0xbcef 0xc1fd;
  It 0xbcf0 0xc200;
  It 0xbcf1 0xc204;
  It 0xbcf2 0xc20c;
  It 0xbcf3 0xc20d;
  It 0xbcf4 0xc20f;
  It 0xbcf5 0xc211;
  It 0xbcf6 0xc218
].

(* encoding/cp949/lookup_from.go:10259-10508 *)
Definition fromTable_041 : list lookupItem := [
  It 0xbcf7 0xc219;
  It 0xbcf8 0xc21c;
  It 0xbcf9 0xc21f;
  It 0xbcfa 0xc220;
  It 0xbcfb 0xc228;
  It 0xbcfc 0xc229;
  It 0xbcfd 0xc22b;
  It 0xbcfe 0xc22d;
  It 0xbd41 0xd3d7;
  It 0xbd42 0xd3d9;
  It 0xbd43 0xd3da;
  It 0xbd44 0xd3db;
  It 0xbd45 0xd3dc;
  It 0xbd46 0xd3dd;
  It 0xbd47 0xd3de;
  It 0xbd48 0xd3df;
  It 0xbd49 0xd3e0;
  It 0xbd4a 0xd3e2;
  It 0xbd4b 0xd3e4;
  It 0xbd4c 0xd3e5;
  It 0xbd4d 0xd3e6;
  It 0xbd4e 0xd3e7;
  It 0xbd4f 0xd3e8;
  It 0xbd50 0xd3e9;
  It 0xbd51 0xd3ea;
  It 0xbd52 0xd3eb;
  It 0xbd53 0xd3ee;
  It 0xbd54 0xd3ef;
  It 0xbd55 0xd3f1;
  It 0xbd56 0xd3f2;
  It 0xbd57 0xd3f3;
  It 0xbd58 0xd3f5;
  It 0xbd59 0xd3f6;
  It 0xbd5a 0xd3f7;
  It 0xbd61 0xd3f8;
  It 0xbd62 0xd3f9;
  It 0xbd63 0xd3fa;
  It 0xbd64 0xd3fb;
  It 0xbd65 0xd3fe;
  It 0xbd66 0xd400;
  It 0xbd67 0xd402;
  It 0xbd68 0xd403;
  It 0xbd69 0xd404;
  It 0xbd6a 0xd405;
  It 0xbd6b 0xd406;
  It 0xbd6c 0xd407;
  It 0xbd6d 0xd409;
  It 0xbd6e 0xd40a;
  It 0xbd6f 0xd40b;
  It 0xbd70 0xd40c;
  It 0xbd71 0xd40d;
  It 0xbd72 0xd40e;
  It 0xbd73 0xd40f;
  It 0xbd74 0xd410;
  It 0xbd75 0xd411;
  It 0xbd76 0xd412;
  It 0xbd77 0xd413;
  It 0xbd78 0xd414;
  It 0xbd79 0xd415;
  It 0xbd7a 0xd416;
  It 0xbd81 0xd417;
  It 0xbd82 0xd418;
  It 0xbd83 0xd419;
  It 0xbd84 0xd41a;
  It 0xbd85 0xd41b;
  It 0xbd86 0xd41c;
  It 0xbd87 0xd41e;
  It 0xbd88 0xd41f;
  It 0xbd89 0xd420;
  It 0xbd8a 0xd421;
  It 0xbd8b 0xd422;
  It 0xbd8c 0xd423;
  It 0xbd8d 0xd424;
  It 0xbd8e 0xd425;
  It 0xbd8f 0xd426;
  It 0xbd90 0xd427;
  It 0xbd91 0xd428;
  It 0xbd92 0xd429;
  It 0xbd93 0xd42a;
  It 0xbd94 0xd42b;
  It 0xbd95 0xd42c;
  It 0xbd96 0xd42d;
  It 0xbd97 0xd42e;
  It 0xbd98 0xd42f;
  It 0xbd99 0xd430;
  It 0xbd9a 0xd431;
  It 0xbd9b 0xd432;
  It 0xbd9c 0xd433;
  It 0xbd9d 0xd434;
  It 0xbd9e 0xd435;
  It 0xbd9f 0xd436;
  It 0xbda0 0xd437;
  It 0xbda1 0xc22f;
  It 0xbda2 0xc231;
  It 0xbda3 0xc232;
  It 0xbda4 0xc234;
  It 0xbda5 0xc248;
  It 0xbda6 0xc250;
  It 0xbda7 0xc251;
  It 0xbda8 0xc254;
  It 0xbda9 0xc258;
  It 0xbdaa 0xc260;
  It 0xbdab 0xc265;
  It 0xbdac 0xc26c;
  It 0xbdad 0xc26d;
  It 0xbdae 0xc270;
  It 0xbdaf 0xc274;
  It 0xbdb0 0xc27c;
  It 0xbdb1 0xc27d;
  It 0xbdb2 0xc27f;
  It 0xbdb3 0xc281;
  It 0xbdb4 0xc288;
  It 0xbdb5 0xc289;
  It 0xbdb6 0xc290;
  It 0xbdb7 0xc298;
  It 0xbdb8 0xc29b;
  It 0xbdb9 0xc29d;
  It 0xbdba 0xc2a4;
  It 0xbdbb 0xc2a5;
  It 0xbdbc 0xc2a8;
  It 0xbdbd 0xc2ac;
  It 0xbdbe 0xc2ad;
  It 0xbdbf 0xc2b4;
  It 0xbdc0 0xc2b5;
  It 0xbdc1 0xc2b7;
  It 0xbdc2 0xc2b9;
  It 0xbdc3 0xc2dc;
  It 0xbdc4 0xc2dd;
  It 0xbdc5 0xc2e0;
  It 0xbdc6 0xc2e3;
  It 0xbdc7 0xc2e4;
  It 0xbdc8 0xc2eb;
  It 0xbdc9 0xc2ec;
  It 0xbdca 0xc2ed;
  It 0xbdcb 0xc2ef;
  It 0xbdcc 0xc2f1;
  It 0xbdcd 0xc2f6;
  It 0xbdce 0xc2f8;
  It 0xbdcf 0xc2f9;
  It 0xbdd0 0xc2fb;
  It 0xbdd1 0xc2fc;
  It 0xbdd2 0xc300;
  It 0xbdd3 0xc308;
  It 0xbdd4 0xc309;
  It 0xbdd5 0xc30c;
  It 0xbdd6 0xc30d;
  It 0xbdd7 0xc313;
  It 0xbdd8 0xc314;
  It 0xbdd9 0xc315;
  It 0xbdda 0xc318;
  It 0xbddb 0xc31c;
  It 0xbddc 0xc324;
  It 0xbddd 0xc325;
  It 0xbdde 0xc328;
  It 0xbddf 0xc329;
  It 0xbde0 0xc345;
  It 0xbde1 0xc368;
  It 0xbde2 0xc369;
  It 0xbde3 0xc36c;
  It 0xbde4 0xc370;
  It 0xbde5 0xc372;
  It 0xbde6 0xc378;
  It 0xbde7 0xc379;
  It 0xbde8 0xc37c;
  It 0xbde9 0xc37d;
  It 0xbdea 0xc384;
  It 0xbdeb 0xc388;
  It 0xbdec 0xc38c;
  It 0xbded 0xc3c0;
  It 0xbdee 0xc3d8;
  It 0xbdef 0xc3d9;
  It 0xbdf0 0xc3dc;
  It 0xbdf1 0xc3df;
  It 0xbdf2 0xc3e0;
  It 0xbdf3 0xc3e2;
  It 0xbdf4 0xc3e8;
  It 0xbdf5 0xc3e9;
  It 0xbdf6 0xc3ed;
  It 0xbdf7 0xc3f4;
  It 0xbdf8 0xc3f5;
  It 0xbdf9 0xc3f8;
  It 0xbdfa 0xc408;
  It 0xbdfb 0xc410;
  It 0xbdfc 0xc424;
  It 0xbdfd 0xc42c;
  It 0xbdfe 0xc430;
  It 0xbe41 0xd438;
  It 0xbe42 0xd439;
  It 0xbe43 0xd43a;
  It 0xbe44 0xd43b;
  It 0xbe45 0xd43c;
  It 0xbe46 0xd43d;
  It 0xbe47 0xd43e;
  It 0xbe48 0xd43f;
  It 0xbe49 0xd441;
  It 0xbe4a 0xd442;
  It 0xbe4b 0xd443;
  It 0xbe4c 0xd445;
  It 0xbe4d 0xd446;
  It 0xbe4e 0xd447;
  It 0xbe4f 0xd448;
  It 0xbe50 0xd449;
  It 0xbe51 0xd44a;
  It 0xbe52 0xd44b;
  It 0xbe53 0xd44c;
  It 0xbe54 0xd44d;
  It 0xbe55 0xd44e;
  It 0xbe56 0xd44f;
  It 0xbe57 0xd450;
  It 0xbe58 0xd451;
  It 0xbe59 0xd452;
  It 0xbe5a 0xd453;
  It 0xbe61 0xd454;
  It 0xbe62 0xd455;
  It 0xbe63 0xd456;
  It 0xbe64 0xd457;
  It 0xbe65 0xd458;
  It 0xbe66 0xd459;
  It 0xbe67 0xd45a;
  It 0xbe68 0xd45b;
  It 0xbe69 0xd45d;
  It 0xbe6a 0xd45e;
  It 0xbe6b 0xd45f;
  It 0xbe6c 0xd461;
  It 0xbe6d 0xd462;
  It 0xbe6e 0xd463;
  It 0xbe6f 0xd465;
  It 0xbe70 0xd466;
  It 0xbe71 0xd467;
  It 0xbe72 0xd468;
  It 0xbe73 0xd469;
  It 0xbe74 0xd46a;
  It 0xbe75 0xd46b;
  It 0xbe76 0xd46c;
  It 0xbe77 0xd46e;
  It 0xbe78 0xd470;
  It 0xbe79 0xd471;
  It 0xbe7a 0xd472;
  It 0xbe81 0xd473;
  It 0xbe82 0xd474;
  It 0xbe83 0xd475;
  It 0xbe84 0xd476;
  It 0xbe85 0xd477;
  It 0xbe86 0xd47a;
  It 0xbe87 0xd47b;
  It 0xbe88 0xd47d;
  It 0xbe89 0xd47e;
  It 0xbe8a 0xd481;
  It 0xbe8b 0xd483;
  It 0xbe8c 0xd484
].

(* encoding/cp949/lookup_from.go:10509-10758 *)
Definition fromTable_042 : list lookupItem := [
  It 0xbe8d 0xd485;
  It 0xbe8e 0xd486;
  It 0xbe8f 0xd487;
  It 0xbe90 0xd48a;
  It 0xbe91 0xd48c;
  It 0xbe92 0xd48e;
  It 0xbe93 0xd48f;
  It 0xbe94 0xd490;
  It 0xbe95 0xd491;
  It 0xbe96 0xd492;
  It 0xbe97 0xd493;
  It 0xbe98 0xd495;
  It 0xbe99 0xd496;
  It 0xbe9a 0xd497;
  It 0xbe9b 0xd498;
  It 0xbe9c 0xd499;
  It 0xbe9d 0xd49a;
  It 0xbe9e 0xd49b;
  It 0xbe9f 0xd49c;
  It 0xbea0 0xd49d;
  It 0xbea1 0xc434;
  It 0xbea2 0xc43c;
  It 0xbea3 0xc43d;
  It 0xbea4 0xc448;
  It 0xbea5 0xc464;
  It 0xbea6 0xc465;
  It 0xbea7 0xc468;
  It 0xbea8 0xc46c;
  It 0xbea9 0xc474;
  It 0xbeaa 0xc475;
  It 0xbeab 0xc479;
  It 0xbeac 0xc480;
  It 0xbead 0xc494;
  It 0xbeae 0xc49c;
  It 0xbeaf 0xc4b8;
  It 0xbeb0 0xc4bc;
  It 0xbeb1 0xc4e9;
  It 0xbeb2 0xc4f0;
  It 0xbeb3 0xc4f1;
  It 0xbeb4 0xc4f4;
  It 0xbeb5 0xc4f8;
  It 0xbeb6 0xc4fa;
  It 0xbeb7 0xc4ff;
  It 0xbeb8 0xc500;
  It 0xbeb9 0xc501;
  It 0xbeba 0xc50c;
  It 0xbebb 0xc510;
  It 0xbebc 0xc514;
  It 0xbebd 0xc51c;
  It 0xbebe 0xc528;
  It 0xbebf 0xc529;
  It 0xbec0 0xc52c;
  It 0xbec1 0xc530;
  It 0xbec2 0xc538;
  It 0xbec3 0xc539;
  It 0xbec4 0xc53b;
  It 0xbec5 0xc53d;
  It 0xbec6 0xc544;
  It 0xbec7 0xc545;
  It 0xbec8 0xc548;
  It 0xbec9 0xc549;
  It 0xbeca 0xc54a;
  It 0xbecb 0xc54c;
  It 0xbecc 0xc54d;
  It 0xbecd 0xc54e;
  It 0xbece 0xc553;
  It 0xbecf 0xc554;
  It 0xbed0 0xc555;
  It 0xbed1 0xc557;
  It 0xbed2 0xc558;
  It 0xbed3 0xc559;
  It 0xbed4 0xc55d;
  It 0xbed5 0xc55e;
  It 0xbed6 0xc560;
  It 0xbed7 0xc561;
  It 0xbed8 0xc564;
  It 0xbed9 0xc568;
  It 0xbeda 0xc570;
  It 0xbedb 0xc571;
  It 0xbedc 0xc573;
  It 0xbedd 0xc574;
  It 0xbede 0xc575;
  It 0xbedf 0xc57c;
  It 0xbee0 0xc57d;
  It 0xbee1 0xc580;
  It 0xbee2 0xc584;
  It 0xbee3 0xc587;
  It 0xbee4 0xc58c;
  It 0xbee5 0xc58d;
  It 0xbee6 0xc58f;
  It 0xbee7 0xc591;
  It 0xbee8 0xc595;
  It 0xbee9 0xc597;
  It 0xbeea 0xc598;
  It 0xbeeb 0xc59c;
  It 0xbeec 0xc5a0;
  It 0xbeed 0xc5a9;
  It 0xbeee 0xc5b4;
  It 0xbeef 0xc5b5;
  It 0xbef0 0xc5b8;
  It 0xbef1 0xc5b9;
  It 0xbef2 0xc5bb;
  It 0xbef3 0xc5bc;
  It 0xbef4 0xc5bd;
  It 0xbef5 0xc5be;
  It 0xbef6 0xc5c4;
  It 0xbef7 0xc5c5;
  It 0xbef8 0xc5c6;
  It 0xbef9 0xc5c7;
  It 0xbefa 0xc5c8;
  It 0xbefb 0xc5c9;
  It 0xbefc 0xc5ca;
  It 0xbefd 0xc5cc;
  It 0xbefe 0xc5ce;
  It 0xbf41 0xd49e;
  It 0xbf42 0xd49f;
  It 0xbf43 0xd4a0;
  It 0xbf44 0xd4a1;
  It 0xbf45 0xd4a2;
  It 0xbf46 0xd4a3;
  It 0xbf47 0xd4a4;
  It 0xbf48 0xd4a5;
  It 0xbf49 0xd4a6;
  It 0xbf4a 0xd4a7;
  It 0xbf4b 0xd4a8;
  It 0xbf4c 0xd4aa;
  It 0xbf4d 0xd4ab;
  It 0xbf4e 0xd4ac;
  It 0xbf4f 0xd4ad;
  It 0xbf50 0xd4ae;
  It 0xbf51 0xd4af;
  It 0xbf52 0xd4b0;
  It 0xbf53 0xd4b1;
  It 0xbf54 0xd4b2;
  It 0xbf55 0xd4b3;
  It 0xbf56 0xd4b4;
  It 0xbf57 0xd4b5;
  It 0xbf58 0xd4b6;
  It 0xbf59 0xd4b7;
  It 0xbf5a 0xd4b8;
  It 0xbf61 0xd4b9;
  It 0xbf62 0xd4ba;
  It 0xbf63 0xd4bb;
  It 0xbf64 0xd4bc;
  It 0xbf65 0xd4bd;
  It 0xbf66 0xd4be;
  It 0xbf67 0xd4bf;
  It 0xbf68 0xd4c0;
  It 0xbf69 0xd4c1;
  It 0xbf6a 0xd4c2;
  It 0xbf6b 0xd4c3;
  It 0xbf6c 0xd4c4;
  It 0xbf6d 0xd4c5;
  It 0xbf6e 0xd4c6;
  It 0xbf6f 0xd4c7;
  It 0xbf70 0xd4c8;
  It 0xbf71 0xd4c9;
  It 0xbf72 0xd4ca;
  It 0xbf73 0xd4cb;
  It 0xbf74 0xd4cd;
  It 0xbf75 0xd4ce;
  It 0xbf76 0xd4cf;
  It 0xbf77 0xd4d1;
  It 0xbf78 0xd4d2;
  It 0xbf79 0xd4d3;
  It 0xbf7a 0xd4d5;
  It 0xbf81 0xd4d6;
  It 0xbf82 0xd4d7;
  It 0xbf83 0xd4d8;
  It 0xbf84 0xd4d9;
  It 0xbf85 0xd4da;
  It 0xbf86 0xd4db;
  It 0xbf87 0xd4dd;
  It 0xbf88 0xd4de;
  It 0xbf89 0xd4e0;
  It 0xbf8a 0xd4e1;
  It 0xbf8b 0xd4e2;
  It 0xbf8c 0xd4e3;
  It 0xbf8d 0xd4e4;
  It 0xbf8e 0xd4e5;
  It 0xbf8f 0xd4e6;
  It 0xbf90 0xd4e7;
  It 0xbf91 0xd4e9;
  It 0xbf92 0xd4ea;
  It 0xbf93 0xd4eb;
  It 0xbf94 0xd4ed;
  It 0xbf95 0xd4ee;
  It 0xbf96 0xd4ef;
  It 0xbf97 0xd4f1;
  It 0xbf98 0xd4f2;
  It 0xbf99 0xd4f3;
  It 0xbf9a 0xd4f4;
  It 0xbf9b 0xd4f5;
  It 0xbf9c 0xd4f6;
  It 0xbf9d 0xd4f7;
  It 0xbf9e 0xd4f9;
  It 0xbf9f 0xd4fa;
  It 0xbfa0 0xd4fc;
  It 0xbfa1 0xc5d0;
  It 0xbfa2 0xc5d1;
  It 0xbfa3 0xc5d4;
  It 0xbfa4 0xc5d8;
  It 0xbfa5 0xc5e0;
  It 0xbfa6 0xc5e1;
  It 0xbfa7 0xc5e3;
  It 0xbfa8 0xc5e5;
  It 0xbfa9 0xc5ec;
  It 0xbfaa 0xc5ed;
  It 0xbfab 0xc5ee;
  It 0xbfac 0xc5f0;
  It 0xbfad 0xc5f4;
  It 0xbfae 0xc5f6;
  It 0xbfaf 0xc5f7;
  It 0xbfb0 0xc5fc;
  It 0xbfb1 0xc5fd;
  It 0xbfb2 0xc5fe;
  It 0xbfb3 0xc5ff;
  It 0xbfb4 0xc600;
  It 0xbfb5 0xc601;
  It 0xbfb6 0xc605;
  It 0xbfb7 0xc606;
  It 0xbfb8 0xc607;
  It 0xbfb9 0xc608;
  It 0xbfba 0xc60c;
  It 0xbfbb 0xc610;
  It 0xbfbc 0xc618;
  It 0xbfbd 0xc619;
  It 0xbfbe 0xc61b;
  It 0xbfbf 0xc61c;
  It 0xbfc0 0xc624;
  It 0xbfc1 0xc625;
  It 0xbfc2 0xc628;
  It 0xbfc3 0xc62c;
  It 0xbfc4 0xc62d;
  It 0xbfc5 0xc62e;
  It 0xbfc6 0xc630;
  It 0xbfc7 0xc633;
  It 0xbfc8 0xc634;
  It 0xbfc9 0xc635;
  It 0xbfca 0xc637;
  It 0xbfcb 0xc639;
  It 0xbfcc 0xc63b;
  It 0xbfcd 0xc640;
  It 0xbfce 0xc641;
  It 0xbfcf 0xc644;
  It 0xbfd0 0xc648;
  It 0xbfd1 0xc650;
  It 0xbfd2 0xc651;
  It 0xbfd3 0xc653;
  It 0xbfd4 0xc654
].

(* encoding/cp949/lookup_from.go:10759-11008 *)
Definition fromTable_043 : list lookupItem := [
  It 0xbfd5 0xc655;
  It 0xbfd6 0xc65c;
  It 0xbfd7 0xc65d;
  It 0xbfd8 0xc660;
  It 0xbfd9 0xc66c;
  It 0xbfda 0xc66f;
  It 0xbfdb 0xc671;
  It 0xbfdc 0xc678;
  It 0xbfdd 0xc679;
  It 0xbfde 0xc67c;
  It 0xbfdf 0xc680;
  It 0xbfe0 0xc688;
  It 0xbfe1 0xc689;
  It 0xbfe2 0xc68b;
  It 0xbfe3 0xc68d;
  It 0xbfe4 0xc694;
  It 0xbfe5 0xc695;
  It 0xbfe6 0xc698;
  It 0xbfe7 0xc69c;
  It 0xbfe8 0xc6a4;
  It 0xbfe9 0xc6a5;
  It 0xbfea 0xc6a7;
  It 0xbfeb 0xc6a9;
  It 0xbfec 0xc6b0;
  It 0xbfed 0xc6b1;
  It 0xbfee 0xc6b4;
  It 0xbfef 0xc6b8;
  It 0xbff0 0xc6b9;
  It 0xbff1 0xc6ba;
  It 0xbff2 0xc6c0;
  It 0xbff3 0xc6c1;
  It 0xbff4 0xc6c3;
  It 0xbff5 0xc6c5;
  It 0xbff6 0xc6cc;
  It 0xbff7 0xc6cd;
  It 0xbff8 0xc6d0;
  It 0xbff9 0xc6d4;
  It 0xbffa 0xc6dc;
  It 0xbffb 0xc6dd;
  It 0xbffc 0xc6e0;
  It 0xbffd 0xc6e1;
  It 0xbffe 0xc6e8;
  It 0xc041 0xd4fe;
  It 0xc042 0xd4ff;
  It 0xc043 0xd500;
  It 0xc044 0xd501;
  It 0xc045 0xd502;
  It 0xc046 0xd503;
  It 0xc047 0xd505;
  It 0xc048 0xd506;
  It 0xc049 0xd507;
  It 0xc04a 0xd509;
  It 0xc04b 0xd50a;
  It 0xc04c 0xd50b;
  It 0xc04d 0xd50d;
  It 0xc04e 0xd50e;
  It 0xc04f 0xd50f;
  It 0xc050 0xd510;
  It 0xc051 0xd511;
  It 0xc052 0xd512;
  It 0xc053 0xd513;
  It 0xc054 0xd516;
  It 0xc055 0xd518;
  It 0xc056 0xd519;
  It 0xc057 0xd51a;
  It 0xc058 0xd51b;
  It 0xc059 0xd51c;
  It 0xc05a 0xd51d;
  It 0xc061 0xd51e;
  It 0xc062 0xd51f;
  It 0xc063 0xd520;
  It 0xc064 0xd521;
  It 0xc065 0xd522;
  It 0xc066 0xd523;
  It 0xc067 0xd524;
  It 0xc068 0xd525;
  It 0xc069 0xd526;
  It 0xc06a 0xd527;
  It 0xc06b 0xd528;
  It 0xc06c 0xd529;
  It 0xc06d 0xd52a;
  It 0xc06e 0xd52b;
  It 0xc06f 0xd52c;
  It 0xc070 0xd52d;
  It 0xc071 0xd52e;
  It 0xc072 0xd52f;
  It 0xc073 0xd530;
  It 0xc074 0xd531;
  It 0xc075 0xd532;
  It 0xc076 0xd533;
  It 0xc077 0xd534;
  It 0xc078 0xd535;
  It 0xc079 0xd536;
  It 0xc07a 0xd537;
  It 0xc081 0xd538;
  It 0xc082 0xd539;
  It 0xc083 0xd53a;
  It 0xc084 0xd53b;
  It 0xc085 0xd53e;
  It 0xc086 0xd53f;
  It 0xc087 0xd541;
  It 0xc088 0xd542;
  It 0xc089 0xd543;
  It 0xc08a 0xd545;
  It 0xc08b 0xd546;
  It 0xc08c 0xd547;
  It 0xc08d 0xd548;
  It 0xc08e 0xd549;
  It 0xc08f 0xd54a;
  It 0xc090 0xd54b;
  It 0xc091 0xd54e;
  It 0xc092 0xd550;
  It 0xc093 0xd552;
  It 0xc094 0xd553;
  It 0xc095 0xd554;
  It 0xc096 0xd555;
  It 0xc097 0xd556;
  It 0xc098 0xd557;
  It 0xc099 0xd55a;
  It 0xc09a 0xd55b;
  It 0xc09b 0xd55d;
  It 0xc09c 0xd55e;
  It 0xc09d 0xd55f;
  It 0xc09e 0xd561;
  It 0xc09f 0xd562;
  It 0xc0a0 0xd563;
  It 0xc0a1 0xc6e9;
  It 0xc0a2 0xc6ec;
  It 0xc0a3 0xc6f0;
  It 0xc0a4 0xc6f8;
  It 0xc0a5 0xc6f9;
  It 0xc0a6 0xc6fd;
  It 0xc0a7 0xc704;
  It 0xc0a8 0xc705;
  It 0xc0a9 0xc708;
  It 0xc0aa 0xc70c;
  It 0xc0ab 0xc714;
  It 0xc0ac 0xc715;
  It 0xc0ad 0xc717;
  It 0xc0ae 0xc719;
  It 0xc0af 0xc720;
  It 0xc0b0 0xc721;
  It 0xc0b1 0xc724;
  It 0xc0b2 0xc728;
  It 0xc0b3 0xc730;
  It 0xc0b4 0xc731;
  It 0xc0b5 0xc733;
  It 0xc0b6 0xc735;
  It 0xc0b7 0xc737;
  It 0xc0b8 0xc73c;
  It 0xc0b9 0xc73d;
  It 0xc0ba 0xc740;
  It 0xc0bb 0xc744;
  It 0xc0bc 0xc74a;
  It 0xc0bd 0xc74c;
  It 0xc0be 0xc74d;
  It 0xc0bf 0xc74f;
  It 0xc0c0 0xc751;
  It 0xc0c1 0xc752;
  It 0xc0c2 0xc753;
  It 0xc0c3 0xc754;
  It 0xc0c4 0xc755;
  It 0xc0c5 0xc756;
  It 0xc0c6 0xc757;
  It 0xc0c7 0xc758;
  It 0xc0c8 0xc75c;
  It 0xc0c9 0xc760;
  It 0xc0ca 0xc768;
  It 0xc0cb 0xc76b;
  It 0xc0cc 0xc774;
  It 0xc0cd 0xc775;
  It 0xc0ce 0xc778;
  It 0xc0cf 0xc77c;
  It 0xc0d0 0xc77d;
  It 0xc0d1 0xc77e;
  It 0xc0d2 0xc783;
  It 0xc0d3 0xc784;
  It 0xc0d4 0xc785;
  It 0xc0d5 0xc787;
  It 0xc0d6 0xc788;
  It 0xc0d7 0xc789;
  It 0xc0d8 0xc78a;
  It 0xc0d9 0xc78e;
  It 0xc0da 0xc790;
  It 0xc0db 0xc791;
  It 0xc0dc 0xc794;
  It 0xc0dd 0xc796;
  It 0xc0de 0xc797;
  It 0xc0df 0xc798;
  It 0xc0e0 0xc79a;
  It 0xc0e1 0xc7a0;
  It 0xc0e2 0xc7a1;
  It 0xc0e3 0xc7a3;
  It 0xc0e4 0xc7a4;
  It 0xc0e5 0xc7a5;
  It 0xc0e6 0xc7a6;
  It 0xc0e7 0xc7ac;
  It 0xc0e8 0xc7ad;
  It 0xc0e9 0xc7b0;
  It 0xc0ea 0xc7b4;
  It 0xc0eb 0xc7bc;
  It 0xc0ec 0xc7bd;
  It 0xc0ed 0xc7bf;
  It 0xc0ee 0xc7c0;
  It 0xc0ef 0xc7c1;
  It 0xc0f0 0xc7c8;
  It 0xc0f1 0xc7c9;
  It 0xc0f2 0xc7cc;
  It 0xc0f3 0xc7ce;
  It 0xc0f4 0xc7d0;
  It 0xc0f5 0xc7d8;
  It 0xc0f6 0xc7dd;
  It 0xc0f7 0xc7e4;
  It 0xc0f8 0xc7e8;
  It 0xc0f9 0xc7ec;
  It 0xc0fa 0xc800;
  It 0xc0fb 0xc801;
  It 0xc0fc 0xc804;
  It 0xc0fd 0xc808;
  It 0xc0fe 0xc80a;
  It 0xc141 0xd564;
  It 0xc142 0xd566;
  It 0xc143 0xd567;
  It 0xc144 0xd56a;
  It 0xc145 0xd56c;
  It 0xc146 0xd56e;
  It 0xc147 0xd56f;
  It 0xc148 0xd570;
  It 0xc149 0xd571;
  It 0xc14a 0xd572;
  It 0xc14b 0xd573;
  It 0xc14c 0xd576;
  It 0xc14d 0xd577;
  It 0xc14e 0xd579;
  It 0xc14f 0xd57a;
  It 0xc150 0xd57b;
  It 0xc151 0xd57d;
  It 0xc152 0xd57e;
  It 0xc153 0xd57f;
  It 0xc154 0xd580;
  It 0xc155 0xd581;
  It 0xc156 0xd582;
  It 0xc157 0xd583;
  It 0xc158 0xd586;
  It 0xc159 0xd58a;
  It 0xc15a 0xd58b;
  It 0xc161 0xd58c;
  It 0xc162 0xd58d;
  It 0xc163 0xd58e;
  It 0xc164 0xd58f
].

(* encoding/cp949/lookup_from.go:11009-11258 *)
Definition fromTable_044 : list lookupItem := [
  It 0xc165 0xd591;
  It 0xc166 0xd592;
  It 0xc167 0xd593;
  It 0xc168 0xd594;
  It 0xc169 0xd595;
  It 0xc16a 0xd596;
  It 0xc16b 0xd597;
  It 0xc16c 0xd598;
  It 0xc16d 0xd599;
  It 0xc16e 0xd59a;
  It 0xc16f 0xd59b;
  It 0xc170 0xd59c;
  It 0xc171 0xd59d;
  It 0xc172 0xd59e;
  It 0xc173 0xd59f;
  It 0xc174 0xd5a0;
  It 0xc175 0xd5a1;
  It 0xc176 0xd5a2;
  It 0xc177 0xd5a3;
  It 0xc178 0xd5a4;
  It 0xc179 0xd5a6;
  It 0xc17a 0xd5a7;
  It 0xc181 0xd5a8;
  It 0xc182 0xd5a9;
  It 0xc183 0xd5aa;
  It 0xc184 0xd5ab;
  It 0xc185 0xd5ac;
  It 0xc186 0xd5ad;
  It 0xc187 0xd5ae;
  It 0xc188 0xd5af;
  It 0xc189 0xd5b0;
  It 0xc18a 0xd5b1;
  It 0xc18b 0xd5b2;
  It 0xc18c 0xd5b3;
  It 0xc18d 0xd5b4;
  It 0xc18e 0xd5b5;
  It 0xc18f 0xd5b6;
  It 0xc190 0xd5b7;
  It 0xc191 0xd5b8;
  It 0xc192 0xd5b9;
  It 0xc193 0xd5ba;
  It 0xc194 0xd5bb;
  It 0xc195 0xd5bc;
  It 0xc196 0xd5bd;
  It 0xc197 0xd5be;
  It 0xc198 0xd5bf;
  It 0xc199 0xd5c0;
  It 0xc19a 0xd5c1;
  It 0xc19b 0xd5c2;
  It 0xc19c 0xd5c3;
  It 0xc19d 0xd5c4;
  It 0xc19e 0xd5c5;
  It 0xc19f 0xd5c6;
  It 0xc1a0 0xd5c7;
  It 0xc1a1 0xc810;
  It 0xc1a2 0xc811;
  It 0xc1a3 0xc813;
  It 0xc1a4 0xc815;
  It 0xc1a5 0xc816;
  It 0xc1a6 0xc81c;
  It 0xc1a7 0xc81d;
  It 0xc1a8 0xc820;
  It 0xc1a9 0xc824;
  It 0xc1aa 0xc82c;
  It 0xc1ab 0xc82d;
  It 0xc1ac 0xc82f;
  It 0xc1ad 0xc831;
  It 0xc1ae 0xc838;
  It 0xc1af 0xc83c;
  It 0xc1b0 0xc840;
  It 0xc1b1 0xc848;
  It 0xc1b2 0xc849;
  It 0xc1b3 0xc84c;
  It 0xc1b4 0xc84d;
  It 0xc1b5 0xc854;
  It 0xc1b6 0xc870;
  It 0xc1b7 0xc871;
  It 0xc1b8 0xc874;
  It 0xc1b9 0xc878;
  It 0xc1ba 0xc87a;
  It 0xc1bb 0xc880;
  It 0xc1bc 0xc881;
  It 0xc1bd 0xc883;
  It 0xc1be 0xc885;
  It 0xc1bf 0xc886;
  It 0xc1c0 0xc887;
  It 0xc1c1 0xc88b;
  It 0xc1c2 0xc88c;
  It 0xc1c3 0xc88d;
  It 0xc1c4 0xc894;
  It 0xc1c5 0xc89d;
  It 0xc1c6 0xc89f;
  It 0xc1c7 0xc8a1;
  It 0xc1c8 0xc8a8;
  It 0xc1c9 0xc8bc;
  It 0xc1ca 0xc8bd;
  It 0xc1cb 0xc8c4;
  It 0xc1cc 0xc8c8;
  It 0xc1cd 0xc8cc;
  It 0xc1ce 0xc8d4;
  It 0xc1cf 0xc8d5;
  It 0xc1d0 0xc8d7;
  It 0xc1d1 0xc8d9;
  It 0xc1d2 0xc8e0;
  It 0xc1d3 0xc8e1;
  It 0xc1d4 0xc8e4;
  It 0xc1d5 0xc8f5;
  It 0xc1d6 0xc8fc;
  It 0xc1d7 0xc8fd;
  It 0xc1d8 0xc900;
  It 0xc1d9 0xc904;
  It 0xc1da 0xc905;
  It 0xc1db 0xc906;
  It 0xc1dc 0xc90c;
  It 0xc1dd 0xc90d;
  It 0xc1de 0xc90f;
  It 0xc1df 0xc911;
  It 0xc1e0 0xc918;
  It 0xc1e1 0xc92c;
  It 0xc1e2 0xc934;
  It 0xc1e3 0xc950;
  It 0xc1e4 0xc951;
  It 0xc1e5 0xc954;
  It 0xc1e6 0xc958;
  It 0xc1e7 0xc960;
  It 0xc1e8 0xc961;
  It 0xc1e9 0xc963;
  It 0xc1ea 0xc96c;
  It 0xc1eb 0xc970;
  It 0xc1ec 0xc974;
  It 0xc1ed 0xc97c;
  It 0xc1ee 0xc988;
  It 0xc1ef 0xc989;
  It 0xc1f0 0xc98c;
  It 0xc1f1 0xc990;
  It 0xc1f2 0xc998;
  It 0xc1f3 0xc999;
  It 0xc1f4 0xc99b;
  It 0xc1f5 0xc99d;
  It 0xc1f6 0xc9c0;
  It 0xc1f7 0xc9c1;
  It 0xc1f8 0xc9c4;
  It 0xc1f9 0xc9c7;
  It 0xc1fa 0xc9c8;
  It 0xc1fb 0xc9ca;
  It 0xc1fc 0xc9d0;
  It 0xc1fd 0xc9d1;
  It 0xc1fe 0xc9d3;
  It 0xc241 0xd5ca;
  It 0xc242 0xd5cb;
  It 0xc243 0xd5cd;
  It 0xc244 0xd5ce;
  It 0xc245 0xd5cf;
  It 0xc246 0xd5d1;
  It 0xc247 0xd5d3;
  It 0xc248 0xd5d4;
  It 0xc249 0xd5d5;
  It 0xc24a 0xd5d6;
  It 0xc24b 0xd5d7;
  It 0xc24c 0xd5da;
  It 0xc24d 0xd5dc;
  It 0xc24e 0xd5de;
  It 0xc24f 0xd5df;
  It 0xc250 0xd5e0;
  It 0xc251 0xd5e1;
  It 0xc252 0xd5e2;
  It 0xc253 0xd5e3;
  It 0xc254 0xd5e6;
  It 0xc255 0xd5e7;
  It 0xc256 0xd5e9;
  It 0xc257 0xd5ea;
  It 0xc258 0xd5eb;
  It 0xc259 0xd5ed;
  It 0xc25a 0xd5ee;
  It 0xc261 0xd5ef;
  It 0xc262 0xd5f0;
  It 0xc263 0xd5f1;
  It 0xc264 0xd5f2;
  It 0xc265 0xd5f3;
  It 0xc266 0xd5f6;
  It 0xc267 0xd5f8;
  It 0xc268 0xd5fa;
  It 0xc269 0xd5fb;
  It 0xc26a 0xd5fc;
  It 0xc26b 0xd5fd;
  It 0xc26c 0xd5fe;
  It 0xc26d 0xd5ff;
  It 0xc26e 0xd602;
  It 0xc26f 0xd603;
  It 0xc270 0xd605;
  It 0xc271 0xd606;
  It 0xc272 0xd607;
  It 0xc273 0xd609;
  It 0xc274 0xd60a;
  It 0xc275 0xd60b;
  It 0xc276 0xd60c;
  It 0xc277 0xd60d;
  It 0xc278 0xd60e;
  It 0xc279 0xd60f;
  It 0xc27a 0xd612;
  It 0xc281 0xd616;
  It 0xc282 0xd617;
  It 0xc283 0xd618;
  It 0xc284 0xd619;
  It 0xc285 0xd61a;
  It 0xc286 0xd61b;
  It 0xc287 0xd61d;
  It 0xc288 0xd61e;
  It 0xc289 0xd61f;
  It 0xc28a 0xd621;
  It 0xc28b 0xd622;
  It 0xc28c 0xd623;
  It 0xc28d 0xd625;
  It 0xc28e 0xd626;
  It 0xc28f 0xd627;
  It 0xc290 0xd628;
  It 0xc291 0xd629;
  It 0xc292 0xd62a;
  It 0xc293 0xd62b;
  It 0xc294 0xd62c;
  It 0xc295 0xd62e;
  It 0xc296 0xd62f;
  It 0xc297 0xd630;
  It 0xc298 0xd631;
  It 0xc299 0xd632;
  It 0xc29a 0xd633;
  It 0xc29b 0xd634;
  It 0xc29c 0xd635;
  It 0xc29d 0xd636;
  It 0xc29e 0xd637;
  It 0xc29f 0xd63a;
  It 0xc2a0 0xd63b;
  It 0xc2a1 0xc9d5;
  It 0xc2a2 0xc9d6;
  It 0xc2a3 0xc9d9;
  It 0xc2a4 0xc9da;
  It 0xc2a5 0xc9dc;
  It 0xc2a6 0xc9dd;
  It 0xc2a7 0xc9e0;
  It 0xc2a8 0xc9e2;
  It 0xc2a9 0xc9e4;
  It 0xc2aa 0xc9e7;
  It 0xc2ab 0xc9ec;
  It 0xc2ac 0xc9ed;
  It 0xc2ad 0xc9ef;
  It 0xc2ae 0xc9f0;
  It 0xc2af 0xc9f1;
  It 0xc2b0 0xc9f8;
  It 0xc2b1 0xc9f9;
  It 0xc2b2 0xc9fc
].

(* encoding/cp949/lookup_from.go:11259-11508 *)
Definition fromTable_045 : list lookupItem := [
  It 0xc2b3 0xca00;
  It 0xc2b4 0xca08;
  It 0xc2b5 0xca09;
  It 0xc2b6 0xca0b;
  It 0xc2b7 0xca0c;
  It 0xc2b8 0xca0d;
  It 0xc2b9 0xca14;
  It 0xc2ba 0xca18;
  It 0xc2bb 0xca29;
  It 0xc2bc 0xca4c;
  It 0xc2bd 0xca4d;
  It 0xc2be 0xca50;
  It 0xc2bf 0xca54;
  It 0xc2c0 0xca5c;
  It 0xc2c1 0xca5d;
  It 0xc2c2 0xca5f;
  It 0xc2c3 0xca60;
  It 0xc2c4 0xca61;
  It 0xc2c5 0xca68;
  It 0xc2c6 0xca7d;
  It 0xc2c7 0xca84;
  It 0xc2c8 0xca98;
  It 0xc2c9 0xcabc;
  It 0xc2ca 0xcabd;
  It 0xc2cb 0xcac0;
  It 0xc2cc 0xcac4;
  It 0xc2cd 0xcacc;
  It 0xc2ce 0xcacd;
  It 0xc2cf 0xcacf;
  It 0xc2d0 0xcad1;
  It 0xc2d1 0xcad3;
  It 0xc2d2 0xcad8;
  It 0xc2d3 0xcad9;
  It 0xc2d4 0xcae0;
  It 0xc2d5 0xcaec;
  It 0xc2d6 0xcaf4;
  It 0xc2d7 0xcb08;
  It 0xc2d8 0xcb10;
  It 0xc2d9 0xcb14;
  It 0xc2da 0xcb18;
  It 0xc2db 0xcb20;
  It 0xc2dc 0xcb21;
  It 0xc2dd 0xcb41;
  It 0xc2de 0xcb48;
  It 0xc2df 0xcb49;
  It 0xc2e0 0xcb4c;
  It 0xc2e1 0xcb50;
  It 0xc2e2 0xcb58;
  It 0xc2e3 0xcb59;
  It 0xc2e4 0xcb5d;
  It 0xc2e5 0xcb64;
  It 0xc2e6 0xcb78;
  It 0xc2e7 0xcb79;
  It 0xc2e8 0xcb9c;
  It 0xc2e9 0xcbb8;
  It 0xc2ea 0xcbd4;
  It 0xc2eb 0xcbe4;
  It 0xc2ec 0xcbe7;
  It 0xc2ed 0xcbe9;
  It 0xc2ee 0xcc0c;
  It 0xc2ef 0xcc0d;
  It 0xc2f0 0xcc10;
  It 0xc2f1 0xcc14;
  It 0xc2f2 0xcc1c;
  It 0xc2f3 0xcc1d;
  It 0xc2f4 0xcc21;
  It 0xc2f5 0xcc22;
  It 0xc2f6 0xcc27;
  It 0xc2f7 0xcc28;
  It 0xc2f8 0xcc29;
  It 0xc2f9 0xcc2c;
  It 0xc2fa 0xcc2e;
  It 0xc2fb 0xcc30;
  It 0xc2fc 0xcc38;
  It 0xc2fd 0xcc39;
  It 0xc2fe 0xcc3b;
  It 0xc341 0xd63d;
  It 0xc342 0xd63e;
  It 0xc343 0xd63f;
  It 0xc344 0xd641;
  It 0xc345 0xd642;
  It 0xc346 0xd643;
  It 0xc347 0xd644;
  It 0xc348 0xd646;
  It 0xc349 0xd647;
  It 0xc34a 0xd64a;
  It 0xc34b 0xd64c;
  It 0xc34c 0xd64e;
  It 0xc34d 0xd64f;
  It 0xc34e 0xd650;
  It 0xc34f 0xd652;
  It 0xc350 0xd653;
  It 0xc351 0xd656;
  It 0xc352 0xd657;
  It 0xc353 0xd659;
  It 0xc354 0xd65a;
  It 0xc355 0xd65b;
  It 0xc356 0xd65d;
  It 0xc357 0xd65e;
  It 0xc358 0xd65f;
  It 0xc359 0xd660;
  It 0xc35a 0xd661;
  It 0xc361 0xd662;
  It 0xc362 0xd663;
  It 0xc363 0xd664;
  It 0xc364 0xd665;
  It 0xc365 0xd666;
  It 0xc366 0xd668;
  It 0xc367 0xd66a;
  It 0xc368 0xd66b;
  It 0xc369 0xd66c;
  It 0xc36a 0xd66d;
  It 0xc36b 0xd66e;
  It 0xc36c 0xd66f;
  It 0xc36d 0xd672;
  It 0xc36e 0xd673;
  It 0xc36f 0xd675;
  It 0xc370 0xd676;
  It 0xc371 0xd677;
  It 0xc372 0xd678;
  It 0xc373 0xd679;
  It 0xc374 0xd67a;
  It 0xc375 0xd67b;
  It 0xc376 0xd67c;
  It 0xc377 0xd67d;
  It 0xc378 0xd67e;
  It 0xc379 0xd67f;
  It 0xc37a 0xd680;
  It 0xc381 0xd681;
  It 0xc382 0xd682;
  It 0xc383 0xd684;
  It 0xc384 0xd686;
  It 0xc385 0xd687;
  It 0xc386 0xd688;
  It 0xc387 0xd689;
  It 0xc388 0xd68a;
  It 0xc389 0xd68b;
  It 0xc38a 0xd68e;
  It 0xc38b 0xd68f;
  It 0xc38c 0xd691;
  It 0xc38d 0xd692;
  It 0xc38e 0xd693;
  It 0xc38f 0xd695;
  It 0xc390 0xd696;
  It 0xc391 0xd697;
  It 0xc392 0xd698;
  It 0xc393 0xd699;
  It 0xc394 0xd69a;
  It 0xc395 0xd69b;
  It 0xc396 0xd69c;
  It 0xc397 0xd69e;
  It 0xc398 0xd6a0;
  It 0xc399 0xd6a2;
  It 0xc39a 0xd6a3;
  It 0xc39b 0xd6a4;
  It 0xc39c 0xd6a5;
  It 0xc39d 0xd6a6;
  It 0xc39e 0xd6a7;
  It 0xc39f 0xd6a9;
  It 0xc3a0 0xd6aa;
  It 0xc3a1 0xcc3c;
  It 0xc3a2 0xcc3d;
  It 0xc3a3 0xcc3e;
  It 0xc3a4 0xcc44;
  It 0xc3a5 0xcc45;
  It 0xc3a6 0xcc48;
  It 0xc3a7 0xcc4c;
  It 0xc3a8 0xcc54;
  It 0xc3a9 0xcc55;
  It 0xc3aa 0xcc57;
  It 0xc3ab 0xcc58;
  It 0xc3ac 0xcc59;
  It 0xc3ad 0xcc60;
  It 0xc3ae 0xcc64;
  It 0xc3af 0xcc66;
  It 0xc3b0 0xcc68;
  It 0xc3b1 0xcc70;
  It 0xc3b2 0xcc75;
  It 0xc3b3 0xcc98;
  It 0xc3b4 0xcc99;
  It 0xc3b5 0xcc9c;
  It 0xc3b6 0xcca0;
  It 0xc3b7 0xcca8;
  It 0xc3b8 0xcca9;
  It 0xc3b9 0xccab;
  It 0xc3ba 0xccac;
  It 0xc3bb 0xccad;
  It 0xc3bc 0xccb4;
  It 0xc3bd 0xccb5;
  It 0xc3be 0xccb8;
  It 0xc3bf 0xccbc;
  It 0xc3c0 0xccc4;
  It 0xc3c1 0xccc5;
  It 0xc3c2 0xccc7;
  It 0xc3c3 0xccc9;
  It 0xc3c4 0xccd0;
  It 0xc3c5 0xccd4;
  It 0xc3c6 0xcce4;
  It 0xc3c7 0xccec;
  It 0xc3c8 0xccf0;
  It 0xc3c9 0xcd01;
  It 0xc3ca 0xcd08;
  It 0xc3cb 0xcd09;
  It 0xc3cc 0xcd0c;
  It 0xc3cd 0xcd10;
  It 0xc3ce 0xcd18;
  It 0xc3cf 0xcd19;
  It 0xc3d0 0xcd1b;
  It 0xc3d1 0xcd1d;
  It 0xc3d2 0xcd24;
  It 0xc3d3 0xcd28;
  It 0xc3d4 0xcd2c;
  It 0xc3d5 0xcd39;
  It 0xc3d6 0xcd5c;
  It 0xc3d7 0xcd60;
  It 0xc3d8 0xcd64;
  It 0xc3d9 0xcd6c;
  It 0xc3da 0xcd6d;
  It 0xc3db 0xcd6f;
  It 0xc3dc 0xcd71;
  It 0xc3dd 0xcd78;
  It 0xc3de 0xcd88;
  It 0xc3df 0xcd94;
  It 0xc3e0 0xcd95;
  It 0xc3e1 0xcd98;
  It 0xc3e2 0xcd9c;
  It 0xc3e3 0xcda4;
  It 0xc3e4 0xcda5;
  It 0xc3e5 0xcda7;
  It 0xc3e6 0xcda9;
  It 0xc3e7 0xcdb0;
  It 0xc3e8 0xcdc4;
  It 0xc3e9 0xcdcc;
  It 0xc3ea 0xcdd0;
  It 0xc3eb 0xcde8;
  It 0xc3ec 0xcdec;
  It 0xc3ed 0xcdf0;
  It 0xc3ee 0xcdf8;
  It 0xc3ef 0xcdf9;
  It 0xc3f0 0xcdfb;
  It 0xc3f1 0xcdfd;
  It 0xc3f2 0xce04;
  It 0xc3f3 0xce08;
  It 0xc3f4 0xce0c;
  It 0xc3f5 0xce14;
  It 0xc3f6 0xce19;
  It 0xc3f7 0xce20;
  It 0xc3f8 0xce21;
  It 0xc3f9 0xce24;
  It 0xc3fa 0xce28
].

(* encoding/cp949/lookup_from.go:11509-11758 *)
Definition fromTable_046 : list lookupItem := [
  It 0xc3fb 0xce30;
  It 0xc3fc 0xce31;
  It 0xc3fd 0xce33;
  It 0xc3fe 0xce35;
  It 0xc441 0xd6ab;
  It 0xc442 0xd6ad;
  It 0xc443 0xd6ae;
  It 0xc444 0xd6af;
  It 0xc445 0xd6b1;
  It 0xc446 0xd6b2;
  It 0xc447 0xd6b3;
  It 0xc448 0xd6b4;
  It 0xc449 0xd6b5;
  It 0xc44a 0xd6b6;
  It 0xc44b 0xd6b7;
  It 0xc44c 0xd6b8;
  It 0xc44d 0xd6ba;
  It 0xc44e 0xd6bc;
  It 0xc44f 0xd6bd;
  It 0xc450 0xd6be;
  It 0xc451 0xd6bf;
  It 0xc452 0xd6c0;
  It 0xc453 0xd6c1;
  It 0xc454 0xd6c2;
  It 0xc455 0xd6c3;
  It 0xc456 0xd6c6;
  It 0xc457 0xd6c7;
  It 0xc458 0xd6c9;
  It 0xc459 0xd6ca;
  It 0xc45a 0xd6cb;
  It 0xc461 0xd6cd;
  It 0xc462 0xd6ce;
  It 0xc463 0xd6cf;
  It 0xc464 0xd6d0;
  It 0xc465 0xd6d2;
  It 0xc466 0xd6d3;
  It 0xc467 0xd6d5;
  It 0xc468 0xd6d6;
  It 0xc469 0xd6d8;
  It 0xc46a 0xd6da;
  It 0xc46b 0xd6db;
  It 0xc46c 0xd6dc;
  It 0xc46d 0xd6dd;
  It 0xc46e 0xd6de;
  It 0xc46f 0xd6df;
  It 0xc470 0xd6e1;
  It 0xc471 0xd6e2;
  It 0xc472 0xd6e3;
  It 0xc473 0xd6e5;
  It 0xc474 0xd6e6;
  It 0xc475 0xd6e7;
  It 0xc476 0xd6e9;
  It 0xc477 0xd6ea;
  It 0xc478 0xd6eb;
  It 0xc479 0xd6ec;
  It 0xc47a 0xd6ed;
  It 0xc481 0xd6ee;
  It 0xc482 0xd6ef;
  It 0xc483 0xd6f1;
  It 0xc484 0xd6f2;
  It 0xc485 0xd6f3;
  It 0xc486 0xd6f4;
  It 0xc487 0xd6f6;
  It 0xc488 0xd6f7;
  It 0xc489 0xd6f8;
  It 0xc48a 0xd6f9;
  It 0xc48b 0xd6fa;
  It 0xc48c 0xd6fb;
  It 0xc48d 0xd6fe;
  It 0xc48e 0xd6ff;
  It 0xc48f 0xd701;
  It 0xc490 0xd702;
  It 0xc491 0xd703;
  It 0xc492 0xd705;
  It 0xc493 0xd706;
  It 0xc494 0xd707;
  It 0xc495 0xd708;
  It 0xc496 0xd709;
  It 0xc497 0xd70a;
  It 0xc498 0xd70b;
  It 0xc499 0xd70c;
  It 0xc49a 0xd70d;
  It 0xc49b 0xd70e;
  It 0xc49c 0xd70f;
  It 0xc49d 0xd710;
  It 0xc49e 0xd712;
  It 0xc49f 0xd713;
  It 0xc4a0 0xd714;
  It 0xc4a1 0xce58;
  It 0xc4a2 0xce59;
  It 0xc4a3 0xce5c;
  It 0xc4a4 0xce5f;
  It 0xc4a5 0xce60;
  It 0xc4a6 0xce61;
  It 0xc4a7 0xce68;
  It 0xc4a8 0xce69;
  It 0xc4a9 0xce6b;
  It 0xc4aa 0xce6d;
  It 0xc4ab 0xce74;
  It 0xc4ac 0xce75;
  It 0xc4ad 0xce78;
  It 0xc4ae 0xce7c;
  It 0xc4af 0xce84;
  It 0xc4b0 0xce85;
  It 0xc4b1 0xce87;
  It 0xc4b2 0xce89;
  It 0xc4b3 0xce90;
  It 0xc4b4 0xce91;
  It 0xc4b5 0xce94;
  It 0xc4b6 0xce98;
  It 0xc4b7 0xcea0;
  It 0xc4b8 0xcea1;
  It 0xc4b9 0xcea3;
  It 0xc4ba 0xcea4;
  It 0xc4bb 0xcea5;
  It 0xc4bc 0xceac;
  It 0xc4bd 0xcead;
  It 0xc4be 0xcec1;
  It 0xc4bf 0xcee4;
  It 0xc4c0 0xcee5;
  It 0xc4c1 0xcee8;
  It 0xc4c2 0xceeb;
  It 0xc4c3 0xceec;
  It 0xc4c4 0xcef4;
  It 0xc4c5 0xcef5;
  It 0xc4c6 0xcef7;
  It 0xc4c7 0xcef8;
  It 0xc4c8 0xcef9;
  It 0xc4c9 0xcf00;
  It 0xc4ca 0xcf01;
  It 0xc4cb 0xcf04;
  It 0xc4cc 0xcf08;
  It 0xc4cd 0xcf10;
  It 0xc4ce 0xcf11;
  It 0xc4cf 0xcf13;
  It 0xc4d0 0xcf15;
  It 0xc4d1 0xcf1c;
  It 0xc4d2 0xcf20;
  It 0xc4d3 0xcf24;
  It 0xc4d4 0xcf2c;
  It 0xc4d5 0xcf2d;
  It 0xc4d6 0xcf2f;
  It 0xc4d7 0xcf30;
  It 0xc4d8 0xcf31;
  It 0xc4d9 0xcf38;
  It 0xc4da 0xcf54;
  It 0xc4db 0xcf55;
  It 0xc4dc 0xcf58;
  It 0xc4dd 0xcf5c;
  It 0xc4de 0xcf64;
  It 0xc4df 0xcf65;
  It 0xc4e0 0xcf67;
  It 0xc4e1 0xcf69;
  It 0xc4e2 0xcf70;
  It 0xc4e3 0xcf71;
  It 0xc4e4 0xcf74;
  It 0xc4e5 0xcf78;
  It 0xc4e6 0xcf80;
  It 0xc4e7 0xcf85;
  It 0xc4e8 0xcf8c;
  It 0xc4e9 0xcfa1;
  It 0xc4ea 0xcfa8;
  It 0xc4eb 0xcfb0;
  It 0xc4ec 0xcfc4;
  It 0xc4ed 0xcfe0;
  It 0xc4ee 0xcfe1;
  It 0xc4ef 0xcfe4;
  It 0xc4f0 0xcfe8;
  It 0xc4f1 0xcff0;
  It 0xc4f2 0xcff1;
  It 0xc4f3 0xcff3;
  It 0xc4f4 0xcff5;
  It 0xc4f5 0xcffc;
  It 0xc4f6 0xd000;
  It 0xc4f7 0xd004;
  It 0xc4f8 0xd011;
  It 0xc4f9 0xd018;
  It 0xc4fa 0xd02d;
  It 0xc4fb 0xd034;
  It 0xc4fc 0xd035;
  It 0xc4fd 0xd038;
  It 0xc4fe 0xd03c;
  It 0xc541 0xd715;
  It 0xc542 0xd716;
  It 0xc543 0xd717;
  It 0xc544 0xd71a;
  It 0xc545 0xd71b;
  It 0xc546 0xd71d;
  It 0xc547 0xd71e;
  It 0xc548 0xd71f;
  It 0xc549 0xd721;
  It 0xc54a 0xd722;
  It 0xc54b 0xd723;
  It 0xc54c 0xd724;
  It 0xc54d 0xd725;
  It 0xc54e 0xd726;
  It 0xc54f 0xd727;
  It 0xc550 0xd72a;
  It 0xc551 0xd72c;
  It 0xc552 0xd72e;
  It 0xc553 0xd72f;
  It 0xc554 0xd730;
  It 0xc555 0xd731;
  It 0xc556 0xd732;
  It 0xc557 0xd733;
  It 0xc558 0xd736;
  It 0xc559 0xd737;
  It 0xc55a 0xd739;
  It 0xc561 0xd73a;
  It 0xc562 0xd73b;
  It 0xc563 0xd73d;
  It 0xc564 0xd73e;
  It 0xc565 0xd73f;
  It 0xc566 0xd740;
  It 0xc567 0xd741;
  It 0xc568 0xd742;
  It 0xc569 0xd743;
  It 0xc56a 0xd745;
  It 0xc56b 0xd746;
  It 0xc56c 0xd748;
  It 0xc56d 0xd74a;
  It 0xc56e 0xd74b;
  It 0xc56f 0xd74c;
  It 0xc570 0xd74d;
  It 0xc571 0xd74e;
  It 0xc572 0xd74f;
  It 0xc573 0xd752;
  It 0xc574 0xd753;
  It 0xc575 0xd755;
  It 0xc576 0xd75a;
  It 0xc577 0xd75b;
  It 0xc578 0xd75c;
  It 0xc579 0xd75d;
  It 0xc57a 0xd75e;
  It 0xc581 0xd75f;
  It 0xc582 0xd762;
  It 0xc583 0xd764;
  It 0xc584 0xd766;
  It 0xc585 0xd767;
  It 0xc586 0xd768;
  It 0xc587 0xd76a;
  It 0xc588 0xd76b;
  It 0xc589 0xd76d;
  It 0xc58a 0xd76e;
  It 0xc58b 0xd76f;
  It 0xc58c 0xd771;
  It 0xc58d 0xd772;
  It 0xc58e 0xd773;
  It 0xc58f 0xd775;
  It 0xc590 0xd776
].

(* encoding/cp949/lookup_from.go:11759-12008 *)
Definition fromTable_047 : list lookupItem := [
  It 0xc591 0xd777;
  It 0xc592 0xd778;
  It 0xc593 0xd779;
  It 0xc594 0xd77a;
  It 0xc595 0xd77b;
  It 0xc596 0xd77e;
  It 0xc597 0xd77f;
  It 0xc598 0xd780;
  It 0xc599 0xd782;
  It 0xc59a 0xd783;
  It 0xc59b 0xd784;
  It 0xc59c 0xd785;
  It 0xc59d 0xd786;
  It 0xc59e 0xd787;
  It 0xc59f 0xd78a;
  It 0xc5a0 0xd78b;
  It 0xc5a1 0xd044;
  It 0xc5a2 0xd045;
  It 0xc5a3 0xd047;
  It 0xc5a4 0xd049;
  It 0xc5a5 0xd050;
  It 0xc5a6 0xd054;
  It 0xc5a7 0xd058;
  It 0xc5a8 0xd060;
  It 0xc5a9 0xd06c;
  It 0xc5aa 0xd06d;
  It 0xc5ab 0xd070;
  It 0xc5ac 0xd074;
  It 0xc5ad 0xd07c;
  It 0xc5ae 0xd07d;
  It 0xc5af 0xd081;
  It 0xc5b0 0xd0a4;
  It 0xc5b1 0xd0a5;
  It 0xc5b2 0xd0a8;
  It 0xc5b3 0xd0ac;
  It 0xc5b4 0xd0b4;
  It 0xc5b5 0xd0b5;
  It 0xc5b6 0xd0b7;
  It 0xc5b7 0xd0b9;
  It 0xc5b8 0xd0c0;
  It 0xc5b9 0xd0c1;
  It 0xc5ba 0xd0c4;
  It 0xc5bb 0xd0c8;
  It 0xc5bc 0xd0c9;
  It 0xc5bd 0xd0d0;
  It 0xc5be 0xd0d1;
  It 0xc5bf 0xd0d3;
  It 0xc5c0 0xd0d4;
  It 0xc5c1 0xd0d5;
  It 0xc5c2 0xd0dc;
  It 0xc5c3 0xd0dd;
  It 0xc5c4 0xd0e0;
  It 0xc5c5 0xd0e4;
  It 0xc5c6 0xd0ec;
  It 0xc5c7 0xd0ed;
  It 0xc5c8 0xd0ef;
  It 0xc5c9 0xd0f0;
  It 0xc5ca 0xd0f1;
  It 0xc5cb 0xd0f8;
  It 0xc5cc 0xd10d;
  It 0xc5cd 0xd130;
  It 0xc5ce 0xd131;
  It 0xc5cf 0xd134;
  It 0xc5d0 0xd138;
  It 0xc5d1 0xd13a;
  It 0xc5d2 0xd140;
  It 0xc5d3 0xd141;
  It 0xc5d4 0xd143;
  It 0xc5d5 0xd144;
  It 0xc5d6 0xd145;
  It 0xc5d7 0xd14c;
  It 0xc5d8 0xd14d;
  It 0xc5d9 0xd150;
  It 0xc5da 0xd154;
  It 0xc5db 0xd15c;
  It 0xc5dc 0xd15d;
  It 0xc5dd 0xd15f;
  It 0xc5de 0xd161;
  It 0xc5df 0xd168;
  It 0xc5e0 0xd16c;
  It 0xc5e1 0xd17c;
  It 0xc5e2 0xd184;
  It 0xc5e3 0xd188;
  It 0xc5e4 0xd1a0;
  It 0xc5e5 0xd1a1;
  It 0xc5e6 0xd1a4;
  It 0xc5e7 0xd1a8;
  It 0xc5e8 0xd1b0;
  It 0xc5e9 0xd1b1;
  It 0xc5ea 0xd1b3;
  It 0xc5eb 0xd1b5;
  It 0xc5ec 0xd1ba;
  It 0xc5ed 0xd1bc;
  It 0xc5ee 0xd1c0;
  It 0xc5ef 0xd1d8;
  It 0xc5f0 0xd1f4;
  It 0xc5f1 0xd1f8;
  It 0xc5f2 0xd207;
  It 0xc5f3 0xd209;
  It 0xc5f4 0xd210;
  It 0xc5f5 0xd22c;
  It 0xc5f6 0xd22d;
  It 0xc5f7 0xd230;
  It 0xc5f8 0xd234;
  It 0xc5f9 0xd23c;
  It 0xc5fa 0xd23d;
  It 0xc5fb 0xd23f;
  It 0xc5fc 0xd241;
  It 0xc5fd 0xd248;
  It 0xc5fe 0xd25c;
  It 0xc641 0xd78d;
  It 0xc642 0xd78e;
  It 0xc643 0xd78f;
  It 0xc644 0xd791;
  It 0xc645 0xd792;
  It 0xc646 0xd793;
  It 0xc647 0xd794;
  It 0xc648 0xd795;
  It 0xc649 0xd796;
  It 0xc64a 0xd797;
  It 0xc64b 0xd79a;
  It 0xc64c 0xd79c;
  It 0xc64d 0xd79e;
  It 0xc64e 0xd79f;
  It 0xc64f 0xd7a0;
  It 0xc650 0xd7a1;
  It 0xc651 0xd7a2;
  It 0xc652 0xd7a3;
  It 0xc6a1 0xd264;
  It 0xc6a2 0xd280;
  It 0xc6a3 0xd281;
  It 0xc6a4 0xd284;
  It 0xc6a5 0xd288;
  It 0xc6a6 0xd290;
  It 0xc6a7 0xd291;
  It 0xc6a8 0xd295;
  It 0xc6a9 0xd29c;
  It 0xc6aa 0xd2a0;
  It 0xc6ab 0xd2a4;
  It 0xc6ac 0xd2ac;
  It 0xc6ad 0xd2b1;
  It 0xc6ae 0xd2b8;
  It 0xc6af 0xd2b9;
  It 0xc6b0 0xd2bc;
  It 0xc6b1 0xd2bf;
  It 0xc6b2 0xd2c0;
  It 0xc6b3 0xd2c2;
  It 0xc6b4 0xd2c8;
  It 0xc6b5 0xd2c9;
  It 0xc6b6 0xd2cb;
  It 0xc6b7 0xd2d4;
  It 0xc6b8 0xd2d8;
  It 0xc6b9 0xd2dc;
  It 0xc6ba 0xd2e4;
  It 0xc6bb 0xd2e5;
  It 0xc6bc 0xd2f0;
  It 0xc6bd 0xd2f1;
  It 0xc6be 0xd2f4;
  It 0xc6bf 0xd2f8;
  It 0xc6c0 0xd300;
  It 0xc6c1 0xd301;
  It 0xc6c2 0xd303;
  It 0xc6c3 0xd305;
  It 0xc6c4 0xd30c;
  It 0xc6c5 0xd30d;
  It 0xc6c6 0xd30e;
  It 0xc6c7 0xd310;
  It 0xc6c8 0xd314;
  It 0xc6c9 0xd316;
  It 0xc6ca 0xd31c;
  It 0xc6cb 0xd31d;
  It 0xc6cc 0xd31f;
  It 0xc6cd 0xd320;
  It 0xc6ce 0xd321;
  It 0xc6cf 0xd325;
  It 0xc6d0 0xd328;
  It 0xc6d1 0xd329;
  It 0xc6d2 0xd32c;
  It 0xc6d3 0xd330;
  It 0xc6d4 0xd338;
  It 0xc6d5 0xd339;
  It 0xc6d6 0xd33b;
  It 0xc6d7 0xd33c;
  It 0xc6d8 0xd33d;
  It 0xc6d9 0xd344;
  It 0xc6da 0xd345;
  It 0xc6db 0xd37c;
  It 0xc6dc 0xd37d;
  It 0xc6dd 0xd380;
  It 0xc6de 0xd384;
  It 0xc6df 0xd38c;
  It 0xc6e0 0xd38d;
  It 0xc6e1 0xd38f;
  It 0xc6e2 0xd390;
  It 0xc6e3 0xd391;
  It 0xc6e4 0xd398;
  It 0xc6e5 0xd399;
  It 0xc6e6 0xd39c;
  It 0xc6e7 0xd3a0;
  It 0xc6e8 0xd3a8;
  It 0xc6e9 0xd3a9;
  It 0xc6ea 0xd3ab;
  It 0xc6eb 0xd3ad;
  It 0xc6ec 0xd3b4;
  It 0xc6ed 0xd3b8;
  It 0xc6ee 0xd3bc;
  It 0xc6ef 0xd3c4;
  It 0xc6f0 0xd3c5;
  It 0xc6f1 0xd3c8;
  It 0xc6f2 0xd3c9;
  It 0xc6f3 0xd3d0;
  It 0xc6f4 0xd3d8;
  It 0xc6f5 0xd3e1;
  It 0xc6f6 0xd3e3;
  It 0xc6f7 0xd3ec;
  It 0xc6f8 0xd3ed;
  It 0xc6f9 0xd3f0;
  It 0xc6fa 0xd3f4;
  It 0xc6fb 0xd3fc;
  It 0xc6fc 0xd3fd;
  It 0xc6fd 0xd3ff;
  It 0xc6fe 0xd401;
  It 0xc7a1 0xd408;
  It 0xc7a2 0xd41d;
  It 0xc7a3 0xd440;
  It 0xc7a4 0xd444;
  It 0xc7a5 0xd45c;
  It 0xc7a6 0xd460;
  It 0xc7a7 0xd464;
  It 0xc7a8 0xd46d;
  It 0xc7a9 0xd46f;
  It 0xc7aa 0xd478;
  It 0xc7ab 0xd479;
  It 0xc7ac 0xd47c;
  It 0xc7ad 0xd47f;
  It 0xc7ae 0xd480;
  It 0xc7af 0xd482;
  It 0xc7b0 0xd488;
  It 0xc7b1 0xd489;
  It 0xc7b2 0xd48b;
  It 0xc7b3 0xd48d;
  It 0xc7b4 0xd494;
  It 0xc7b5 0xd4a9;
  It 0xc7b6 0xd4cc;
  It 0xc7b7 0xd4d0;
  It 0xc7b8 0xd4d4;
  It 0xc7b9 0xd4dc;
  It 0xc7ba 0xd4df;
  It 0xc7bb 0xd4e8;
  It 0xc7bc 0xd4ec
].

(* encoding/cp949/lookup_from.go:12009-12258 *)
Definition fromTable_048 : list lookupItem := [
  It 0xc7bd 0xd4f0;
  It 0xc7be 0xd4f8;
  It 0xc7bf 0xd4fb;
  It 0xc7c0 0xd4fd;
  It 0xc7c1 0xd504;
  It 0xc7c2 0xd508;
  It 0xc7c3 0xd50c;
  It 0xc7c4 0xd514;
  It 0xc7c5 0xd515;
  It 0xc7c6 0xd517;
  It 0xc7c7 0xd53c;
  It 0xc7c8 0xd53d;
  It 0xc7c9 0xd540;
  It 0xc7ca 0xd544;
  It 0xc7cb 0xd54c;
  It 0xc7cc 0xd54d;
  It 0xc7cd 0xd54f;
  It 0xc7ce 0xd551;
  It 0xc7cf 0xd558;
  It 0xc7d0 0xd559;
  It 0xc7d1 0xd55c;
  It 0xc7d2 0xd560;
  It 0xc7d3 0xd565;
  It 0xc7d4 0xd568;
  It 0xc7d5 0xd569;
  It 0xc7d6 0xd56b;
  It 0xc7d7 0xd56d;
  It 0xc7d8 0xd574;
  It 0xc7d9 0xd575;
  It 0xc7da 0xd578;
  It 0xc7db 0xd57c;
  It 0xc7dc 0xd584;
  It 0xc7dd 0xd585;
  It 0xc7de 0xd587;
  It 0xc7df 0xd588;
  It 0xc7e0 0xd589;
  It 0xc7e1 0xd590;
  It 0xc7e2 0xd5a5;
  It 0xc7e3 0xd5c8;
  It 0xc7e4 0xd5c9;
  It 0xc7e5 0xd5cc;
  It 0xc7e6 0xd5d0;
  It 0xc7e7 0xd5d2;
  It 0xc7e8 0xd5d8;
  It 0xc7e9 0xd5d9;
  It 0xc7ea 0xd5db;
  It 0xc7eb 0xd5dd;
  It 0xc7ec 0xd5e4;
  It 0xc7ed 0xd5e5;
  It 0xc7ee 0xd5e8;
  It 0xc7ef 0xd5ec;
  It 0xc7f0 0xd5f4;
  It 0xc7f1 0xd5f5;
  It 0xc7f2 0xd5f7;
  It 0xc7f3 0xd5f9;
  It 0xc7f4 0xd600;
  It 0xc7f5 0xd601;
  It 0xc7f6 0xd604;
  It 0xc7f7 0xd608;
  It 0xc7f8 0xd610;
  It 0xc7f9 0xd611;
  It 0xc7fa 0xd613;
  It 0xc7fb 0xd614;
  It 0xc7fc 0xd615;
  It 0xc7fd 0xd61c;
  It 0xc7fe 0xd620;
  It 0xc8a1 0xd624;
  It 0xc8a2 0xd62d;
  It 0xc8a3 0xd638;
  It 0xc8a4 0xd639;
  It 0xc8a5 0xd63c;
  It 0xc8a6 0xd640;
  It 0xc8a7 0xd645;
  It 0xc8a8 0xd648;
  It 0xc8a9 0xd649;
  It 0xc8aa 0xd64b;
  It 0xc8ab 0xd64d;
  It 0xc8ac 0xd651;
  It 0xc8ad 0xd654;
  It 0xc8ae 0xd655;
  It 0xc8af 0xd658;
  It 0xc8b0 0xd65c;
  It 0xc8b1 0xd667;
  It 0xc8b2 0xd669;
  It 0xc8b3 0xd670;
  It 0xc8b4 0xd671;
  It 0xc8b5 0xd674;
  It 0xc8b6 0xd683;
  It 0xc8b7 0xd685;
  It 0xc8b8 0xd68c;
  It 0xc8b9 0xd68d;
  It 0xc8ba 0xd690;
  It 0xc8bb 0xd694;
  It 0xc8bc 0xd69d;
  It 0xc8bd 0xd69f;
  It 0xc8be 0xd6a1;
  It 0xc8bf 0xd6a8;
  It 0xc8c0 0xd6ac;
  It 0xc8c1 0xd6b0;
  It 0xc8c2 0xd6b9;
  It 0xc8c3 0xd6bb;
  It 0xc8c4 0xd6c4;
  It 0xc8c5 0xd6c5;
  It 0xc8c6 0xd6c8;
  It 0xc8c7 0xd6cc;
  It 0xc8c8 0xd6d1;
  It 0xc8c9 0xd6d4;
  It 0xc8ca 0xd6d7;
  It 0xc8cb 0xd6d9;
  It 0xc8cc 0xd6e0;
  It 0xc8cd 0xd6e4;
  It 0xc8ce 0xd6e8;
  It 0xc8cf 0xd6f0;
  It 0xc8d0 0xd6f5;
  It 0xc8d1 0xd6fc;
  It 0xc8d2 0xd6fd;
  It 0xc8d3 0xd700;
  It 0xc8d4 0xd704;
  It 0xc8d5 0xd711;
  It 0xc8d6 0xd718;
  It 0xc8d7 0xd719;
  It 0xc8d8 0xd71c;
  It 0xc8d9 0xd720;
  It 0xc8da 0xd728;
  It 0xc8db 0xd729;
  It 0xc8dc 0xd72b;
  It 0xc8dd 0xd72d;
  It 0xc8de 0xd734;
  It 0xc8df 0xd735;
  It 0xc8e0 0xd738;
  It 0xc8e1 0xd73c;
  It 0xc8e2 0xd744;
  It 0xc8e3 0xd747;
  It 0xc8e4 0xd749;
  It 0xc8e5 0xd750;
  It 0xc8e6 0xd751;
  It 0xc8e7 0xd754;
  It 0xc8e8 0xd756;
  It 0xc8e9 0xd757;
  It 0xc8ea 0xd758;
  It 0xc8eb 0xd759;
  It 0xc8ec 0xd760;
  It 0xc8ed 0xd761;
  It 0xc8ee 0xd763;
  It 0xc8ef 0xd765;
  It 0xc8f0 0xd769;
  It 0xc8f1 0xd76c;
  It 0xc8f2 0xd770;
  It 0xc8f3 0xd774;
  It 0xc8f4 0xd77c;
  It 0xc8f5 0xd77d;
  It 0xc8f6 0xd781;
  It 0xc8f7 0xd788;
  It 0xc8f8 0xd789;
  It 0xc8f9 0xd78c;
  It 0xc8fa 0xd790;
  It 0xc8fb 0xd798;
  It 0xc8fc 0xd799;
  It 0xc8fd 0xd79b;
  It 0xc8fe 0xd79d;
  It 0xcaa1 0x4f3d;
  It 0xcaa2 0x4f73;
  It 0xcaa3 0x5047;
  It 0xcaa4 0x50f9;
  It 0xcaa5 0x52a0;
  It 0xcaa6 0x53ef;
  It 0xcaa7 0x5475;
  It 0xcaa8 0x54e5;
  It 0xcaa9 0x5609;
  It 0xcaaa 0x5ac1;
  It 0xcaab 0x5bb6;
  It 0xcaac 0x6687;
  It 0xcaad 0x67b6;
  It 0xcaae 0x67b7;
  It 0xcaaf 0x67ef;
  It 0xcab0 0x6b4c;
  It 0xcab1 0x73c2;
  It 0xcab2 0x75c2;
  It 0xcab3 0x7a3c;
  It 0xcab4 0x82db;
  It 0xcab5 0x8304;
  It 0xcab6 0x8857;
  It 0xcab7 0x8888;
  It 0xcab8 0x8a36;
  It 0xcab9 0x8cc8;
  It 0xcaba 0x8dcf;
  It 0xcabb 0x8efb;
  It 0xcabc 0x8fe6;
  It 0xcabd 0x99d5;
  It 0xcabe 0x523b;
  It 0xcabf 0x5374;
  It 0xcac0 0x5404;
  It 0xcac1 0x606a;
  It 0xcac2 0x6164;
  It 0xcac3 0x6bbc;
  It 0xcac4 0x73cf;
  It 0xcac5 0x811a;
  It 0xcac6 0x89ba;
  It 0xcac7 0x89d2;
  It 0xcac8 0x95a3;
  It 0xcac9 0x4f83;
  It 0xcaca 0x520a;
  It 0xcacb 0x58be;
  It 0xcacc 0x5978;
  It 0xcacd 0x59e6;
  It 0xcace 0x5e72;
  It 0xcacf 0x5e79;
  It 0xcad0 0x61c7;
  It 0xcad1 0x63c0;
  It 0xcad2 0x6746;
  It 0xcad3 0x67ec;
  It 0xcad4 0x687f;
  It 0xcad5 0x6f97;
  It 0xcad6 0x764e;
  It 0xcad7 0x770b;
  It 0xcad8 0x78f5;
  It 0xcad9 0x7a08;
  It 0xcada 0x7aff;
  It 0xcadb 0x7c21;
  It 0xcadc 0x809d;
  It 0xcadd 0x826e;
  It 0xcade 0x8271;
  It 0xcadf 0x8aeb;
  It 0xcae0 0x9593;
  It 0xcae1 0x4e6b;
  It 0xcae2 0x559d;
  It 0xcae3 0x66f7;
  It 0xcae4 0x6e34;
  It 0xcae5 0x78a3;
  It 0xcae6 0x7aed;
  It 0xcae7 0x845b;
  It 0xcae8 0x8910;
  It 0xcae9 0x874e;
  It 0xcaea 0x97a8;
  It 0xcaeb 0x52d8;
  It 0xcaec 0x574e;
  It 0xcaed 0x582a;
  It 0xcaee 0x5d4c;
  It 0xcaef 0x611f;
  It 0xcaf0 0x61be;
  It 0xcaf1 0x6221;
  It 0xcaf2 0x6562;
  It 0xcaf3 0x67d1;
  It 0xcaf4 0x6a44;
  It 0xcaf5 0x6e1b;
  It 0xcaf6 0x7518;
  It 0xcaf7 0x75b3;
  It 0xcaf8 0x76e3;
  It 0xcaf9 0x77b0;
  It 0xcafa 0x7d3a
].

(* encoding/cp949/lookup_from.go:12259-12508 *)
Definition fromTable_049 : list lookupItem := [
  It 0xcafb 0x90af;
  It 0xcafc 0x9451;
  It 0xcafd 0x9452;
  It 0xcafe 0x9f95;
  It 0xcba1 0x5323;
  It 0xcba2 0x5cac;
  It 0xcba3 0x7532;
  It 0xcba4 0x80db;
  It 0xcba5 0x9240;
  It 0xcba6 0x9598;
  It 0xcba7 0x525b;
  It 0xcba8 0x5808;
  It 0xcba9 0x59dc;
  It 0xcbaa 0x5ca1;
  It 0xcbab 0x5d17;
  It 0xcbac 0x5eb7;
  It 0xcbad 0x5f3a;
  It 0xcbae 0x5f4a;
  It 0xcbaf 0x6177;
  It 0xcbb0 0x6c5f;
  It 0xcbb1 0x757a;
  It 0xcbb2 0x7586;
  It 0xcbb3 0x7ce0;
  It 0xcbb4 0x7d73;
  It 0xcbb5 0x7db1;
  It 0xcbb6 0x7f8c;
  It 0xcbb7 0x8154;
  It 0xcbb8 0x8221;
  It 0xcbb9 0x8591;
  It 0xcbba 0x8941;
  It 0xcbbb 0x8b1b;
  It 0xcbbc 0x92fc;
  It 0xcbbd 0x964d;
  It 0xcbbe 0x9c47;
  It 0xcbbf 0x4ecb;
  It 0xcbc0 0x4ef7;
  It 0xcbc1 0x500b;
  It 0xcbc2 0x51f1;
  It 0xcbc3 0x584f;
  It 0xcbc4 0x6137;
  It 0xcbc5 0x613e;
  It 0xcbc6 0x6168;
  It 0xcbc7 0x6539;
  It 0xcbc8 0x69ea;
  It 0xcbc9 0x6f11;
  It 0xcbca 0x75a5;
  It 0xcbcb 0x7686;
  It 0xcbcc 0x76d6;
  It 0xcbcd 0x7b87;
  It 0xcbce 0x82a5;
  It 0xcbcf 0x84cb;
  It 0xcbd0 0xf900;
  It 0xcbd1 0x93a7;
  It 0xcbd2 0x958b;
  It 0xcbd3 0x5580;
  It 0xcbd4 0x5ba2;
  It 0xcbd5 0x5751;
  It 0xcbd6 0xf901;
  It 0xcbd7 0x7cb3;
  It 0xcbd8 0x7fb9;
  It 0xcbd9 0x91b5;
  It 0xcbda 0x5028;
  It 0xcbdb 0x53bb;
  It 0xcbdc 0x5c45;
  It 0xcbdd 0x5de8;
  It 0xcbde 0x62d2;
  It 0xcbdf 0x636e;
  It 0xcbe0 0x64da;
  It 0xcbe1 0x64e7;
  It 0xcbe2 0x6e20;
  It 0xcbe3 0x70ac;
  It 0xcbe4 0x795b;
  It 0xcbe5 0x8ddd;
  It 0xcbe6 0x8e1e;
  It 0xcbe7 0xf902;
  It 0xcbe8 0x907d;
  It 0xcbe9 0x9245;
  It 0xcbea 0x92f8;
  It 0xcbeb 0x4e7e;
  It 0xcbec 0x4ef6;
  It 0xcbed 0x5065;
  It 0xcbee 0x5dfe;
  It 0xcbef 0x5efa;
  It 0xcbf0 0x6106;
  It 0xcbf1 0x6957;
  It 0xcbf2 0x8171;
  It 0xcbf3 0x8654;
  It 0xcbf4 0x8e47;
  It 0xcbf5 0x9375;
  It 0xcbf6 0x9a2b;
  It 0xcbf7 0x4e5e;
  It 0xcbf8 0x5091;
  It 0xcbf9 0x6770;
  It 0xcbfa 0x6840;
  It 0xcbfb 0x5109;
  It 0xcbfc 0x528d;
  It 0xcbfd 0x5292;
  It 0xcbfe 0x6aa2;
  It 0xcca1 0x77bc;
  It 0xcca2 0x9210;
  It 0xcca3 0x9ed4;
  It 0xcca4 0x52ab;
  It 0xcca5 0x602f;
  It 0xcca6 0x8ff2;
  It 0xcca7 0x5048;
  It 0xcca8 0x61a9;
  It 0xcca9 0x63ed;
  It 0xccaa 0x64ca;
  It 0xccab 0x683c;
  It 0xccac 0x6a84;
  It 0xccad 0x6fc0;
  It 0xccae 0x8188;
  It 0xccaf 0x89a1;
  It 0xccb0 0x9694;
  It 0xccb1 0x5805;
  It 0xccb2 0x727d;
  It 0xccb3 0x72ac;
  It 0xccb4 0x7504;
  It 0xccb5 0x7d79;
  It 0xccb6 0x7e6d;
  It 0xccb7 0x80a9;
  It 0xccb8 0x898b;
  It 0xccb9 0x8b74;
  It 0xccba 0x9063;
  It 0xccbb 0x9d51;
  It 0xccbc 0x6289;
  It 0xccbd 0x6c7a;
  It 0xccbe 0x6f54;
  It 0xccbf 0x7d50;
  It 0xccc0 0x7f3a;
  It 0xccc1 0x8a23;
  It 0xccc2 0x517c;
  It 0xccc3 0x614a;
  It 0xccc4 0x7b9d;
  It 0xccc5 0x8b19;
  It 0xccc6 0x9257;
  It 0xccc7 0x938c;
  It 0xccc8 0x4eac;
  It 0xccc9 0x4fd3;
  It 0xccca 0x501e;
  It 0xcccb 0x50be;
  It 0xcccc 0x5106;
  It 0xcccd 0x52c1;
  It 0xccce 0x52cd;
  It 0xcccf 0x537f;
  It 0xccd0 0x5770;
  It 0xccd1 0x5883;
  It 0xccd2 0x5e9a;
  It 0xccd3 0x5f91;
  It 0xccd4 0x6176;
  It 0xccd5 0x61ac;
  It 0xccd6 0x64ce;
  It 0xccd7 0x656c;
  It 0xccd8 0x666f;
  It 0xccd9 0x66bb;
  It 0xccda 0x66f4;
  It 0xccdb 0x6897;
  It 0xccdc 0x6d87;
  It 0xccdd 0x7085;
  It 0xccde 0x70f1;
  It 0xccdf 0x749f;
  It 0xcce0 0x74a5;
  It 0xcce1 0x74ca;
  It 0xcce2 0x75d9;
  It 0xcce3 0x786c;
  It 0xcce4 0x78ec;
  It 0xcce5 0x7adf;
  It 0xcce6 0x7af6;
  It 0xcce7 0x7d45;
  It 0xcce8 0x7d93;
  It 0xcce9 0x8015;
  It 0xccea 0x803f;
  It 0xcceb 0x811b;
  It 0xccec 0x8396;
  It 0xcced 0x8b66;
  It 0xccee 0x8f15;
  It 0xccef 0x9015;
  It 0xccf0 0x93e1;
  It 0xccf1 0x9803;
  It 0xccf2 0x9838;
  It 0xccf3 0x9a5a;
  It 0xccf4 0x9be8;
  It 0xccf5 0x4fc2;
  It 0xccf6 0x5553;
  It 0xccf7 0x583a;
  It 0xccf8 0x5951;
  It 0xccf9 0x5b63;
  It 0xccfa 0x5c46;
  It 0xccfb 0x60b8;
  It 0xccfc 0x6212;
  It 0xccfd 0x6842;
  It 0xccfe 0x68b0;
  It 0xcda1 0x68e8;
  It 0xcda2 0x6eaa;
  It 0xcda3 0x754c;
  It 0xcda4 0x7678;
  It 0xcda5 0x78ce;
  It 0xcda6 0x7a3d;
  It 0xcda7 0x7cfb;
  It 0xcda8 0x7e6b;
  It 0xcda9 0x7e7c;
  It 0xcdaa 0x8a08;
  It 0xcdab 0x8aa1;
  It 0xcdac 0x8c3f;
  It 0xcdad 0x968e;
  It 0xcdae 0x9dc4;
  It 0xcdaf 0x53e4;
  It 0xcdb0 0x53e9;
  It 0xcdb1 0x544a;
  It 0xcdb2 0x5471;
  It 0xcdb3 0x56fa;
  It 0xcdb4 0x59d1;
  It 0xcdb5 0x5b64;
  It 0xcdb6 0x5c3b;
  It 0xcdb7 0x5eab;
  It 0xcdb8 0x62f7;
  It 0xcdb9 0x6537;
  It 0xcdba 0x6545;
  It 0xcdbb 0x6572;
  It 0xcdbc 0x66a0;
  It 0xcdbd 0x67af;
  It 0xcdbe 0x69c1;
  It 0xcdbf 0x6cbd;
  It 0xcdc0 0x75fc;
  It 0xcdc1 0x7690;
  It 0xcdc2 0x777e;
  It 0xcdc3 0x7a3f;
  It 0xcdc4 0x7f94;
  It 0xcdc5 0x8003;
  It 0xcdc6 0x80a1;
  It 0xcdc7 0x818f;
  It 0xcdc8 0x82e6;
  It 0xcdc9 0x82fd;
  It 0xcdca 0x83f0;
  It 0xcdcb 0x85c1;
  It 0xcdcc 0x8831;
  It 0xcdcd 0x88b4;
  It 0xcdce 0x8aa5;
  It 0xcdcf 0xf903;
  It 0xcdd0 0x8f9c;
  It 0xcdd1 0x932e;
  It 0xcdd2 0x96c7;
  It 0xcdd3 0x9867;
  It 0xcdd4 0x9ad8;
  It 0xcdd5 0x9f13;
  It 0xcdd6 0x54ed;
  It 0xcdd7 0x659b;
  It 0xcdd8 0x66f2;
  It 0xcdd9 0x688f;
  It 0xcdda 0x7a40
].

(* encoding/cp949/lookup_from.go:12509-12758 *)
Definition fromTable_050 : list lookupItem := [
  It 0xcddb 0x8c37;
  It 0xcddc 0x9d60;
  It 0xcddd 0x56f0;
  It 0xcdde 0x5764;
  It 0xcddf 0x5d11;
  It 0xcde0 0x6606;
  It 0xcde1 0x68b1;
  It 0xcde2 0x68cd;
  It 0xcde3 0x6efe;
  It 0xcde4 0x7428;
  It 0xcde5 0x889e;
  It 0xcde6 0x9be4;
  It 0xcde7 0x6c68;
  It 0xcde8 0xf904;
  It 0xcde9 0x9aa8;
  It 0xcdea 0x4f9b;
  It 0xcdeb 0x516c;
  It 0xcdec 0x5171;
  It 0xcded 0x529f;
  It 0xcdee 0x5b54;
  It 0xcdef 0x5de5;
  It 0xcdf0 0x6050;
  It 0xcdf1 0x606d;
  It 0xcdf2 0x62f1;
  It 0xcdf3 0x63a7;
  It 0xcdf4 0x653b;
  It 0xcdf5 0x73d9;
  It 0xcdf6 0x7a7a;
  It 0xcdf7 0x86a3;
  It 0xcdf8 0x8ca2;
  It 0xcdf9 0x978f;
  It 0xcdfa 0x4e32;
  It 0xcdfb 0x5be1;
  It 0xcdfc 0x6208;
  It 0xcdfd 0x679c;
  It 0xcdfe 0x74dc;
  It 0xcea1 0x79d1;
  It 0xcea2 0x83d3;
  It 0xcea3 0x8a87;
  It 0xcea4 0x8ab2;
  It 0xcea5 0x8de8;
  It 0xcea6 0x904e;
  It 0xcea7 0x934b;
  It 0xcea8 0x9846;
  It 0xcea9 0x5ed3;
  It 0xceaa 0x69e8;
  It 0xceab 0x85ff;
  It 0xceac 0x90ed;
  It 0xcead 0xf905;
  It 0xceae 0x51a0;
  It 0xceaf 0x5b98;
  It 0xceb0 0x5bec;
  It 0xceb1 0x6163;
  It 0xceb2 0x68fa;
  It 0xceb3 0x6b3e;
  It 0xceb4 0x704c;
  It 0xceb5 0x742f;
  It 0xceb6 0x74d8;
  It 0xceb7 0x7ba1;
  It 0xceb8 0x7f50;
  It 0xceb9 0x83c5;
  It 0xceba 0x89c0;
  It 0xcebb 0x8cab;
  It 0xcebc 0x95dc;
  It 0xcebd 0x9928;
  It 0xcebe 0x522e;
  It 0xcebf 0x605d;
  It 0xcec0 0x62ec;
  It 0xcec1 0x9002;
  It 0xcec2 0x4f8a;
  It 0xcec3 0x5149;
  It 0xcec4 0x5321;
  It 0xcec5 0x58d9;
  It 0xcec6 0x5ee3;
  It 0xcec7 0x66e0;
  It 0xcec8 0x6d38;
  It 0xcec9 0x709a;
  It 0xceca 0x72c2;
  It 0xcecb 0x73d6;
  It 0xcecc 0x7b50;
  It 0xcecd 0x80f1;
  It 0xcece 0x945b;
  It 0xcecf 0x5366;
  It 0xced0 0x639b;
  It 0xced1 0x7f6b;
  It 0xced2 0x4e56;
  It 0xced3 0x5080;
  It 0xced4 0x584a;
  It 0xced5 0x58de;
  It 0xced6 0x602a;
  It 0xced7 0x6127;
  It 0xced8 0x62d0;
  It 0xced9 0x69d0;
  It 0xceda 0x9b41;
  It 0xcedb 0x5b8f;
  It 0xcedc 0x7d18;
  It 0xcedd 0x80b1;
  It 0xcede 0x8f5f;
  It 0xcedf 0x4ea4;
  It 0xcee0 0x50d1;
  It 0xcee1 0x54ac;
  It 0xcee2 0x55ac;
  It 0xcee3 0x5b0c;
  It 0xcee4 0x5da0;
  It 0xcee5 0x5de7;
  It 0xcee6 0x652a;
  It 0xcee7 0x654e;
  It 0xcee8 0x6821;
  It 0xcee9 0x6a4b;
  It 0xceea 0x72e1;
  It 0xceeb 0x768e;
  It 0xceec 0x77ef;
  It 0xceed 0x7d5e;
  It 0xceee 0x7ff9;
  It 0xceef 0x81a0;
  It 0xcef0 0x854e;
  It 0xcef1 0x86df;
  It 0xcef2 0x8f03;
  It 0xcef3 0x8f4e;
  It 0xcef4 0x90ca;
  It 0xcef5 0x9903;
  It 0xcef6 0x9a55;
  It 0xcef7 0x9bab;
  It 0xcef8 0x4e18;
  It 0xcef9 0x4e45;
  It 0xcefa 0x4e5d;
  It 0xcefb 0x4ec7;
  It 0xcefc 0x4ff1;
  It 0xcefd 0x5177;
  It 0xcefe 0x52fe;
  It 0xcfa1 0x5340;
  It 0xcfa2 0x53e3;
  It 0xcfa3 0x53e5;
  It 0xcfa4 0x548e;
  It 0xcfa5 0x5614;
  It 0xcfa6 0x5775;
  It 0xcfa7 0x57a2;
  It 0xcfa8 0x5bc7;
  It 0xcfa9 0x5d87;
  It 0xcfaa 0x5ed0;
  It 0xcfab 0x61fc;
  It 0xcfac 0x62d8;
  It 0xcfad 0x6551;
  It 0xcfae 0x67b8;
  It 0xcfaf 0x67e9;
  It 0xcfb0 0x69cb;
  It 0xcfb1 0x6b50;
  It 0xcfb2 0x6bc6;
  It 0xcfb3 0x6bec;
  It 0xcfb4 0x6c42;
  It 0xcfb5 0x6e9d;
  It 0xcfb6 0x7078;
  It 0xcfb7 0x72d7;
  It 0xcfb8 0x7396;
  It 0xcfb9 0x7403;
  It 0xcfba 0x77bf;
  It 0xcfbb 0x77e9;
  It 0xcfbc 0x7a76;
  It 0xcfbd 0x7d7f;
  It 0xcfbe 0x8009;
  It 0xcfbf 0x81fc;
  It 0xcfc0 0x8205;
  It 0xcfc1 0x820a;
  It 0xcfc2 0x82df;
  It 0xcfc3 0x8862;
  It 0xcfc4 0x8b33;
  It 0xcfc5 0x8cfc;
  It 0xcfc6 0x8ec0;
  It 0xcfc7 0x9011;
  It 0xcfc8 0x90b1;
  It 0xcfc9 0x9264;
  It 0xcfca 0x92b6;
  It 0xcfcb 0x99d2;
  It 0xcfcc 0x9a45;
  It 0xcfcd 0x9ce9;
  It 0xcfce 0x9dd7;
  It 0xcfcf 0x9f9c;
  It 0xcfd0 0x570b;
  It 0xcfd1 0x5c40;
  It 0xcfd2 0x83ca;
  It 0xcfd3 0x97a0;
  It 0xcfd4 0x97ab;
  It 0xcfd5 0x9eb4;
  It 0xcfd6 0x541b;
  It 0xcfd7 0x7a98;
  It 0xcfd8 0x7fa4;
  It 0xcfd9 0x88d9;
  It 0xcfda 0x8ecd;
  It 0xcfdb 0x90e1;
  It 0xcfdc 0x5800;
  It 0xcfdd 0x5c48;
  It 0xcfde 0x6398;
  It 0xcfdf 0x7a9f;
  It 0xcfe0 0x5bae;
  It 0xcfe1 0x5f13;
  It 0xcfe2 0x7a79;
  It 0xcfe3 0x7aae;
  It 0xcfe4 0x828e;
  It 0xcfe5 0x8eac;
  It 0xcfe6 0x5026;
  It 0xcfe7 0x5238;
  It 0xcfe8 0x52f8;
  It 0xcfe9 0x5377;
  It 0xcfea 0x5708;
  It 0xcfeb 0x62f3;
  It 0xcfec 0x6372;
  It 0xcfed 0x6b0a;
  It 0xcfee 0x6dc3;
  It 0xcfef 0x7737;
  It 0xcff0 0x53a5;
  It 0xcff1 0x7357;
  It 0xcff2 0x8568;
  It 0xcff3 0x8e76;
  It 0xcff4 0x95d5;
  It 0xcff5 0x673a;
  It 0xcff6 0x6ac3;
  It 0xcff7 0x6f70;
  It 0xcff8 0x8a6d;
  It 0xcff9 0x8ecc;
  It 0xcffa 0x994b;
  It 0xcffb 0xf906;
  It 0xcffc 0x6677;
  It 0xcffd 0x6b78;
  It 0xcffe 0x8cb4;
  It 0xd0a1 0x9b3c;
  It 0xd0a2 0xf907;
  It 0xd0a3 0x53eb;
  It 0xd0a4 0x572d;
  It 0xd0a5 0x594e;
  It 0xd0a6 0x63c6;
  It 0xd0a7 0x69fb;
  It 0xd0a8 0x73ea;
  It 0xd0a9 0x7845;
  It 0xd0aa 0x7aba;
  It 0xd0ab 0x7ac5;
  It 0xd0ac 0x7cfe;
  It 0xd0ad 0x8475;
  It 0xd0ae 0x898f;
  It 0xd0af 0x8d73;
  It 0xd0b0 0x9035;
  It 0xd0b1 0x95a8;
  It 0xd0b2 0x52fb;
  It 0xd0b3 0x5747;
  It 0xd0b4 0x7547;
  It 0xd0b5 0x7b60;
  It 0xd0b6 0x83cc;
  It 0xd0b7 0x921e;
  It 0xd0b8 0xf908;
  It 0xd0b9 0x6a58;
  It 0xd0ba 0x514b
].

(* encoding/cp949/lookup_from.go:12759-13008 *)
Definition fromTable_051 : list lookupItem := [
  It 0xd0bb 0x524b;
  It 0xd0bc 0x5287;
  It 0xd0bd 0x621f;
  It 0xd0be 0x68d8;
  It 0xd0bf 0x6975;
  It 0xd0c0 0x9699;
  It 0xd0c1 0x50c5;
  It 0xd0c2 0x52a4;
  It 0xd0c3 0x52e4;
  It 0xd0c4 0x61c3;
  It 0xd0c5 0x65a4;
  It 0xd0c6 0x6839;
  It 0xd0c7 0x69ff;
  It 0xd0c8 0x747e;
  It 0xd0c9 0x7b4b;
  It 0xd0ca 0x82b9;
  It 0xd0cb 0x83eb;
  It 0xd0cc 0x89b2;
  It 0xd0cd 0x8b39;
  It 0xd0ce 0x8fd1;
  It 0xd0cf 0x9949;
  It 0xd0d0 0xf909;
  It 0xd0d1 0x4eca;
  It 0xd0d2 0x5997;
  It 0xd0d3 0x64d2;
  It 0xd0d4 0x6611;
  It 0xd0d5 0x6a8e;
  It 0xd0d6 0x7434;
  It 0xd0d7 0x7981;
  It 0xd0d8 0x79bd;
  It 0xd0d9 0x82a9;
  It 0xd0da 0x887e;
  It 0xd0db 0x887f;
  It 0xd0dc 0x895f;
  It 0xd0dd 0xf90a;
  It 0xd0de 0x9326;
  It 0xd0df 0x4f0b;
  It 0xd0e0 0x53ca;
  It 0xd0e1 0x6025;
  It 0xd0e2 0x6271;
  It 0xd0e3 0x6c72;
  It 0xd0e4 0x7d1a;
  It 0xd0e5 0x7d66;
  It 0xd0e6 0x4e98;
  It 0xd0e7 0x5162;
  It 0xd0e8 0x77dc;
  It 0xd0e9 0x80af;
  It 0xd0ea 0x4f01;
  It 0xd0eb 0x4f0e;
  It 0xd0ec 0x5176;
  It 0xd0ed 0x5180;
  It 0xd0ee 0x55dc;
  It 0xd0ef 0x5668;
  It 0xd0f0 0x573b;
  It 0xd0f1 0x57fa;
  It 0xd0f2 0x57fc;
  It 0xd0f3 0x5914;
  It 0xd0f4 0x5947;
  It 0xd0f5 0x5993;
  It 0xd0f6 0x5bc4;
  It 0xd0f7 0x5c90;
  It 0xd0f8 0x5d0e;
  It 0xd0f9 0x5df1;
  It 0xd0fa 0x5e7e;
  It 0xd0fb 0x5fcc;
  It 0xd0fc 0x6280;
  It 0xd0fd 0x65d7;
  It 0xd0fe 0x65e3;
  It 0xd1a1 0x671e;
  It 0xd1a2 0x671f;
  It 0xd1a3 0x675e;
  It 0xd1a4 0x68cb;
  It 0xd1a5 0x68c4;
  It 0xd1a6 0x6a5f;
  It 0xd1a7 0x6b3a;
  It 0xd1a8 0x6c23;
  It 0xd1a9 0x6c7d;
  It 0xd1aa 0x6c82;
  It 0xd1ab 0x6dc7;
  It 0xd1ac 0x7398;
  It 0xd1ad 0x7426;
  It 0xd1ae 0x742a;
  It 0xd1af 0x7482;
  It 0xd1b0 0x74a3;
  It 0xd1b1 0x7578;
  It 0xd1b2 0x757f;
  It 0xd1b3 0x7881;
  It 0xd1b4 0x78ef;
  It 0xd1b5 0x7941;
  It 0xd1b6 0x7947;
  It 0xd1b7 0x7948;
  It 0xd1b8 0x797a;
  It 0xd1b9 0x7b95;
  It 0xd1ba 0x7d00;
  It 0xd1bb 0x7dba;
  It 0xd1bc 0x7f88;
  It 0xd1bd 0x8006;
  It 0xd1be 0x802d;
  It 0xd1bf 0x808c;
  It 0xd1c0 0x8a18;
  It 0xd1c1 0x8b4f;
  It 0xd1c2 0x8c48;
  It 0xd1c3 0x8d77;
  It 0xd1c4 0x9321;
  It 0xd1c5 0x9324;
  It 0xd1c6 0x98e2;
  It 0xd1c7 0x9951;
  It 0xd1c8 0x9a0e;
  It 0xd1c9 0x9a0f;
  It 0xd1ca 0x9a65;
  It 0xd1cb 0x9e92;
  It 0xd1cc 0x7dca;
  It 0xd1cd 0x4f76;
  It 0xd1ce 0x5409;
  It 0xd1cf 0x62ee;
  It 0xd1d0 0x6854;
  It 0xd1d1 0x91d1;
  It 0xd1d2 0x55ab;
  It 0xd1d3 0x513a;
  It 0xd1d4 0xf90b;
  It 0xd1d5 0xf90c;
  It 0xd1d6 0x5a1c;
  It 0xd1d7 0x61e6;
  It 0xd1d8 0xf90d;
  It 0xd1d9 0x62cf;
  It 0xd1da 0x62ff;
  It 0xd1db 0xf90e;
  It 0xd1dc 0xf90f;
  It 0xd1dd 0xf910;
  It 0xd1de 0xf911;
  It 0xd1df 0xf912;
  It 0xd1e0 0xf913;
  It 0xd1e1 0x90a3;
  It 0xd1e2 0xf914;
  It 0xd1e3 0xf915;
  It 0xd1e4 0xf916;
  It 0xd1e5 0xf917;
  It 0xd1e6 0xf918;
  It 0xd1e7 0x8afe;
  It 0xd1e8 0xf919;
  It 0xd1e9 0xf91a;
  It 0xd1ea 0xf91b;
  It 0xd1eb 0xf91c;
  It 0xd1ec 0x6696;
  It 0xd1ed 0xf91d;
  It 0xd1ee 0x7156;
  It 0xd1ef 0xf91e;
  It 0xd1f0 0xf91f;
  It 0xd1f1 0x96e3;
  It 0xd1f2 0xf920;
  It 0xd1f3 0x634f;
  It 0xd1f4 0x637a;
  It 0xd1f5 0x5357;
  It 0xd1f6 0xf921;
  It 0xd1f7 0x678f;
  It 0xd1f8 0x6960;
  It 0xd1f9 0x6e73;
  It 0xd1fa 0xf922;
  It 0xd1fb 0x7537;
  It 0xd1fc 0xf923;
  It 0xd1fd 0xf924;
  It 0xd1fe 0xf925;
  It 0xd2a1 0x7d0d;
  It 0xd2a2 0xf926;
  It 0xd2a3 0xf927;
  It 0xd2a4 0x8872;
  It 0xd2a5 0x56ca;
  It 0xd2a6 0x5a18;
  It 0xd2a7 0xf928;
  It 0xd2a8 0xf929;
  It 0xd2a9 0xf92a;
  It 0xd2aa 0xf92b;
  It 0xd2ab 0xf92c;
  It 0xd2ac 0x4e43;
  It 0xd2ad 0xf92d;
  It 0xd2ae 0x5167;
  It 0xd2af 0x5948;
  It 0xd2b0 0x67f0;
  It 0xd2b1 0x8010;
  It 0xd2b2 0xf92e;
  It 0xd2b3 0x5973;
  It 0xd2b4 0x5e74;
  It 0xd2b5 0x649a;
  It 0xd2b6 0x79ca;
  It 0xd2b7 0x5ff5;
  It 0xd2b8 0x606c;
  It 0xd2b9 0x62c8;
  It 0xd2ba 0x637b;
  It 0xd2bb 0x5be7;
  It 0xd2bc 0x5bd7;
  It 0xd2bd 0x52aa;
  It 0xd2be 0xf92f;
  It 0xd2bf 0x5974;
  It 0xd2c0 0x5f29;
  It 0xd2c1 0x6012;
  It 0xd2c2 0xf930;
  It 0xd2c3 0xf931;
  It 0xd2c4 0xf932;
  It 0xd2c5 0x7459;
  It 0xd2c6 0xf933;
  It 0xd2c7 0xf934;
  It 0xd2c8 0xf935;
  It 0xd2c9 0xf936;
  It 0xd2ca 0xf937;
  It 0xd2cb 0xf938;
  It 0xd2cc 0x99d1;
  It 0xd2cd 0xf939;
  It 0xd2ce 0xf93a;
  It 0xd2cf 0xf93b;
  It 0xd2d0 0xf93c;
  It 0xd2d1 0xf93d;
  It 0xd2d2 0xf93e;
  It 0xd2d3 0xf93f;
  It 0xd2d4 0xf940;
  It 0xd2d5 0xf941;
  It 0xd2d6 0xf942;
  It 0xd2d7 0xf943;
  It 0xd2d8 0x6fc3;
  It 0xd2d9 0xf944;
  It 0xd2da 0xf945;
  It 0xd2db 0x81bf;
  It 0xd2dc 0x8fb2;
  It 0xd2dd 0x60f1;
  It 0xd2de 0xf946;
  It 0xd2df 0xf947;
  It 0xd2e0 0x8166;
  It 0xd2e1 0xf948;
  It 0xd2e2 0xf949;
  It 0xd2e3 0x5c3f;
  It 0xd2e4 0xf94a;
  It 0xd2e5 0xf94b;
  It 0xd2e6 0xf94c;
  It 0xd2e7 0xf94d;
  It 0xd2e8 0xf94e;
  It 0xd2e9 0xf94f;
  It 0xd2ea 0xf950;
  It 0xd2eb 0xf951;
  It 0xd2ec 0x5ae9;
  It 0xd2ed 0x8a25;
  It 0xd2ee 0x677b;
  It 0xd2ef 0x7d10;
  It 0xd2f0 0xf952;
  It 0xd2f1 0xf953;
  It 0xd2f2 0xf954;
  It 0xd2f3 0xf955;
  It 0xd2f4 0xf956;
  It 0xd2f5 0xf957;
  It 0xd2f6 0x80fd;
  It 0xd2f7 0xf958;
  It 0xd2f8 0xf959
].

(* encoding/cp949/lookup_from.go:13009-13258 *)
Definition fromTable_052 : list lookupItem := [
  It 0xd2f9 0x5c3c;
  It 0xd2fa 0x6ce5;
  It 0xd2fb 0x533f;
  It 0xd2fc 0x6eba;
  It 0xd2fd 0x591a;
  It 0xd2fe 0x8336;
  It 0xd3a1 0x4e39;
  It 0xd3a2 0x4eb6;
  It 0xd3a3 0x4f46;
  It 0xd3a4 0x55ae;
  It 0xd3a5 0x5718;
  It 0xd3a6 0x58c7;
  It 0xd3a7 0x5f56;
  It 0xd3a8 0x65b7;
  It 0xd3a9 0x65e6;
  It 0xd3aa 0x6a80;
  It 0xd3ab 0x6bb5;
  It 0xd3ac 0x6e4d;
  It 0xd3ad 0x77ed;
  It 0xd3ae 0x7aef;
  It 0xd3af 0x7c1e;
  It 0xd3b0 0x7dde;
  It 0xd3b1 0x86cb;
  It 0xd3b2 0x8892;
  It 0xd3b3 0x9132;
  It 0xd3b4 0x935b;
  It 0xd3b5 0x64bb;
  It 0xd3b6 0x6fbe;
  It 0xd3b7 0x737a;
  It 0xd3b8 0x75b8;
  It 0xd3b9 0x9054;
  It 0xd3ba 0x5556;
  It 0xd3bb 0x574d;
  It 0xd3bc 0x61ba;
  It 0xd3bd 0x64d4;
  It 0xd3be 0x66c7;
  It 0xd3bf 0x6de1;
  It 0xd3c0 0x6e5b;
  It 0xd3c1 0x6f6d;
  It 0xd3c2 0x6fb9;
  It 0xd3c3 0x75f0;
  It 0xd3c4 0x8043;
  It 0xd3c5 0x81bd;
  It 0xd3c6 0x8541;
  It 0xd3c7 0x8983;
  It 0xd3c8 0x8ac7;
  It 0xd3c9 0x8b5a;
  It 0xd3ca 0x931f;
  It 0xd3cb 0x6c93;
  It 0xd3cc 0x7553;
  It 0xd3cd 0x7b54;
  It 0xd3ce 0x8e0f;
  It 0xd3cf 0x905d;
  It 0xd3d0 0x5510;
  It 0xd3d1 0x5802;
  It 0xd3d2 0x5858;
  It 0xd3d3 0x5e62;
  It 0xd3d4 0x6207;
  It 0xd3d5 0x649e;
  It 0xd3d6 0x68e0;
  It 0xd3d7 0x7576;
  It 0xd3d8 0x7cd6;
  It 0xd3d9 0x87b3;
  It 0xd3da 0x9ee8;
  It 0xd3db 0x4ee3;
  It 0xd3dc 0x5788;
  It 0xd3dd 0x576e;
  It 0xd3de 0x5927;
  It 0xd3df 0x5c0d;
  It 0xd3e0 0x5cb1;
  It 0xd3e1 0x5e36;
  It 0xd3e2 0x5f85;
  It 0xd3e3 0x6234;
  It 0xd3e4 0x64e1;
  It 0xd3e5 0x73b3;
  It 0xd3e6 0x81fa;
  It 0xd3e7 0x888b;
  It 0xd3e8 0x8cb8;
  It 0xd3e9 0x968a;
  It 0xd3ea 0x9edb;
  It 0xd3eb 0x5b85;
  It 0xd3ec 0x5fb7;
  It 0xd3ed 0x60b3;
  It 0xd3ee 0x5012;
  It 0xd3ef 0x5200;
  It 0xd3f0 0x5230;
  It 0xd3f1 0x5716;
  It 0xd3f2 0x5835;
  It 0xd3f3 0x5857;
  It 0xd3f4 0x5c0e;
  It 0xd3f5 0x5c60;
  It 0xd3f6 0x5cf6;
  It 0xd3f7 0x5d8b;
  It 0xd3f8 0x5ea6;
  It 0xd3f9 0x5f92;
  It 0xd3fa 0x60bc;
  It 0xd3fb 0x6311;
  It 0xd3fc 0x6389;
  It 0xd3fd 0x6417;
  It 0xd3fe 0x6843;
  It 0xd4a1 0x68f9;
  It 0xd4a2 0x6ac2;
  It 0xd4a3 0x6dd8;
  It 0xd4a4 0x6e21;
  It 0xd4a5 0x6ed4;
  It 0xd4a6 0x6fe4;
  It 0xd4a7 0x71fe;
  It 0xd4a8 0x76dc;
  It 0xd4a9 0x7779;
  It 0xd4aa 0x79b1;
  It 0xd4ab 0x7a3b;
  It 0xd4ac 0x8404;
  It 0xd4ad 0x89a9;
  It 0xd4ae 0x8ced;
  It 0xd4af 0x8df3;
  It 0xd4b0 0x8e48;
  It 0xd4b1 0x9003;
  It 0xd4b2 0x9014;
  It 0xd4b3 0x9053;
  It 0xd4b4 0x90fd;
  It 0xd4b5 0x934d;
  It 0xd4b6 0x9676;
  It 0xd4b7 0x97dc;
  It 0xd4b8 0x6bd2;
  It 0xd4b9 0x7006;
  It 0xd4ba 0x7258;
  It 0xd4bb 0x72a2;
  It 0xd4bc 0x7368;
  It 0xd4bd 0x7763;
  It 0xd4be 0x79bf;
  It 0xd4bf 0x7be4;
  It 0xd4c0 0x7e9b;
  It 0xd4c1 0x8b80;
  It 0xd4c2 0x58a9;
  It 0xd4c3 0x60c7;
  It 0xd4c4 0x6566;
  It 0xd4c5 0x65fd;
  It 0xd4c6 0x66be;
  It 0xd4c7 0x6c8c;
  It 0xd4c8 0x711e;
  It 0xd4c9 0x71c9;
  It 0xd4ca 0x8c5a;
  It 0xd4cb 0x9813;
  It 0xd4cc 0x4e6d;
  It 0xd4cd 0x7a81;
  It 0xd4ce 0x4edd;
  It 0xd4cf 0x51ac;
  It 0xd4d0 0x51cd;
  It 0xd4d1 0x52d5;
  It 0xd4d2 0x540c;
  It 0xd4d3 0x61a7;
  It 0xd4d4 0x6771;
  It 0xd4d5 0x6850;
  It 0xd4d6 0x68df;
  It 0xd4d7 0x6d1e;
  It 0xd4d8 0x6f7c;
  It 0xd4d9 0x75bc;
  It 0xd4da 0x77b3;
  It 0xd4db 0x7ae5;
  It 0xd4dc 0x80f4;
  It 0xd4dd 0x8463;
  It 0xd4de 0x9285;
  It 0xd4df 0x515c;
  It 0xd4e0 0x6597;
  It 0xd4e1 0x675c;
  It 0xd4e2 0x6793;
  It 0xd4e3 0x75d8;
  It 0xd4e4 0x7ac7;
  It 0xd4e5 0x8373;
  It 0xd4e6 0xf95a;
  It 0xd4e7 0x8c46;
  It 0xd4e8 0x9017;
  It 0xd4e9 0x982d;
  It 0xd4ea 0x5c6f;
  It 0xd4eb 0x81c0;
  It 0xd4ec 0x829a;
  It 0xd4ed 0x9041;
  It 0xd4ee 0x906f;
  It 0xd4ef 0x920d;
  It 0xd4f0 0x5f97;
  It 0xd4f1 0x5d9d;
  It 0xd4f2 0x6a59;
  It 0xd4f3 0x71c8;
  It 0xd4f4 0x767b;
  It 0xd4f5 0x7b49;
  It 0xd4f6 0x85e4;
  It 0xd4f7 0x8b04;
  It 0xd4f8 0x9127;
  It 0xd4f9 0x9a30;
  It 0xd4fa 0x5587;
  It 0xd4fb 0x61f6;
  It 0xd4fc 0xf95b;
  It 0xd4fd 0x7669;
  It 0xd4fe 0x7f85;
  It 0xd5a1 0x863f;
  It 0xd5a2 0x87ba;
  It 0xd5a3 0x88f8;
  It 0xd5a4 0x908f;
  It 0xd5a5 0xf95c;
  It 0xd5a6 0x6d1b;
  It 0xd5a7 0x70d9;
  It 0xd5a8 0x73de;
  It 0xd5a9 0x7d61;
  It 0xd5aa 0x843d;
  It 0xd5ab 0xf95d;
  It 0xd5ac 0x916a;
  It 0xd5ad 0x99f1;
  It 0xd5ae 0xf95e;
  It 0xd5af 0x4e82;
  It 0xd5b0 0x5375;
  It 0xd5b1 0x6b04;
  It 0xd5b2 0x6b12;
  It 0xd5b3 0x703e;
  It 0xd5b4 0x721b;
  It 0xd5b5 0x862d;
  It 0xd5b6 0x9e1e;
  It 0xd5b7 0x524c;
  It 0xd5b8 0x8fa3;
  It 0xd5b9 0x5d50;
  It 0xd5ba 0x64e5;
  It 0xd5bb 0x652c;
  It 0xd5bc 0x6b16;
  It 0xd5bd 0x6feb;
  It 0xd5be 0x7c43;
  It 0xd5bf 0x7e9c;
  It 0xd5c0 0x85cd;
  It 0xd5c1 0x8964;
  It 0xd5c2 0x89bd;
  It 0xd5c3 0x62c9;
  It 0xd5c4 0x81d8;
  It 0xd5c5 0x881f;
  It 0xd5c6 0x5eca;
  It 0xd5c7 0x6717;
  It 0xd5c8 0x6d6a;
  It 0xd5c9 0x72fc;
  It 0xd5ca 0x7405;
  It 0xd5cb 0x746f;
  It 0xd5cc 0x8782;
  It 0xd5cd 0x90de;
  It 0xd5ce 0x4f86;
  It 0xd5cf 0x5d0d;
  It 0xd5d0 0x5fa0;
  It 0xd5d1 0x840a;
  It 0xd5d2 0x51b7;
  It 0xd5d3 0x63a0;
  It 0xd5d4 0x7565;
  It 0xd5d5 0x4eae;
  It 0xd5d6 0x5006;
  It 0xd5d7 0x5169;
  It 0xd5d8 0x51c9
].

(* encoding/cp949/lookup_from.go:13259-13508 *)
Definition fromTable_053 : list lookupItem := [
  It 0xd5d9 0x6881;
  It 0xd5da 0x6a11;
  It 0xd5db 0x7cae;
  It 0xd5dc 0x7cb1;
  It 0xd5dd 0x7ce7;
  It 0xd5de 0x826f;
  It 0xd5df 0x8ad2;
  It 0xd5e0 0x8f1b;
  It 0xd5e1 0x91cf;
  It 0xd5e2 0x4fb6;
  It 0xd5e3 0x5137;
  It 0xd5e4 0x52f5;
  It 0xd5e5 0x5442;
  It 0xd5e6 0x5eec;
  It 0xd5e7 0x616e;
  It 0xd5e8 0x623e;
  It 0xd5e9 0x65c5;
  It 0xd5ea 0x6ada;
  It 0xd5eb 0x6ffe;
  It 0xd5ec 0x792a;
  It 0xd5ed 0x85dc;
  It 0xd5ee 0x8823;
  It 0xd5ef 0x95ad;
  It 0xd5f0 0x9a62;
  It 0xd5f1 0x9a6a;
  It 0xd5f2 0x9e97;
  It 0xd5f3 0x9ece;
  It 0xd5f4 0x529b;
  It 0xd5f5 0x66c6;
  It 0xd5f6 0x6b77;
  It 0xd5f7 0x701d;
  It 0xd5f8 0x792b;
  It 0xd5f9 0x8f62;
  It 0xd5fa 0x9742;
  It 0xd5fb 0x6190;
  It 0xd5fc 0x6200;
  It 0xd5fd 0x6523;
  It 0xd5fe 0x6f23;
  It 0xd6a1 0x7149;
  It 0xd6a2 0x7489;
  It 0xd6a3 0x7df4;
  It 0xd6a4 0x806f;
  It 0xd6a5 0x84ee;
  It 0xd6a6 0x8f26;
  It 0xd6a7 0x9023;
  It 0xd6a8 0x934a;
  It 0xd6a9 0x51bd;
  It 0xd6aa 0x5217;
  It 0xd6ab 0x52a3;
  It 0xd6ac 0x6d0c;
  It 0xd6ad 0x70c8;
  It 0xd6ae 0x88c2;
  It 0xd6af 0x5ec9;
  It 0xd6b0 0x6582;
  It 0xd6b1 0x6bae;
  It 0xd6b2 0x6fc2;
  It 0xd6b3 0x7c3e;
  It 0xd6b4 0x7375;
  It 0xd6b5 0x4ee4;
  It 0xd6b6 0x4f36;
  It 0xd6b7 0x56f9;
  It 0xd6b8 0xf95f;
  It 0xd6b9 0x5cba;
  It 0xd6ba 0x5dba;
  It 0xd6bb 0x601c;
  It 0xd6bc 0x73b2;
  It 0xd6bd 0x7b2d;
  It 0xd6be 0x7f9a;
  It 0xd6bf 0x7fce;
  It 0xd6c0 0x8046;
  It 0xd6c1 0x901e;
  It 0xd6c2 0x9234;
  It 0xd6c3 0x96f6;
  It 0xd6c4 0x9748;
  It 0xd6c5 0x9818;
  It 0xd6c6 0x9f61;
  It 0xd6c7 0x4f8b;
  It 0xd6c8 0x6fa7;
  It 0xd6c9 0x79ae;
  It 0xd6ca 0x91b4;
  It 0xd6cb 0x96b7;
  It 0xd6cc 0x52de;
  It 0xd6cd 0xf960;
  It 0xd6ce 0x6488;
  It 0xd6cf 0x64c4;
  It 0xd6d0 0x6ad3;
  It 0xd6d1 0x6f5e;
  It 0xd6d2 0x7018;
  It 0xd6d3 0x7210;
  It 0xd6d4 0x76e7;
  It 0xd6d5 0x8001;
  It 0xd6d6 0x8606;
  It 0xd6d7 0x865c;
  It 0xd6d8 0x8def;
  It 0xd6d9 0x8f05;
  It 0xd6da 0x9732;
  It 0xd6db 0x9b6f;
  It 0xd6dc 0x9dfa;
  It 0xd6dd 0x9e75;
  It 0xd6de 0x788c;
  It 0xd6df 0x797f;
  It 0xd6e0 0x7da0;
  It 0xd6e1 0x83c9;
  It 0xd6e2 0x9304;
  It 0xd6e3 0x9e7f;
  It 0xd6e4 0x9e93;
  It 0xd6e5 0x8ad6;
  It 0xd6e6 0x58df;
  It 0xd6e7 0x5f04;
  It 0xd6e8 0x6727;
  It 0xd6e9 0x7027;
  It 0xd6ea 0x74cf;
  It 0xd6eb 0x7c60;
  It 0xd6ec 0x807e;
  It 0xd6ed 0x5121;
  It 0xd6ee 0x7028;
  It 0xd6ef 0x7262;
  It 0xd6f0 0x78ca;
  It 0xd6f1 0x8cc2;
  It 0xd6f2 0x8cda;
  It 0xd6f3 0x8cf4;
  It 0xd6f4 0x96f7;
  It 0xd6f5 0x4e86;
  It 0xd6f6 0x50da;
  It 0xd6f7 0x5bee;
  It 0xd6f8 0x5ed6;
  It 0xd6f9 0x6599;
  It 0xd6fa 0x71ce;
  It 0xd6fb 0x7642;
  It 0xd6fc 0x77ad;
  It 0xd6fd 0x804a;
  It 0xd6fe 0x84fc;
  It 0xd7a1 0x907c;
  It 0xd7a2 0x9b27;
  It 0xd7a3 0x9f8d;
  It 0xd7a4 0x58d8;
  It 0xd7a5 0x5a41;
  It 0xd7a6 0x5c62;
  It 0xd7a7 0x6a13;
  It 0xd7a8 0x6dda;
  It 0xd7a9 0x6f0f;
  It 0xd7aa 0x763b;
  It 0xd7ab 0x7d2f;
  It 0xd7ac 0x7e37;
  It 0xd7ad 0x851e;
  It 0xd7ae 0x8938;
  It 0xd7af 0x93e4;
  It 0xd7b0 0x964b;
  It 0xd7b1 0x5289;
  It 0xd7b2 0x65d2;
  It 0xd7b3 0x67f3;
  It 0xd7b4 0x69b4;
  It 0xd7b5 0x6d41;
  It 0xd7b6 0x6e9c;
  It 0xd7b7 0x700f;
  It 0xd7b8 0x7409;
  It 0xd7b9 0x7460;
  It 0xd7ba 0x7559;
  It 0xd7bb 0x7624;
  It 0xd7bc 0x786b;
  It 0xd7bd 0x8b2c;
  It 0xd7be 0x985e;
  It 0xd7bf 0x516d;
  It 0xd7c0 0x622e;
  It 0xd7c1 0x9678;
  It 0xd7c2 0x4f96;
  It 0xd7c3 0x502b;
  It 0xd7c4 0x5d19;
  It 0xd7c5 0x6dea;
  It 0xd7c6 0x7db8;
  It 0xd7c7 0x8f2a;
  It 0xd7c8 0x5f8b;
  It 0xd7c9 0x6144;
  It 0xd7ca 0x6817;
  It 0xd7cb 0xf961;
  It 0xd7cc 0x9686;
  It 0xd7cd 0x52d2;
  It 0xd7ce 0x808b;
  It 0xd7cf 0x51dc;
  It 0xd7d0 0x51cc;
  It 0xd7d1 0x695e;
  It 0xd7d2 0x7a1c;
  It 0xd7d3 0x7dbe;
  It 0xd7d4 0x83f1;
  It 0xd7d5 0x9675;
  It 0xd7d6 0x4fda;
  It 0xd7d7 0x5229;
  It 0xd7d8 0x5398;
  It 0xd7d9 0x540f;
  It 0xd7da 0x550e;
  It 0xd7db 0x5c65;
  It 0xd7dc 0x60a7;
  It 0xd7dd 0x674e;
  It 0xd7de 0x68a8;
  It 0xd7df 0x6d6c;
  It 0xd7e0 0x7281;
  It 0xd7e1 0x72f8;
  It 0xd7e2 0x7406;
  It 0xd7e3 0x7483;
  It 0xd7e4 0xf962;
  It 0xd7e5 0x75e2;
  It 0xd7e6 0x7c6c;
  It 0xd7e7 0x7f79;
  It 0xd7e8 0x7fb8;
  It 0xd7e9 0x8389;
  It 0xd7ea 0x88cf;
  It 0xd7eb 0x88e1;
  It 0xd7ec 0x91cc;
  It 0xd7ed 0x91d0;
  It 0xd7ee 0x96e2;
  It 0xd7ef 0x9bc9;
  It 0xd7f0 0x541d;
  It 0xd7f1 0x6f7e;
  It 0xd7f2 0x71d0;
  It 0xd7f3 0x7498;
  It 0xd7f4 0x85fa;
  It 0xd7f5 0x8eaa;
  It 0xd7f6 0x96a3;
  It 0xd7f7 0x9c57;
  It 0xd7f8 0x9e9f;
  It 0xd7f9 0x6797;
  It 0xd7fa 0x6dcb;
  It 0xd7fb 0x7433;
  It 0xd7fc 0x81e8;
  It 0xd7fd 0x9716;
  It 0xd7fe 0x782c;
  It 0xd8a1 0x7acb;
  It 0xd8a2 0x7b20;
  It 0xd8a3 0x7c92;
  It 0xd8a4 0x6469;
  It 0xd8a5 0x746a;
  It 0xd8a6 0x75f2;
  It 0xd8a7 0x78bc;
  It 0xd8a8 0x78e8;
  It 0xd8a9 0x99ac;
  It 0xd8aa 0x9b54;
  It 0xd8ab 0x9ebb;
  It 0xd8ac 0x5bde;
  It 0xd8ad 0x5e55;
  It 0xd8ae 0x6f20;
  It 0xd8af 0x819c;
  It 0xd8b0 0x83ab;
  It 0xd8b1 0x9088;
  It 0xd8b2 0x4e07;
  It 0xd8b3 0x534d;
  It 0xd8b4 0x5a29;
  It 0xd8b5 0x5dd2;
  It 0xd8b6 0x5f4e;
  It 0xd8b7 0x6162;
  It 0xd8b8 0x633d
].

(* encoding/cp949/lookup_from.go:13509-13758 *)
Definition fromTable_054 : list lookupItem := [
  It 0xd8b9 0x6669;
  It 0xd8ba 0x66fc;
  It 0xd8bb 0x6eff;
  It 0xd8bc 0x6f2b;
  It 0xd8bd 0x7063;
  It 0xd8be 0x779e;
  It 0xd8bf 0x842c;
  It 0xd8c0 0x8513;
  It 0xd8c1 0x883b;
  It 0xd8c2 0x8f13;
  It 0xd8c3 0x9945;
  It 0xd8c4 0x9c3b;
  It 0xd8c5 0x551c;
  It 0xd8c6 0x62b9;
  It 0xd8c7 0x672b;
  It 0xd8c8 0x6cab;
  It 0xd8c9 0x8309;
  It 0xd8ca 0x896a;
  It 0xd8cb 0x977a;
  It 0xd8cc 0x4ea1;
  It 0xd8cd 0x5984;
  It 0xd8ce 0x5fd8;
  It 0xd8cf 0x5fd9;
  It 0xd8d0 0x671b;
  It 0xd8d1 0x7db2;
  It 0xd8d2 0x7f54;
  It 0xd8d3 0x8292;
  It 0xd8d4 0x832b;
  It 0xd8d5 0x83bd;
  It 0xd8d6 0x8f1e;
  It 0xd8d7 0x9099;
  It 0xd8d8 0x57cb;
  It 0xd8d9 0x59b9;
  It 0xd8da 0x5a92;
  It 0xd8db 0x5bd0;
  It 0xd8dc 0x6627;
  It 0xd8dd 0x679a;
  It 0xd8de 0x6885;
  It 0xd8df 0x6bcf;
  It 0xd8e0 0x7164;
  It 0xd8e1 0x7f75;
  It 0xd8e2 0x8cb7;
  It 0xd8e3 0x8ce3;
  It 0xd8e4 0x9081;
  It 0xd8e5 0x9b45;
  It 0xd8e6 0x8108;
  It 0xd8e7 0x8c8a;
  It 0xd8e8 0x964c;
  It 0xd8e9 0x9a40;
  It 0xd8ea 0x9ea5;
  It 0xd8eb 0x5b5f;
  It 0xd8ec 0x6c13;
  It 0xd8ed 0x731b;
  It 0xd8ee 0x76f2;
  It 0xd8ef 0x76df;
  It 0xd8f0 0x840c;
  It 0xd8f1 0x51aa;
  It 0xd8f2 0x8993;
  It 0xd8f3 0x514d;
  It 0xd8f4 0x5195;
  It 0xd8f5 0x52c9;
  It 0xd8f6 0x68c9;
  It 0xd8f7 0x6c94;
  It 0xd8f8 0x7704;
  It 0xd8f9 0x7720;
  It 0xd8fa 0x7dbf;
  It 0xd8fb 0x7dec;
  It 0xd8fc 0x9762;
  It 0xd8fd 0x9eb5;
  It 0xd8fe 0x6ec5;
  It 0xd9a1 0x8511;
  It 0xd9a2 0x51a5;
  It 0xd9a3 0x540d;
  It 0xd9a4 0x547d;
  It 0xd9a5 0x660e;
  It 0xd9a6 0x669d;
  It 0xd9a7 0x6927;
  It 0xd9a8 0x6e9f;
  It 0xd9a9 0x76bf;
  It 0xd9aa 0x7791;
  It 0xd9ab 0x8317;
  It 0xd9ac 0x84c2;
  It 0xd9ad 0x879f;
  It 0xd9ae 0x9169;
  It 0xd9af 0x9298;
  It 0xd9b0 0x9cf4;
  It 0xd9b1 0x8882;
  It 0xd9b2 0x4fae;
  It 0xd9b3 0x5192;
  It 0xd9b4 0x52df;
  It 0xd9b5 0x59c6;
  It 0xd9b6 0x5e3d;
  It 0xd9b7 0x6155;
  It 0xd9b8 0x6478;
  It 0xd9b9 0x6479;
  It 0xd9ba 0x66ae;
  It 0xd9bb 0x67d0;
  It 0xd9bc 0x6a21;
  It 0xd9bd 0x6bcd;
  It 0xd9be 0x6bdb;
  It 0xd9bf 0x725f;
  It 0xd9c0 0x7261;
  It 0xd9c1 0x7441;
  It 0xd9c2 0x7738;
  It 0xd9c3 0x77db;
  It 0xd9c4 0x8017;
  It 0xd9c5 0x82bc;
  It 0xd9c6 0x8305;
  It 0xd9c7 0x8b00;
  It 0xd9c8 0x8b28;
  It 0xd9c9 0x8c8c;
  It 0xd9ca 0x6728;
  It 0xd9cb 0x6c90;
  It 0xd9cc 0x7267;
  It 0xd9cd 0x76ee;
  It 0xd9ce 0x7766;
  It 0xd9cf 0x7a46;
  It 0xd9d0 0x9da9;
  It 0xd9d1 0x6b7f;
  It 0xd9d2 0x6c92;
  It 0xd9d3 0x5922;
  It 0xd9d4 0x6726;
  It 0xd9d5 0x8499;
  It 0xd9d6 0x536f;
  It 0xd9d7 0x5893;
  It 0xd9d8 0x5999;
  It 0xd9d9 0x5edf;
  It 0xd9da 0x63cf;
  It 0xd9db 0x6634;
  It 0xd9dc 0x6773;
  It 0xd9dd 0x6e3a;
  It 0xd9de 0x732b;
  It 0xd9df 0x7ad7;
  It 0xd9e0 0x82d7;
  It 0xd9e1 0x9328;
  It 0xd9e2 0x52d9;
  It 0xd9e3 0x5deb;
  It 0xd9e4 0x61ae;
  It 0xd9e5 0x61cb;
  It 0xd9e6 0x620a;
  It 0xd9e7 0x62c7;
  It 0xd9e8 0x64ab;
  It 0xd9e9 0x65e0;
  It 0xd9ea 0x6959;
  It 0xd9eb 0x6b66;
  It 0xd9ec 0x6bcb;
  It 0xd9ed 0x7121;
  It 0xd9ee 0x73f7;
  It 0xd9ef 0x755d;
  It 0xd9f0 0x7e46;
  It 0xd9f1 0x821e;
  It 0xd9f2 0x8302;
  It 0xd9f3 0x856a;
  It 0xd9f4 0x8aa3;
  It 0xd9f5 0x8cbf;
  It 0xd9f6 0x9727;
  It 0xd9f7 0x9d61;
  It 0xd9f8 0x58a8;
  It 0xd9f9 0x9ed8;
  It 0xd9fa 0x5011;
  It 0xd9fb 0x520e;
  It 0xd9fc 0x543b;
  It 0xd9fd 0x554f;
  It 0xd9fe 0x6587;
  It 0xdaa1 0x6c76;
  It 0xdaa2 0x7d0a;
  It 0xdaa3 0x7d0b;
  It 0xdaa4 0x805e;
  It 0xdaa5 0x868a;
  It 0xdaa6 0x9580;
  It 0xdaa7 0x96ef;
  It 0xdaa8 0x52ff;
  It 0xdaa9 0x6c95;
  It 0xdaaa 0x7269;
  It 0xdaab 0x5473;
  It 0xdaac 0x5a9a;
  It 0xdaad 0x5c3e;
  It 0xdaae 0x5d4b;
  It 0xdaaf 0x5f4c;
  It 0xdab0 0x5fae;
  It 0xdab1 0x672a;
  It 0xdab2 0x68b6;
  It 0xdab3 0x6963;
  It 0xdab4 0x6e3c;
  It 0xdab5 0x6e44;
  It 0xdab6 0x7709;
  It 0xdab7 0x7c73;
  It 0xdab8 0x7f8e;
  It 0xdab9 0x8587;
  It 0xdaba 0x8b0e;
  It 0xdabb 0x8ff7;
  It 0xdabc 0x9761;
  It 0xdabd 0x9ef4;
  It 0xdabe 0x5cb7;
  It 0xdabf 0x60b6;
  It 0xdac0 0x610d;
  It 0xdac1 0x61ab;
  It 0xdac2 0x654f;
  It 0xdac3 0x65fb;
  It 0xdac4 0x65fc;
  It 0xdac5 0x6c11;
  It 0xdac6 0x6cef;
  It 0xdac7 0x739f;
  It 0xdac8 0x73c9;
  It 0xdac9 0x7de1;
  It 0xdaca 0x9594;
  It 0xdacb 0x5bc6;
  It 0xdacc 0x871c;
  It 0xdacd 0x8b10;
  It 0xdace 0x525d;
  It 0xdacf 0x535a;
  It 0xdad0 0x62cd;
  It 0xdad1 0x640f;
  It 0xdad2 0x64b2;
  It 0xdad3 0x6734;
  It 0xdad4 0x6a38;
  It 0xdad5 0x6cca;
  It 0xdad6 0x73c0;
  It 0xdad7 0x749e;
  It 0xdad8 0x7b94;
  It 0xdad9 0x7c95;
  It 0xdada 0x7e1b;
  It 0xdadb 0x818a;
  It 0xdadc 0x8236;
  It 0xdadd 0x8584;
  It 0xdade 0x8feb;
  It 0xdadf 0x96f9;
  It 0xdae0 0x99c1;
  It 0xdae1 0x4f34;
  It 0xdae2 0x534a;
  It 0xdae3 0x53cd;
  It 0xdae4 0x53db;
  It 0xdae5 0x62cc;
  It 0xdae6 0x642c;
  It 0xdae7 0x6500;
  It 0xdae8 0x6591;
  It 0xdae9 0x69c3;
  It 0xdaea 0x6cee;
  It 0xdaeb 0x6f58;
  It 0xdaec 0x73ed;
  It 0xdaed 0x7554;
  It 0xdaee 0x7622;
  It 0xdaef 0x76e4;
  It 0xdaf0 0x76fc;
  It 0xdaf1 0x78d0;
  It 0xdaf2 0x78fb;
  It 0xdaf3 0x792c;
  It 0xdaf4 0x7d46;
  It 0xdaf5 0x822c;
  It 0xdaf6 0x87e0
].

(* encoding/cp949/lookup_from.go:13759-14008 *)
Definition fromTable_055 : list lookupItem := [
  It 0xdaf7 0x8fd4;
  It 0xdaf8 0x9812;
  It 0xdaf9 0x98ef;
  It 0xdafa 0x52c3;
  It 0xdafb 0x62d4;
  It 0xdafc 0x64a5;
  It 0xdafd 0x6e24;
  It 0xdafe 0x6f51;
  It 0xdba1 0x767c;
  It 0xdba2 0x8dcb;
  It 0xdba3 0x91b1;
  It 0xdba4 0x9262;
  It 0xdba5 0x9aee;
  It 0xdba6 0x9b43;
  It 0xdba7 0x5023;
  It 0xdba8 0x508d;
  It 0xdba9 0x574a;
  It 0xdbaa 0x59a8;
  It 0xdbab 0x5c28;
  It 0xdbac 0x5e47;
  It 0xdbad 0x5f77;
  It 0xdbae 0x623f;
  It 0xdbaf 0x653e;
  It 0xdbb0 0x65b9;
  It 0xdbb1 0x65c1;
  It 0xdbb2 0x6609;
  It 0xdbb3 0x678b;
  It 0xdbb4 0x699c;
  It 0xdbb5 0x6ec2;
  It 0xdbb6 0x78c5;
  It 0xdbb7 0x7d21;
  It 0xdbb8 0x80aa;
  It 0xdbb9 0x8180;
  It 0xdbba 0x822b;
  It 0xdbbb 0x82b3;
  It 0xdbbc 0x84a1;
  It 0xdbbd 0x868c;
  It 0xdbbe 0x8a2a;
  It 0xdbbf 0x8b17;
  It 0xdbc0 0x90a6;
  It 0xdbc1 0x9632;
  It 0xdbc2 0x9f90;
  It 0xdbc3 0x500d;
  It 0xdbc4 0x4ff3;
  It 0xdbc5 0xf963;
  It 0xdbc6 0x57f9;
  It 0xdbc7 0x5f98;
  It 0xdbc8 0x62dc;
  It 0xdbc9 0x6392;
  It 0xdbca 0x676f;
  It 0xdbcb 0x6e43;
  It 0xdbcc 0x7119;
  It 0xdbcd 0x76c3;
  It 0xdbce 0x80cc;
  It 0xdbcf 0x80da;
  It 0xdbd0 0x88f4;
  It 0xdbd1 0x88f5;
  It 0xdbd2 0x8919;
  It 0xdbd3 0x8ce0;
  It 0xdbd4 0x8f29;
  It 0xdbd5 0x914d;
  It 0xdbd6 0x966a;
  It 0xdbd7 0x4f2f;
  It 0xdbd8 0x4f70;
  It 0xdbd9 0x5e1b;
  It 0xdbda 0x67cf;
  It 0xdbdb 0x6822;
  It 0xdbdc 0x767d;
  It 0xdbdd 0x767e;
  It 0xdbde 0x9b44;
  It 0xdbdf 0x5e61;
  It 0xdbe0 0x6a0a;
  It 0xdbe1 0x7169;
  It 0xdbe2 0x71d4;
  It 0xdbe3 0x756a;
  It 0xdbe4 0xf964;
  It 0xdbe5 0x7e41;
  It 0xdbe6 0x8543;
  It 0xdbe7 0x85e9;
  It 0xdbe8 0x98dc;
  It 0xdbe9 0x4f10;
  It 0xdbea 0x7b4f;
  It 0xdbeb 0x7f70;
  It 0xdbec 0x95a5;
  It 0xdbed 0x51e1;
  It 0xdbee 0x5e06;
  It 0xdbef 0x68b5;
  It 0xdbf0 0x6c3e;
  It 0xdbf1 0x6c4e;
  It 0xdbf2 0x6cdb;
  It 0xdbf3 0x72af;
  It 0xdbf4 0x7bc4;
  It 0xdbf5 0x8303;
  It 0xdbf6 0x6cd5;
  It 0xdbf7 0x743a;
  It 0xdbf8 0x50fb;
  It 0xdbf9 0x5288;
  It 0xdbfa 0x58c1;
  It 0xdbfb 0x64d8;
  It 0xdbfc 0x6a97;
  It 0xdbfd 0x74a7;
  It 0xdbfe 0x7656;
  It 0xdca1 0x78a7;
  It 0xdca2 0x8617;
  It 0xdca3 0x95e2;
  It 0xdca4 0x9739;
  It 0xdca5 0xf965;
  It 0xdca6 0x535e;
  It 0xdca7 0x5f01;
  It 0xdca8 0x8b8a;
  It 0xdca9 0x8fa8;
  It 0xdcaa 0x8faf;
  It 0xdcab 0x908a;
  It 0xdcac 0x5225;
  It 0xdcad 0x77a5;
  It 0xdcae 0x9c49;
  It 0xdcaf 0x9f08;
  It 0xdcb0 0x4e19;
  It 0xdcb1 0x5002;
  It 0xdcb2 0x5175;
  It 0xdcb3 0x5c5b;
  It 0xdcb4 0x5e77;
  It 0xdcb5 0x661e;
  It 0xdcb6 0x663a;
  It 0xdcb7 0x67c4;
  It 0xdcb8 0x68c5;
  It 0xdcb9 0x70b3;
  It 0xdcba 0x7501;
  It 0xdcbb 0x75c5;
  It 0xdcbc 0x79c9;
  It 0xdcbd 0x7add;
  It 0xdcbe 0x8f27;
  It 0xdcbf 0x9920;
  It 0xdcc0 0x9a08;
  It 0xdcc1 0x4fdd;
  It 0xdcc2 0x5821;
  It 0xdcc3 0x5831;
  It 0xdcc4 0x5bf6;
  It 0xdcc5 0x666e;
  It 0xdcc6 0x6b65;
  It 0xdcc7 0x6d11;
  It 0xdcc8 0x6e7a;
  It 0xdcc9 0x6f7d;
  It 0xdcca 0x73e4;
  It 0xdccb 0x752b;
  It 0xdccc 0x83e9;
  It 0xdccd 0x88dc;
  It 0xdcce 0x8913;
  It 0xdccf 0x8b5c;
  It 0xdcd0 0x8f14;
  It 0xdcd1 0x4f0f;
  It 0xdcd2 0x50d5;
  It 0xdcd3 0x5310;
  It 0xdcd4 0x535c;
  It 0xdcd5 0x5b93;
  It 0xdcd6 0x5fa9;
  It 0xdcd7 0x670d;
  It 0xdcd8 0x798f;
  It 0xdcd9 0x8179;
  It 0xdcda 0x832f;
  It 0xdcdb 0x8514;
  It 0xdcdc 0x8907;
  It 0xdcdd 0x8986;
  It 0xdcde 0x8f39;
  It 0xdcdf 0x8f3b;
  It 0xdce0 0x99a5;
  It 0xdce1 0x9c12;
  It 0xdce2 0x672c;
  It 0xdce3 0x4e76;
  It 0xdce4 0x4ff8;
  It 0xdce5 0x5949;
  It 0xdce6 0x5c01;
  It 0xdce7 0x5cef;
  It 0xdce8 0x5cf0;
  It 0xdce9 0x6367;
  It 0xdcea 0x68d2;
  It 0xdceb 0x70fd;
  It 0xdcec 0x71a2;
  It 0xdced 0x742b;
  It 0xdcee 0x7e2b;
  It 0xdcef 0x84ec;
  It 0xdcf0 0x8702;
  It 0xdcf1 0x9022;
  It 0xdcf2 0x92d2;
  It 0xdcf3 0x9cf3;
  It 0xdcf4 0x4e0d;
  It 0xdcf5 0x4ed8;
  It 0xdcf6 0x4fef;
  It 0xdcf7 0x5085;
  It 0xdcf8 0x5256;
  It 0xdcf9 0x526f;
  It 0xdcfa 0x5426;
  It 0xdcfb 0x5490;
  It 0xdcfc 0x57e0;
  It 0xdcfd 0x592b;
  It 0xdcfe 0x5a66;
  It 0xdda1 0x5b5a;
  It 0xdda2 0x5b75;
  It 0xdda3 0x5bcc;
  It 0xdda4 0x5e9c;
  It 0xdda5 0xf966;
  It 0xdda6 0x6276;
  It 0xdda7 0x6577;
  It 0xdda8 0x65a7;
  It 0xdda9 0x6d6e;
  It 0xddaa 0x6ea5;
  It 0xddab 0x7236;
  It 0xddac 0x7b26;
  It 0xddad 0x7c3f;
  It 0xddae 0x7f36;
  It 0xddaf 0x8150;
  It 0xddb0 0x8151;
  It 0xddb1 0x819a;
  It 0xddb2 0x8240;
  It 0xddb3 0x8299;
  It 0xddb4 0x83a9;
  It 0xddb5 0x8a03;
  It 0xddb6 0x8ca0;
  It 0xddb7 0x8ce6;
  It 0xddb8 0x8cfb;
  It 0xddb9 0x8d74;
  It 0xddba 0x8dba;
  It 0xddbb 0x90e8;
  It 0xddbc 0x91dc;
  It 0xddbd 0x961c;
  It 0xddbe 0x9644;
  It 0xddbf 0x99d9;
  It 0xddc0 0x9ce7;
  It 0xddc1 0x5317;
  It 0xddc2 0x5206;
  It 0xddc3 0x5429;
  It 0xddc4 0x5674;
  It 0xddc5 0x58b3;
  It 0xddc6 0x5954;
  It 0xddc7 0x596e;
  It 0xddc8 0x5fff;
  It 0xddc9 0x61a4;
  It 0xddca 0x626e;
  It 0xddcb 0x6610;
  It 0xddcc 0x6c7e;
  It 0xddcd 0x711a;
  It 0xddce 0x76c6;
  It 0xddcf 0x7c89;
  It 0xddd0 0x7cde;
  It 0xddd1 0x7d1b;
  It 0xddd2 0x82ac;
  It 0xddd3 0x8cc1;
  It 0xddd4 0x96f0;
  It 0xddd5 0xf967;
  It 0xddd6 0x4f5b
].

(* encoding/cp949/lookup_from.go:14009-14258 *)
Definition fromTable_056 : list lookupItem := [
  It 0xddd7 0x5f17;
  It 0xddd8 0x5f7f;
  It 0xddd9 0x62c2;
  It 0xddda 0x5d29;
  It 0xdddb 0x670b;
  It 0xdddc 0x68da;
  It 0xdddd 0x787c;
  It 0xddde 0x7e43;
  It 0xdddf 0x9d6c;
  It 0xdde0 0x4e15;
  It 0xdde1 0x5099;
  It 0xdde2 0x5315;
  It 0xdde3 0x532a;
  It 0xdde4 0x5351;
  It 0xdde5 0x5983;
  It 0xdde6 0x5a62;
  It 0xdde7 0x5e87;
  It 0xdde8 0x60b2;
  It 0xdde9 0x618a;
  It 0xddea 0x6249;
  It 0xddeb 0x6279;
  It 0xddec 0x6590;
  It 0xdded 0x6787;
  It 0xddee 0x69a7;
  It 0xddef 0x6bd4;
  It 0xddf0 0x6bd6;
  It 0xddf1 0x6bd7;
  It 0xddf2 0x6bd8;
  It 0xddf3 0x6cb8;
  It 0xddf4 0xf968;
  It 0xddf5 0x7435;
  It 0xddf6 0x75fa;
  It 0xddf7 0x7812;
  It 0xddf8 0x7891;
  It 0xddf9 0x79d5;
  It 0xddfa 0x79d8;
  It 0xddfb 0x7c83;
  It 0xddfc 0x7dcb;
  It 0xddfd 0x7fe1;
  It 0xddfe 0x80a5;
  It 0xdea1 0x813e;
  It 0xdea2 0x81c2;
  It 0xdea3 0x83f2;
  It 0xdea4 0x871a;
  It 0xdea5 0x88e8;
  It 0xdea6 0x8ab9;
  It 0xdea7 0x8b6c;
  It 0xdea8 0x8cbb;
  It 0xdea9 0x9119;
  It 0xdeaa 0x975e;
  It 0xdeab 0x98db;
  It 0xdeac 0x9f3b;
  It 0xdead 0x56ac;
  It 0xdeae 0x5b2a;
  It 0xdeaf 0x5f6c;
  It 0xdeb0 0x658c;
  It 0xdeb1 0x6ab3;
  It 0xdeb2 0x6baf;
  It 0xdeb3 0x6d5c;
  It 0xdeb4 0x6ff1;
  It 0xdeb5 0x7015;
  It 0xdeb6 0x725d;
  It 0xdeb7 0x73ad;
  It 0xdeb8 0x8ca7;
  It 0xdeb9 0x8cd3;
  It 0xdeba 0x983b;
  It 0xdebb 0x6191;
  It 0xdebc 0x6c37;
  It 0xdebd 0x8058;
  It 0xdebe 0x9a01;
  It 0xdebf 0x4e4d;
  It 0xdec0 0x4e8b;
  It 0xdec1 0x4e9b;
  It 0xdec2 0x4ed5;
  It 0xdec3 0x4f3a;
  It 0xdec4 0x4f3c;
  It 0xdec5 0x4f7f;
  It 0xdec6 0x4fdf;
  It 0xdec7 0x50ff;
  It 0xdec8 0x53f2;
  It 0xdec9 0x53f8;
  It 0xdeca 0x5506;
  It 0xdecb 0x55e3;
  It 0xdecc 0x56db;
  It 0xdecd 0x58eb;
  It 0xdece 0x5962;
  It 0xdecf 0x5a11;
  It 0xded0 0x5beb;
  It 0xded1 0x5bfa;
  It 0xded2 0x5c04;
  It 0xded3 0x5df3;
  It 0xded4 0x5e2b;
  It 0xded5 0x5f99;
  It 0xded6 0x601d;
  It 0xded7 0x6368;
  It 0xded8 0x659c;
  It 0xded9 0x65af;
  It 0xdeda 0x67f6;
  It 0xdedb 0x67fb;
  It 0xdedc 0x68ad;
  It 0xdedd 0x6b7b;
  It 0xdede 0x6c99;
  It 0xdedf 0x6cd7;
  It 0xdee0 0x6e23;
  It 0xdee1 0x7009;
  It 0xdee2 0x7345;
  It 0xdee3 0x7802;
  It 0xdee4 0x793e;
  It 0xdee5 0x7940;
  It 0xdee6 0x7960;
  It 0xdee7 0x79c1;
  It 0xdee8 0x7be9;
  It 0xdee9 0x7d17;
  It 0xdeea 0x7d72;
  It 0xdeeb 0x8086;
  It 0xdeec 0x820d;
  It 0xdeed 0x838e;
  It 0xdeee 0x84d1;
  It 0xdeef 0x86c7;
  It 0xdef0 0x88df;
  It 0xdef1 0x8a50;
  It 0xdef2 0x8a5e;
  It 0xdef3 0x8b1d;
  It 0xdef4 0x8cdc;
  It 0xdef5 0x8d66;
  It 0xdef6 0x8fad;
  It 0xdef7 0x90aa;
  It 0xdef8 0x98fc;
  It 0xdef9 0x99df;
  It 0xdefa 0x9e9d;
  It 0xdefb 0x524a;
  It 0xdefc 0xf969;
  It 0xdefd 0x6714;
  It 0xdefe 0xf96a;
  It 0xdfa1 0x5098;
  It 0xdfa2 0x522a;
  It 0xdfa3 0x5c71;
  It 0xdfa4 0x6563;
  It 0xdfa5 0x6c55;
  It 0xdfa6 0x73ca;
  It 0xdfa7 0x7523;
  It 0xdfa8 0x759d;
  It 0xdfa9 0x7b97;
  It 0xdfaa 0x849c;
  It 0xdfab 0x9178;
  It 0xdfac 0x9730;
  It 0xdfad 0x4e77;
  It 0xdfae 0x6492;
  It 0xdfaf 0x6bba;
  It 0xdfb0 0x715e;
  It 0xdfb1 0x85a9;
  It 0xdfb2 0x4e09;
  It 0xdfb3 0xf96b;
  It 0xdfb4 0x6749;
  It 0xdfb5 0x68ee;
  It 0xdfb6 0x6e17;
  It 0xdfb7 0x829f;
  It 0xdfb8 0x8518;
  It 0xdfb9 0x886b;
  It 0xdfba 0x63f7;
  It 0xdfbb 0x6f81;
  It 0xdfbc 0x9212;
  It 0xdfbd 0x98af;
  It 0xdfbe 0x4e0a;
  It 0xdfbf 0x50b7;
  It 0xdfc0 0x50cf;
  It 0xdfc1 0x511f;
  It 0xdfc2 0x5546;
  It 0xdfc3 0x55aa;
  It 0xdfc4 0x5617;
  It 0xdfc5 0x5b40;
  It 0xdfc6 0x5c19;
  It 0xdfc7 0x5ce0;
  It 0xdfc8 0x5e38;
  It 0xdfc9 0x5e8a;
  It 0xdfca 0x5ea0;
  It 0xdfcb 0x5ec2;
  It 0xdfcc 0x60f3;
  It 0xdfcd 0x6851;
  It 0xdfce 0x6a61;
  It 0xdfcf 0x6e58;
  It 0xdfd0 0x723d;
  It 0xdfd1 0x7240;
  It 0xdfd2 0x72c0;
  It 0xdfd3 0x76f8;
  It 0xdfd4 0x7965;
  It 0xdfd5 0x7bb1;
  It 0xdfd6 0x7fd4;
  It 0xdfd7 0x88f3;
  It 0xdfd8 0x89f4;
  It 0xdfd9 0x8a73;
  It 0xdfda 0x8c61;
  It 0xdfdb 0x8cde;
  It 0xdfdc 0x971c;
  It 0xdfdd 0x585e;
  It 0xdfde 0x74bd;
  It 0xdfdf 0x8cfd;
  It 0xdfe0 0x55c7;
  It 0xdfe1 0xf96c;
  It 0xdfe2 0x7a61;
  It 0xdfe3 0x7d22;
  It 0xdfe4 0x8272;
  It 0xdfe5 0x7272;
  It 0xdfe6 0x751f;
  It 0xdfe7 0x7525;
  It 0xdfe8 0xf96d;
  It 0xdfe9 0x7b19;
  It 0xdfea 0x5885;
  It 0xdfeb 0x58fb;
  It 0xdfec 0x5dbc;
  It 0xdfed 0x5e8f;
  It 0xdfee 0x5eb6;
  It 0xdfef 0x5f90;
  It 0xdff0 0x6055;
  It 0xdff1 0x6292;
  It 0xdff2 0x637f;
  It 0xdff3 0x654d;
  It 0xdff4 0x6691;
  It 0xdff5 0x66d9;
  It 0xdff6 0x66f8;
  It 0xdff7 0x6816;
  It 0xdff8 0x68f2;
  It 0xdff9 0x7280;
  It 0xdffa 0x745e;
  It 0xdffb 0x7b6e;
  It 0xdffc 0x7d6e;
  It 0xdffd 0x7dd6;
  It 0xdffe 0x7f72;
  It 0xe0a1 0x80e5;
  It 0xe0a2 0x8212;
  It 0xe0a3 0x85af;
  It 0xe0a4 0x897f;
  It 0xe0a5 0x8a93;
  It 0xe0a6 0x901d;
  It 0xe0a7 0x92e4;
  It 0xe0a8 0x9ecd;
  It 0xe0a9 0x9f20;
  It 0xe0aa 0x5915;
  It 0xe0ab 0x596d;
  It 0xe0ac 0x5e2d;
  It 0xe0ad 0x60dc;
  It 0xe0ae 0x6614;
  It 0xe0af 0x6673;
  It 0xe0b0 0x6790;
  It 0xe0b1 0x6c50;
  It 0xe0b2 0x6dc5;
  It 0xe0b3 0x6f5f;
  It 0xe0b4 0x77f3;
  It 0xe0b5 0x78a9;
  It 0xe0b6 0x84c6
].

(* encoding/cp949/lookup_from.go:14259-14508 *)
Definition fromTable_057 : list lookupItem := [
  It 0xe0b7 0x91cb;
  It 0xe0b8 0x932b;
  It 0xe0b9 0x4ed9;
  It 0xe0ba 0x50ca;
  It 0xe0bb 0x5148;
  It 0xe0bc 0x5584;
  It 0xe0bd 0x5b0b;
  It 0xe0be 0x5ba3;
  It 0xe0bf 0x6247;
  It 0xe0c0 0x657e;
  It 0xe0c1 0x65cb;
  It 0xe0c2 0x6e32;
  It 0xe0c3 0x717d;
  It 0xe0c4 0x7401;
  It 0xe0c5 0x7444;
  It 0xe0c6 0x7487;
  It 0xe0c7 0x74bf;
  It 0xe0c8 0x766c;
  It 0xe0c9 0x79aa;
  It 0xe0ca 0x7dda;
  It 0xe0cb 0x7e55;
  It 0xe0cc 0x7fa8;
  It 0xe0cd 0x817a;
  It 0xe0ce 0x81b3;
  It 0xe0cf 0x8239;
  It 0xe0d0 0x861a;
  It 0xe0d1 0x87ec;
  It 0xe0d2 0x8a75;
  It 0xe0d3 0x8de3;
  It 0xe0d4 0x9078;
  It 0xe0d5 0x9291;
  It 0xe0d6 0x9425;
  It 0xe0d7 0x994d;
  It 0xe0d8 0x9bae;
  It 0xe0d9 0x5368;
  It 0xe0da 0x5c51;
  It 0xe0db 0x6954;
  It 0xe0dc 0x6cc4;
  It 0xe0dd 0x6d29;
  It 0xe0de 0x6e2b;
  It 0xe0df 0x820c;
  It 0xe0e0 0x859b;
  It 0xe0e1 0x893b;
  It 0xe0e2 0x8a2d;
  It 0xe0e3 0x8aaa;
  It 0xe0e4 0x96ea;
  It 0xe0e5 0x9f67;
  It 0xe0e6 0x5261;
  It 0xe0e7 0x66b9;
  It 0xe0e8 0x6bb2;
  It 0xe0e9 0x7e96;
  It 0xe0ea 0x87fe;
  It 0xe0eb 0x8d0d;
  It 0xe0ec 0x9583;
  It 0xe0ed 0x965d;
  It 0xe0ee 0x651d;
  It 0xe0ef 0x6d89;
  It 0xe0f0 0x71ee;
  It 0xe0f1 0xf96e;
  It 0xe0f2 0x57ce;
  It 0xe0f3 0x59d3;
  It 0xe0f4 0x5bac;
  It 0xe0f5 0x6027;
  It 0xe0f6 0x60fa;
  It 0xe0f7 0x6210;
  It 0xe0f8 0x661f;
  It 0xe0f9 0x665f;
  It 0xe0fa 0x7329;
  It 0xe0fb 0x73f9;
  It 0xe0fc 0x76db;
  It 0xe0fd 0x7701;
  It 0xe0fe 0x7b6c;
  It 0xe1a1 0x8056;
  It 0xe1a2 0x8072;
  It 0xe1a3 0x8165;
  It 0xe1a4 0x8aa0;
  It 0xe1a5 0x9192;
  It 0xe1a6 0x4e16;
  It 0xe1a7 0x52e2;
  It 0xe1a8 0x6b72;
  It 0xe1a9 0x6d17;
  It 0xe1aa 0x7a05;
  It 0xe1ab 0x7b39;
  It 0xe1ac 0x7d30;
  It 0xe1ad 0xf96f;
  It 0xe1ae 0x8cb0;
  It 0xe1af 0x53ec;
  It 0xe1b0 0x562f;
  It 0xe1b1 0x5851;
  It 0xe1b2 0x5bb5;
  It 0xe1b3 0x5c0f;
  It 0xe1b4 0x5c11;
  It 0xe1b5 0x5de2;
  It 0xe1b6 0x6240;
  It 0xe1b7 0x6383;
  It 0xe1b8 0x6414;
  It 0xe1b9 0x662d;
  It 0xe1ba 0x68b3;
  It 0xe1bb 0x6cbc;
  It 0xe1bc 0x6d88;
  It 0xe1bd 0x6eaf;
  It 0xe1be 0x701f;
  It 0xe1bf 0x70a4;
  It 0xe1c0 0x71d2;
  It 0xe1c1 0x7526;
  It 0xe1c2 0x758f;
  It 0xe1c3 0x758e;
  It 0xe1c4 0x7619;
  It 0xe1c5 0x7b11;
  It 0xe1c6 0x7be0;
  It 0xe1c7 0x7c2b;
  It 0xe1c8 0x7d20;
  It 0xe1c9 0x7d39;
  It 0xe1ca 0x852c;
  It 0xe1cb 0x856d;
  It 0xe1cc 0x8607;
  It 0xe1cd 0x8a34;
  It 0xe1ce 0x900d;
  It 0xe1cf 0x9061;
  It 0xe1d0 0x90b5;
  It 0xe1d1 0x92b7;
  It 0xe1d2 0x97f6;
  It 0xe1d3 0x9a37;
  It 0xe1d4 0x4fd7;
  It 0xe1d5 0x5c6c;
  It 0xe1d6 0x675f;
  It 0xe1d7 0x6d91;
  It 0xe1d8 0x7c9f;
  It 0xe1d9 0x7e8c;
  It 0xe1da 0x8b16;
  It 0xe1db 0x8d16;
  It 0xe1dc 0x901f;
  It 0xe1dd 0x5b6b;
  It 0xe1de 0x5dfd;
  It 0xe1df 0x640d;
  It 0xe1e0 0x84c0;
  It 0xe1e1 0x905c;
  It 0xe1e2 0x98e1;
  It 0xe1e3 0x7387;
  It 0xe1e4 0x5b8b;
  It 0xe1e5 0x609a;
  It 0xe1e6 0x677e;
  It 0xe1e7 0x6dde;
  It 0xe1e8 0x8a1f;
  It 0xe1e9 0x8aa6;
  It 0xe1ea 0x9001;
  It 0xe1eb 0x980c;
  It 0xe1ec 0x5237;
  It 0xe1ed 0xf970;
  It 0xe1ee 0x7051;
  It 0xe1ef 0x788e;
  It 0xe1f0 0x9396;
  It 0xe1f1 0x8870;
  It 0xe1f2 0x91d7;
  It 0xe1f3 0x4fee;
  It 0xe1f4 0x53d7;
  It 0xe1f5 0x55fd;
  It 0xe1f6 0x56da;
  It 0xe1f7 0x5782;
  It 0xe1f8 0x58fd;
  It 0xe1f9 0x5ac2;
  It 0xe1fa 0x5b88;
  It 0xe1fb 0x5cab;
  It 0xe1fc 0x5cc0;
  It 0xe1fd 0x5e25;
  It 0xe1fe 0x6101;
  It 0xe2a1 0x620d;
  It 0xe2a2 0x624b;
  It 0xe2a3 0x6388;
  It 0xe2a4 0x641c;
  It 0xe2a5 0x6536;
  It 0xe2a6 0x6578;
  It 0xe2a7 0x6a39;
  It 0xe2a8 0x6b8a;
  It 0xe2a9 0x6c34;
  It 0xe2aa 0x6d19;
  It 0xe2ab 0x6f31;
  It 0xe2ac 0x71e7;
  It 0xe2ad 0x72e9;
  It 0xe2ae 0x7378;
  It 0xe2af 0x7407;
  It 0xe2b0 0x74b2;
  It 0xe2b1 0x7626;
  It 0xe2b2 0x7761;
  It 0xe2b3 0x79c0;
  It 0xe2b4 0x7a57;
  It 0xe2b5 0x7aea;
  It 0xe2b6 0x7cb9;
  It 0xe2b7 0x7d8f;
  It 0xe2b8 0x7dac;
  It 0xe2b9 0x7e61;
  It 0xe2ba 0x7f9e;
  It 0xe2bb 0x8129;
  It 0xe2bc 0x8331;
  It 0xe2bd 0x8490;
  It 0xe2be 0x84da;
  It 0xe2bf 0x85ea;
  It 0xe2c0 0x8896;
  It 0xe2c1 0x8ab0;
  It 0xe2c2 0x8b90;
  It 0xe2c3 0x8f38;
  It 0xe2c4 0x9042;
  It 0xe2c5 0x9083;
  It 0xe2c6 0x916c;
  It 0xe2c7 0x9296;
  It 0xe2c8 0x92b9;
  It 0xe2c9 0x968b;
  It 0xe2ca 0x96a7;
  It 0xe2cb 0x96a8;
  It 0xe2cc 0x96d6;
  It 0xe2cd 0x9700;
  It 0xe2ce 0x9808;
  It 0xe2cf 0x9996;
  It 0xe2d0 0x9ad3;
  It 0xe2d1 0x9b1a;
  It 0xe2d2 0x53d4;
  It 0xe2d3 0x587e;
  It 0xe2d4 0x5919;
  It 0xe2d5 0x5b70;
  It 0xe2d6 0x5bbf;
  It 0xe2d7 0x6dd1;
  It 0xe2d8 0x6f5a;
  It 0xe2d9 0x719f;
  It 0xe2da 0x7421;
  It 0xe2db 0x74b9;
  It 0xe2dc 0x8085;
  It 0xe2dd 0x83fd;
  It 0xe2de 0x5de1;
  It 0xe2df 0x5f87;
  It 0xe2e0 0x5faa;
  It 0xe2e1 0x6042;
  It 0xe2e2 0x65ec;
  It 0xe2e3 0x6812;
  It 0xe2e4 0x696f;
  It 0xe2e5 0x6a53;
  It 0xe2e6 0x6b89;
  It 0xe2e7 0x6d35;
  It 0xe2e8 0x6df3;
  It 0xe2e9 0x73e3;
  It 0xe2ea 0x76fe;
  It 0xe2eb 0x77ac;
  It 0xe2ec 0x7b4d;
  It 0xe2ed 0x7d14;
  It 0xe2ee 0x8123;
  It 0xe2ef 0x821c;
  It 0xe2f0 0x8340;
  It 0xe2f1 0x84f4;
  It 0xe2f2 0x8563;
  It 0xe2f3 0x8a62;
  It 0xe2f4 0x8ac4
].

(* encoding/cp949/lookup_from.go:14509-14758 *)
Definition fromTable_058 : list lookupItem := [
  It 0xe2f5 0x9187;
  It 0xe2f6 0x931e;
  It 0xe2f7 0x9806;
  It 0xe2f8 0x99b4;
  It 0xe2f9 0x620c;
  It 0xe2fa 0x8853;
  It 0xe2fb 0x8ff0;
  It 0xe2fc 0x9265;
  It 0xe2fd 0x5d07;
  It 0xe2fe 0x5d27;
  It 0xe3a1 0x5d69;
  It 0xe3a2 0x745f;
  It 0xe3a3 0x819d;
  It 0xe3a4 0x8768;
  It 0xe3a5 0x6fd5;
  It 0xe3a6 0x62fe;
  It 0xe3a7 0x7fd2;
  It 0xe3a8 0x8936;
  It 0xe3a9 0x8972;
  It 0xe3aa 0x4e1e;
  It 0xe3ab 0x4e58;
  It 0xe3ac 0x50e7;
  It 0xe3ad 0x52dd;
  It 0xe3ae 0x5347;
  It 0xe3af 0x627f;
  It 0xe3b0 0x6607;
  It 0xe3b1 0x7e69;
  It 0xe3b2 0x8805;
  It 0xe3b3 0x965e;
  It 0xe3b4 0x4f8d;
  It 0xe3b5 0x5319;
  It 0xe3b6 0x5636;
  It 0xe3b7 0x59cb;
  It 0xe3b8 0x5aa4;
  It 0xe3b9 0x5c38;
  It 0xe3ba 0x5c4e;
  It 0xe3bb 0x5c4d;
  It 0xe3bc 0x5e02;
  It 0xe3bd 0x5f11;
  It 0xe3be 0x6043;
  It 0xe3bf 0x65bd;
  It 0xe3c0 0x662f;
  It 0xe3c1 0x6642;
  It 0xe3c2 0x67be;
  It 0xe3c3 0x67f4;
  It 0xe3c4 0x731c;
  It 0xe3c5 0x77e2;
  It 0xe3c6 0x793a;
  It 0xe3c7 0x7fc5;
  It 0xe3c8 0x8494;
  It 0xe3c9 0x84cd;
  It 0xe3ca 0x8996;
  It 0xe3cb 0x8a66;
  It 0xe3cc 0x8a69;
  It 0xe3cd 0x8ae1;
  It 0xe3ce 0x8c55;
  It 0xe3cf 0x8c7a;
  It 0xe3d0 0x57f4;
  It 0xe3d1 0x5bd4;
  It 0xe3d2 0x5f0f;
  It 0xe3d3 0x606f;
  It 0xe3d4 0x62ed;
  It 0xe3d5 0x690d;
  It 0xe3d6 0x6b96;
  It 0xe3d7 0x6e5c;
  It 0xe3d8 0x7184;
  It 0xe3d9 0x7bd2;
  It 0xe3da 0x8755;
  It 0xe3db 0x8b58;
  It 0xe3dc 0x8efe;
  It 0xe3dd 0x98df;
  It 0xe3de 0x98fe;
  It 0xe3df 0x4f38;
  It 0xe3e0 0x4f81;
  It 0xe3e1 0x4fe1;
  It 0xe3e2 0x547b;
  It 0xe3e3 0x5a20;
  It 0xe3e4 0x5bb8;
  It 0xe3e5 0x613c;
  It 0xe3e6 0x65b0;
  It 0xe3e7 0x6668;
  It 0xe3e8 0x71fc;
  It 0xe3e9 0x7533;
  It 0xe3ea 0x795e;
  It 0xe3eb 0x7d33;
  It 0xe3ec 0x814e;
  It 0xe3ed 0x81e3;
  It 0xe3ee 0x8398;
  It 0xe3ef 0x85aa;
  It 0xe3f0 0x85ce;
  It 0xe3f1 0x8703;
  It 0xe3f2 0x8a0a;
  It 0xe3f3 0x8eab;
  It 0xe3f4 0x8f9b;
  It 0xe3f5 0xf971;
  It 0xe3f6 0x8fc5;
  It 0xe3f7 0x5931;
  It 0xe3f8 0x5ba4;
  It 0xe3f9 0x5be6;
  It 0xe3fa 0x6089;
  It 0xe3fb 0x5be9;
  It 0xe3fc 0x5c0b;
  It 0xe3fd 0x5fc3;
  It 0xe3fe 0x6c81;
  It 0xe4a1 0xf972;
  It 0xe4a2 0x6df1;
  It 0xe4a3 0x700b;
  It 0xe4a4 0x751a;
  It 0xe4a5 0x82af;
  It 0xe4a6 0x8af6;
  It 0xe4a7 0x4ec0;
  It 0xe4a8 0x5341;
  It 0xe4a9 0xf973;
  It 0xe4aa 0x96d9;
  It 0xe4ab 0x6c0f;
  It 0xe4ac 0x4e9e;
  It 0xe4ad 0x4fc4;
  It 0xe4ae 0x5152;
  It 0xe4af 0x555e;
  It 0xe4b0 0x5a25;
  It 0xe4b1 0x5ce8;
  It 0xe4b2 0x6211;
  It 0xe4b3 0x7259;
  It 0xe4b4 0x82bd;
  It 0xe4b5 0x83aa;
  It 0xe4b6 0x86fe;
  It 0xe4b7 0x8859;
  It 0xe4b8 0x8a1d;
  It 0xe4b9 0x963f;
  It 0xe4ba 0x96c5;
  It 0xe4bb 0x9913;
  It 0xe4bc 0x9d09;
  It 0xe4bd 0x9d5d;
  It 0xe4be 0x580a;
  It 0xe4bf 0x5cb3;
  It 0xe4c0 0x5dbd;
  It 0xe4c1 0x5e44;
  It 0xe4c2 0x60e1;
  It 0xe4c3 0x6115;
  It 0xe4c4 0x63e1;
  It 0xe4c5 0x6a02;
  It 0xe4c6 0x6e25;
  It 0xe4c7 0x9102;
  It 0xe4c8 0x9354;
  It 0xe4c9 0x984e;
  It 0xe4ca 0x9c10;
  It 0xe4cb 0x9f77;
  It 0xe4cc 0x5b89;
  It 0xe4cd 0x5cb8;
  It 0xe4ce 0x6309;
  It 0xe4cf 0x664f;
  It 0xe4d0 0x6848;
  It 0xe4d1 0x773c;
  It 0xe4d2 0x96c1;
  It 0xe4d3 0x978d;
  It 0xe4d4 0x9854;
  It 0xe4d5 0x9b9f;
  It 0xe4d6 0x65a1;
  It 0xe4d7 0x8b01;
  It 0xe4d8 0x8ecb;
  It 0xe4d9 0x95bc;
  It 0xe4da 0x5535;
  It 0xe4db 0x5ca9;
  It 0xe4dc 0x5dd6;
  It 0xe4dd 0x5eb5;
  It 0xe4de 0x6697;
  It 0xe4df 0x764c;
  It 0xe4e0 0x83f4;
  It 0xe4e1 0x95c7;
  It 0xe4e2 0x58d3;
  It 0xe4e3 0x62bc;
  It 0xe4e4 0x72ce;
  It 0xe4e5 0x9d28;
  It 0xe4e6 0x4ef0;
  It 0xe4e7 0x592e;
  It 0xe4e8 0x600f;
  It 0xe4e9 0x663b;
  It 0xe4ea 0x6b83;
  It 0xe4eb 0x79e7;
  It 0xe4ec 0x9d26;
  It 0xe4ed 0x5393;
  It 0xe4ee 0x54c0;
  It 0xe4ef 0x57c3;
  It 0xe4f0 0x5d16;
  It 0xe4f1 0x611b;
  It 0xe4f2 0x66d6;
  It 0xe4f3 0x6daf;
  It 0xe4f4 0x788d;
  It 0xe4f5 0x827e;
  It 0xe4f6 0x9698;
  It 0xe4f7 0x9744;
  It 0xe4f8 0x5384;
  It 0xe4f9 0x627c;
  It 0xe4fa 0x6396;
  It 0xe4fb 0x6db2;
  It 0xe4fc 0x7e0a;
  It 0xe4fd 0x814b;
  It 0xe4fe 0x984d;
  It 0xe5a1 0x6afb;
  It 0xe5a2 0x7f4c;
  It 0xe5a3 0x9daf;
  It 0xe5a4 0x9e1a;
  It 0xe5a5 0x4e5f;
  It 0xe5a6 0x503b;
  It 0xe5a7 0x51b6;
  It 0xe5a8 0x591c;
  It 0xe5a9 0x60f9;
  It 0xe5aa 0x63f6;
  It 0xe5ab 0x6930;
  It 0xe5ac 0x723a;
  It 0xe5ad 0x8036;
  It 0xe5ae 0xf974;
  It 0xe5af 0x91ce;
  It 0xe5b0 0x5f31;
  It 0xe5b1 0xf975;
  It 0xe5b2 0xf976;
  It 0xe5b3 0x7d04;
  It 0xe5b4 0x82e5;
  It 0xe5b5 0x846f;
  It 0xe5b6 0x84bb;
  It 0xe5b7 0x85e5;
  It 0xe5b8 0x8e8d;
  It 0xe5b9 0xf977;
  It 0xe5ba 0x4f6f;
  It 0xe5bb 0xf978;
  It 0xe5bc 0xf979;
  It 0xe5bd 0x58e4;
  It 0xe5be 0x5b43;
  It 0xe5bf 0x6059;
  It 0xe5c0 0x63da;
  It 0xe5c1 0x6518;
  It 0xe5c2 0x656d;
  It 0xe5c3 0x6698;
  It 0xe5c4 0xf97a;
  It 0xe5c5 0x694a;
  It 0xe5c6 0x6a23;
  It 0xe5c7 0x6d0b;
  It 0xe5c8 0x7001;
  It 0xe5c9 0x716c;
  It 0xe5ca 0x75d2;
  It 0xe5cb 0x760d;
  It 0xe5cc 0x79b3;
  It 0xe5cd 0x7a70;
  It 0xe5ce 0xf97b;
  It 0xe5cf 0x7f8a;
  It 0xe5d0 0xf97c;
  It 0xe5d1 0x8944;
  It 0xe5d2 0xf97d;
  It 0xe5d3 0x8b93;
  It 0xe5d4 0x91c0
].

(* encoding/cp949/lookup_from.go:14759-15008 *)
Definition fromTable_059 : list lookupItem := [
  It 0xe5d5 0x967d;
  It 0xe5d6 0xf97e;
  It 0xe5d7 0x990a;
  It 0xe5d8 0x5704;
  It 0xe5d9 0x5fa1;
  It 0xe5da 0x65bc;
  It 0xe5db 0x6f01;
  It 0xe5dc 0x7600;
  It 0xe5dd 0x79a6;
  It 0xe5de 0x8a9e;
  It 0xe5df 0x99ad;
  It 0xe5e0 0x9b5a;
  It 0xe5e1 0x9f6c;
  It 0xe5e2 0x5104;
  It 0xe5e3 0x61b6;
  It 0xe5e4 0x6291;
  It 0xe5e5 0x6a8d;
  It 0xe5e6 0x81c6;
  It 0xe5e7 0x5043;
  It 0xe5e8 0x5830;
  It 0xe5e9 0x5f66;
  It 0xe5ea 0x7109;
  It 0xe5eb 0x8a00;
  It 0xe5ec 0x8afa;
  It 0xe5ed 0x5b7c;
  It 0xe5ee 0x8616;
  It 0xe5ef 0x4ffa;
  It 0xe5f0 0x513c;
  It 0xe5f1 0x56b4;
  It 0xe5f2 0x5944;
  It 0xe5f3 0x63a9;
  It 0xe5f4 0x6df9;
  It 0xe5f5 0x5daa;
  It 0xe5f6 0x696d;
  It 0xe5f7 0x5186;
  It 0xe5f8 0x4e88;
  It 0xe5f9 0x4f59;
  It 0xe5fa 0xf97f;
  It 0xe5fb 0xf980;
  It 0xe5fc 0xf981;
  It 0xe5fd 0x5982;
  It 0xe5fe 0xf982;
  It 0xe6a1 0xf983;
  It 0xe6a2 0x6b5f;
  It 0xe6a3 0x6c5d;
  It 0xe6a4 0xf984;
  It 0xe6a5 0x74b5;
  It 0xe6a6 0x7916;
  It 0xe6a7 0xf985;
  It 0xe6a8 0x8207;
  It 0xe6a9 0x8245;
  It 0xe6aa 0x8339;
  It 0xe6ab 0x8f3f;
  It 0xe6ac 0x8f5d;
  It 0xe6ad 0xf986;
  It 0xe6ae 0x9918;
  It 0xe6af 0xf987;
  It 0xe6b0 0xf988;
  It 0xe6b1 0xf989;
  It 0xe6b2 0x4ea6;
  It 0xe6b3 0xf98a;
  It 0xe6b4 0x57df;
  It 0xe6b5 0x5f79;
  It 0xe6b6 0x6613;
  It 0xe6b7 0xf98b;
  It 0xe6b8 0xf98c;
  It 0xe6b9 0x75ab;
  It 0xe6ba 0x7e79;
  It 0xe6bb 0x8b6f;
  It 0xe6bc 0xf98d;
  It 0xe6bd 0x9006;
  It 0xe6be 0x9a5b;
  It 0xe6bf 0x56a5;
  It 0xe6c0 0x5827;
  It 0xe6c1 0x59f8;
  It 0xe6c2 0x5a1f;
  It 0xe6c3 0x5bb4;
  It 0xe6c4 0xf98e;
  It 0xe6c5 0x5ef6;
  It 0xe6c6 0xf98f;
  It 0xe6c7 0xf990;
  It 0xe6c8 0x6350;
  It 0xe6c9 0x633b;
  It 0xe6ca 0xf991;
  It 0xe6cb 0x693d;
  It 0xe6cc 0x6c87;
  It 0xe6cd 0x6cbf;
  It 0xe6ce 0x6d8e;
  It 0xe6cf 0x6d93;
  It 0xe6d0 0x6df5;
  It 0xe6d1 0x6f14;
  It 0xe6d2 0xf992;
  It 0xe6d3 0x70df;
  It 0xe6d4 0x7136;
  It 0xe6d5 0x7159;
  It 0xe6d6 0xf993;
  It 0xe6d7 0x71c3;
  It 0xe6d8 0x71d5;
  It 0xe6d9 0xf994;
  It 0xe6da 0x784f;
  It 0xe6db 0x786f;
  It 0xe6dc 0xf995;
  It 0xe6dd 0x7b75;
  It 0xe6de 0x7de3;
  It 0xe6df 0xf996;
  It 0xe6e0 0x7e2f;
  It 0xe6e1 0xf997;
  It 0xe6e2 0x884d;
  It 0xe6e3 0x8edf;
  It 0xe6e4 0xf998;
  It 0xe6e5 0xf999;
  It 0xe6e6 0xf99a;
  It 0xe6e7 0x925b;
  It 0xe6e8 0xf99b;
  It 0xe6e9 0x9cf6;
  It 0xe6ea 0xf99c;
  It 0xe6eb 0xf99d;
  It 0xe6ec 0xf99e;
  It 0xe6ed 0x6085;
  It 0xe6ee 0x6d85;
  It 0xe6ef 0xf99f;
  It 0xe6f0 0x71b1;
  It 0xe6f1 0xf9a0;
  It 0xe6f2 0xf9a1;
  It 0xe6f3 0x95b1;
  It 0xe6f4 0x53ad;
  It 0xe6f5 0xf9a2;
  It 0xe6f6 0xf9a3;
  It 0xe6f7 0xf9a4;
  It 0xe6f8 0x67d3;
  It 0xe6f9 0xf9a5;
  It 0xe6fa 0x708e;
  It 0xe6fb 0x7130;
  It 0xe6fc 0x7430;
  It 0xe6fd 0x8276;
  It 0xe6fe 0x82d2;
  It 0xe7a1 0xf9a6;
  It 0xe7a2 0x95bb;
  It 0xe7a3 0x9ae5;
  It 0xe7a4 0x9e7d;
  It 0xe7a5 0x66c4;
  It 0xe7a6 0xf9a7;
  It 0xe7a7 0x71c1;
  It 0xe7a8 0x8449;
  It 0xe7a9 0xf9a8;
  It 0xe7aa 0xf9a9;
  It 0xe7ab 0x584b;
  It 0xe7ac 0xf9aa;
  It 0xe7ad 0xf9ab;
  It 0xe7ae 0x5db8;
  It 0xe7af 0x5f71;
  It 0xe7b0 0xf9ac;
  It 0xe7b1 0x6620;
  It 0xe7b2 0x668e;
  It 0xe7b3 0x6979;
  It 0xe7b4 0x69ae;
  It 0xe7b5 0x6c38;
  It 0xe7b6 0x6cf3;
  It 0xe7b7 0x6e36;
  It 0xe7b8 0x6f41;
  It 0xe7b9 0x6fda;
  It 0xe7ba 0x701b;
  It 0xe7bb 0x702f;
  It 0xe7bc 0x7150;
  It 0xe7bd 0x71df;
  It 0xe7be 0x7370;
  It 0xe7bf 0xf9ad;
  It 0xe7c0 0x745b;
  It 0xe7c1 0xf9ae;
  It 0xe7c2 0x74d4;
  It 0xe7c3 0x76c8;
  It 0xe7c4 0x7a4e;
  It 0xe7c5 0x7e93;
  It 0xe7c6 0xf9af;
  It 0xe7c7 0xf9b0;
  It 0xe7c8 0x82f1;
  It 0xe7c9 0x8a60;
  It 0xe7ca 0x8fce;
  It 0xe7cb 0xf9b1;
  It 0xe7cc 0x9348;
  It 0xe7cd 0xf9b2;
  It 0xe7ce 0x9719;
  It 0xe7cf 0xf9b3;
  It 0xe7d0 0xf9b4;
  It 0xe7d1 0x4e42;
  It 0xe7d2 0x502a;
  It 0xe7d3 0xf9b5;
  It 0xe7d4 0x5208;
  It 0xe7d5 0x53e1;
  It 0xe7d6 0x66f3;
  It 0xe7d7 0x6c6d;
  It 0xe7d8 0x6fca;
  It 0xe7d9 0x730a;
  It 0xe7da 0x777f;
  It 0xe7db 0x7a62;
  It 0xe7dc 0x82ae;
  It 0xe7dd 0x85dd;
  It 0xe7de 0x8602;
  It 0xe7df 0xf9b6;
  It 0xe7e0 0x88d4;
  It 0xe7e1 0x8a63;
  It 0xe7e2 0x8b7d;
  It 0xe7e3 0x8c6b;
  It 0xe7e4 0xf9b7;
  It 0xe7e5 0x92b3;
  It 0xe7e6 0xf9b8;
  It 0xe7e7 0x9713;
  It 0xe7e8 0x9810;
  It 0xe7e9 0x4e94;
  It 0xe7ea 0x4f0d;
  It 0xe7eb 0x4fc9;
  It 0xe7ec 0x50b2;
  It 0xe7ed 0x5348;
  It 0xe7ee 0x543e;
  It 0xe7ef 0x5433;
  It 0xe7f0 0x55da;
  It 0xe7f1 0x5862;
  It 0xe7f2 0x58ba;
  It 0xe7f3 0x5967;
  It 0xe7f4 0x5a1b;
  It 0xe7f5 0x5be4;
  It 0xe7f6 0x609f;
  It 0xe7f7 0xf9b9;
  It 0xe7f8 0x61ca;
  It 0xe7f9 0x6556;
  It 0xe7fa 0x65ff;
  It 0xe7fb 0x6664;
  It 0xe7fc 0x68a7;
  It 0xe7fd 0x6c5a;
  It 0xe7fe 0x6fb3;
  It 0xe8a1 0x70cf;
  It 0xe8a2 0x71ac;
  It 0xe8a3 0x7352;
  It 0xe8a4 0x7b7d;
  It 0xe8a5 0x8708;
  It 0xe8a6 0x8aa4;
  It 0xe8a7 0x9c32;
  It 0xe8a8 0x9f07;
  It 0xe8a9 0x5c4b;
  It 0xe8aa 0x6c83;
  It 0xe8ab 0x7344;
  It 0xe8ac 0x7389;
  It 0xe8ad 0x923a;
  It 0xe8ae 0x6eab;
  It 0xe8af 0x7465;
  It 0xe8b0 0x761f;
  It 0xe8b1 0x7a69;
  It 0xe8b2 0x7e15;
  It 0xe8b3 0x860a;
  It 0xe8b4 0x5140
].

(* encoding/cp949/lookup_from.go:15009-15258 *)
Definition fromTable_060 : list lookupItem := [
  It 0xe8b5 0x58c5;
  It 0xe8b6 0x64c1;
  It 0xe8b7 0x74ee;
  It 0xe8b8 0x7515;
  It 0xe8b9 0x7670;
  It 0xe8ba 0x7fc1;
  It 0xe8bb 0x9095;
  It 0xe8bc 0x96cd;
  It 0xe8bd 0x9954;
  It 0xe8be 0x6e26;
  It 0xe8bf 0x74e6;
  It 0xe8c0 0x7aa9;
  It 0xe8c1 0x7aaa;
  It 0xe8c2 0x81e5;
  It 0xe8c3 0x86d9;
  It 0xe8c4 0x8778;
  It 0xe8c5 0x8a1b;
  It 0xe8c6 0x5a49;
  It 0xe8c7 0x5b8c;
  It 0xe8c8 0x5b9b;
  It 0xe8c9 0x68a1;
  It 0xe8ca 0x6900;
  It 0xe8cb 0x6d63;
  It 0xe8cc 0x73a9;
  It 0xe8cd 0x7413;
  It 0xe8ce 0x742c;
  It 0xe8cf 0x7897;
  It 0xe8d0 0x7de9;
  It 0xe8d1 0x7feb;
  It 0xe8d2 0x8118;
  It 0xe8d3 0x8155;
  It 0xe8d4 0x839e;
  It 0xe8d5 0x8c4c;
  It 0xe8d6 0x962e;
  It 0xe8d7 0x9811;
  It 0xe8d8 0x66f0;
  It 0xe8d9 0x5f80;
  It 0xe8da 0x65fa;
  It 0xe8db 0x6789;
  It 0xe8dc 0x6c6a;
  It 0xe8dd 0x738b;
  It 0xe8de 0x502d;
  It 0xe8df 0x5a03;
  It 0xe8e0 0x6b6a;
  It 0xe8e1 0x77ee;
  It 0xe8e2 0x5916;
  It 0xe8e3 0x5d6c;
  It 0xe8e4 0x5dcd;
  It 0xe8e5 0x7325;
  It 0xe8e6 0x754f;
  It 0xe8e7 0xf9ba;
  It 0xe8e8 0xf9bb;
  It 0xe8e9 0x50e5;
  It 0xe8ea 0x51f9;
  It 0xe8eb 0x582f;
  It 0xe8ec 0x592d;
  It 0xe8ed 0x5996;
  It 0xe8ee 0x59da;
  It 0xe8ef 0x5be5;
  It 0xe8f0 0xf9bc;
  It 0xe8f1 0xf9bd;
  It 0xe8f2 0x5da2;
  It 0xe8f3 0x62d7;
  It 0xe8f4 0x6416;
  It 0xe8f5 0x6493;
  It 0xe8f6 0x64fe;
  It 0xe8f7 0xf9be;
  It 0xe8f8 0x66dc;
  It 0xe8f9 0xf9bf;
  It 0xe8fa 0x6a48;
  It 0xe8fb 0xf9c0;
  It 0xe8fc 0x71ff;
  It 0xe8fd 0x7464;
  It 0xe8fe 0xf9c1;
  It 0xe9a1 0x7a88;
  It 0xe9a2 0x7aaf;
  It 0xe9a3 0x7e47;
  It 0xe9a4 0x7e5e;
  It 0xe9a5 0x8000;
  It 0xe9a6 0x8170;
  It 0xe9a7 0xf9c2;
  It 0xe9a8 0x87ef;
  It 0xe9a9 0x8981;
  It 0xe9aa 0x8b20;
  It 0xe9ab 0x9059;
  It 0xe9ac 0xf9c3;
  It 0xe9ad 0x9080;
  It 0xe9ae 0x9952;
  It 0xe9af 0x617e;
  It 0xe9b0 0x6b32;
  It 0xe9b1 0x6d74;
  It 0xe9b2 0x7e1f;
  It 0xe9b3 0x8925;
  It 0xe9b4 0x8fb1;
  It 0xe9b5 0x4fd1;
  It 0xe9b6 0x50ad;
  It 0xe9b7 0x5197;
  It 0xe9b8 0x52c7;
  It 0xe9b9 0x57c7;
  It 0xe9ba 0x5889;
  It 0xe9bb 0x5bb9;
  It 0xe9bc 0x5eb8;
  It 0xe9bd 0x6142;
  It 0xe9be 0x6995;
  It 0xe9bf 0x6d8c;
  It 0xe9c0 0x6e67;
  It 0xe9c1 0x6eb6;
  It 0xe9c2 0x7194;
  It 0xe9c3 0x7462;
  It 0xe9c4 0x7528;
  It 0xe9c5 0x752c;
  It 0xe9c6 0x8073;
  It 0xe9c7 0x8338;
  It 0xe9c8 0x84c9;
  It 0xe9c9 0x8e0a;
  It 0xe9ca 0x9394;
  It 0xe9cb 0x93de;
  It 0xe9cc 0xf9c4;
  It 0xe9cd 0x4e8e;
  It 0xe9ce 0x4f51;
  It 0xe9cf 0x5076;
  It 0xe9d0 0x512a;
  It 0xe9d1 0x53c8;
  It 0xe9d2 0x53cb;
  It 0xe9d3 0x53f3;
  It 0xe9d4 0x5b87;
  It 0xe9d5 0x5bd3;
  It 0xe9d6 0x5c24;
  It 0xe9d7 0x611a;
  It 0xe9d8 0x6182;
  It 0xe9d9 0x65f4;
  It 0xe9da 0x725b;
  It 0xe9db 0x7397;
  It 0xe9dc 0x7440;
  It 0xe9dd 0x76c2;
  It 0xe9de 0x7950;
  It 0xe9df 0x7991;
  It 0xe9e0 0x79b9;
  It 0xe9e1 0x7d06;
  It 0xe9e2 0x7fbd;
  It 0xe9e3 0x828b;
  It 0xe9e4 0x85d5;
  It 0xe9e5 0x865e;
  It 0xe9e6 0x8fc2;
  It 0xe9e7 0x9047;
  It 0xe9e8 0x90f5;
  It 0xe9e9 0x91ea;
  It 0xe9ea 0x9685;
  It 0xe9eb 0x96e8;
  It 0xe9ec 0x96e9;
  It 0xe9ed 0x52d6;
  It 0xe9ee 0x5f67;
  It 0xe9ef 0x65ed;
  It 0xe9f0 0x6631;
  It 0xe9f1 0x682f;
  It 0xe9f2 0x715c;
  It 0xe9f3 0x7a36;
  It 0xe9f4 0x90c1;
  It 0xe9f5 0x980a;
  It 0xe9f6 0x4e91;
  It 0xe9f7 0xf9c5;
  It 0xe9f8 0x6a52;
  It 0xe9f9 0x6b9e;
  It 0xe9fa 0x6f90;
  It 0xe9fb 0x7189;
  It 0xe9fc 0x8018;
  It 0xe9fd 0x82b8;
  It 0xe9fe 0x8553;
  It 0xeaa1 0x904b;
  It 0xeaa2 0x9695;
  It 0xeaa3 0x96f2;
  It 0xeaa4 0x97fb;
  It 0xeaa5 0x851a;
  It 0xeaa6 0x9b31;
  It 0xeaa7 0x4e90;
  It 0xeaa8 0x718a;
  It 0xeaa9 0x96c4;
  It 0xeaaa 0x5143;
  It 0xeaab 0x539f;
  It 0xeaac 0x54e1;
  It 0xeaad 0x5713;
  It 0xeaae 0x5712;
  It 0xeaaf 0x57a3;
  It 0xeab0 0x5a9b;
  It 0xeab1 0x5ac4;
  It 0xeab2 0x5bc3;
  It 0xeab3 0x6028;
  It 0xeab4 0x613f;
  It 0xeab5 0x63f4;
  It 0xeab6 0x6c85;
  It 0xeab7 0x6d39;
  It 0xeab8 0x6e72;
  It 0xeab9 0x6e90;
  It 0xeaba 0x7230;
  It 0xeabb 0x733f;
  It 0xeabc 0x7457;
  It 0xeabd 0x82d1;
  It 0xeabe 0x8881;
  It 0xeabf 0x8f45;
  It 0xeac0 0x9060;
  It 0xeac1 0xf9c6;
  It 0xeac2 0x9662;
  It 0xeac3 0x9858;
  It 0xeac4 0x9d1b;
  It 0xeac5 0x6708;
  It 0xeac6 0x8d8a;
  It 0xeac7 0x925e;
  It 0xeac8 0x4f4d;
  It 0xeac9 0x5049;
  It 0xeaca 0x50de;
  It 0xeacb 0x5371;
  It 0xeacc 0x570d;
  It 0xeacd 0x59d4;
  It 0xeace 0x5a01;
  It 0xeacf 0x5c09;
  It 0xead0 0x6170;
  It 0xead1 0x6690;
  It 0xead2 0x6e2d;
  It 0xead3 0x7232;
  It 0xead4 0x744b;
  It 0xead5 0x7def;
  It 0xead6 0x80c3;
  It 0xead7 0x840e;
  It 0xead8 0x8466;
  It 0xead9 0x853f;
  It 0xeada 0x875f;
  It 0xeadb 0x885b;
  It 0xeadc 0x8918;
  It 0xeadd 0x8b02;
  It 0xeade 0x9055;
  It 0xeadf 0x97cb;
  It 0xeae0 0x9b4f;
  It 0xeae1 0x4e73;
  It 0xeae2 0x4f91;
  It 0xeae3 0x5112;
  It 0xeae4 0x516a;
  It 0xeae5 0xf9c7;
  It 0xeae6 0x552f;
  It 0xeae7 0x55a9;
  It 0xeae8 0x5b7a;
  It 0xeae9 0x5ba5;
  It 0xeaea 0x5e7c;
  It 0xeaeb 0x5e7d;
  It 0xeaec 0x5ebe;
  It 0xeaed 0x60a0;
  It 0xeaee 0x60df;
  It 0xeaef 0x6108;
  It 0xeaf0 0x6109;
  It 0xeaf1 0x63c4;
  It 0xeaf2 0x6538
].

(* encoding/cp949/lookup_from.go:15259-15508 *)
Definition fromTable_061 : list lookupItem := [
  It 0xeaf3 0x6709;
  It 0xeaf4 0xf9c8;
  It 0xeaf5 0x67d4;
  It 0xeaf6 0x67da;
  It 0xeaf7 0xf9c9;
  It 0xeaf8 0x6961;
  It 0xeaf9 0x6962;
  It 0xeafa 0x6cb9;
  It 0xeafb 0x6d27;
  It 0xeafc 0xf9ca;
  It 0xeafd 0x6e38;
  It 0xeafe 0xf9cb;
  It 0xeba1 0x6fe1;
  It 0xeba2 0x7336;
  It 0xeba3 0x7337;
  It 0xeba4 0xf9cc;
  It 0xeba5 0x745c;
  It 0xeba6 0x7531;
  It 0xeba7 0xf9cd;
  It 0xeba8 0x7652;
  It 0xeba9 0xf9ce;
  It 0xebaa 0xf9cf;
  It 0xebab 0x7dad;
  It 0xebac 0x81fe;
  It 0xebad 0x8438;
  It 0xebae 0x88d5;
  It 0xebaf 0x8a98;
  It 0xebb0 0x8adb;
  It 0xebb1 0x8aed;
  It 0xebb2 0x8e30;
  It 0xebb3 0x8e42;
  It 0xebb4 0x904a;
  It 0xebb5 0x903e;
  It 0xebb6 0x907a;
  It 0xebb7 0x9149;
  It 0xebb8 0x91c9;
  It 0xebb9 0x936e;
  It 0xebba 0xf9d0;
  It 0xebbb 0xf9d1;
  It 0xebbc 0x5809;
  It 0xebbd 0xf9d2;
  It 0xebbe 0x6bd3;
  It 0xebbf 0x8089;
  It 0xebc0 0x80b2;
  It 0xebc1 0xf9d3;
  It 0xebc2 0xf9d4;
  It 0xebc3 0x5141;
  It 0xebc4 0x596b;
  It 0xebc5 0x5c39;
  It 0xebc6 0xf9d5;
  It 0xebc7 0xf9d6;
  It 0xebc8 0x6f64;
  It 0xebc9 0x73a7;
  It 0xebca 0x80e4;
  It 0xebcb 0x8d07;
  It 0xebcc 0xf9d7;
  It 0xebcd 0x9217;
  It 0xebce 0x958f;
  It 0xebcf 0xf9d8;
  It 0xebd0 0xf9d9;
  It 0xebd1 0xf9da;
  It 0xebd2 0xf9db;
  It 0xebd3 0x807f;
  It 0xebd4 0x620e;
  It 0xebd5 0x701c;
  It 0xebd6 0x7d68;
  It 0xebd7 0x878d;
  It 0xebd8 0xf9dc;
  It 0xebd9 0x57a0;
  It 0xebda 0x6069;
  It 0xebdb 0x6147;
  It 0xebdc 0x6bb7;
  It 0xebdd 0x8abe;
  It 0xebde 0x9280;
  It 0xebdf 0x96b1;
  It 0xebe0 0x4e59;
  It 0xebe1 0x541f;
  It 0xebe2 0x6deb;
  It 0xebe3 0x852d;
  It 0xebe4 0x9670;
  It 0xebe5 0x97f3;
  It 0xebe6 0x98ee;
  It 0xebe7 0x63d6;
  It 0xebe8 0x6ce3;
  It 0xebe9 0x9091;
  It 0xebea 0x51dd;
  It 0xebeb 0x61c9;
  It 0xebec 0x81ba;
  It 0xebed 0x9df9;
  It 0xebee 0x4f9d;
  It 0xebef 0x501a;
  It 0xebf0 0x5100;
  It 0xebf1 0x5b9c;
  It 0xebf2 0x610f;
  It 0xebf3 0x61ff;
  It 0xebf4 0x64ec;
  It 0xebf5 0x6905;
  It 0xebf6 0x6bc5;
  It 0xebf7 0x7591;
  It 0xebf8 0x77e3;
  It 0xebf9 0x7fa9;
  It 0xebfa 0x8264;
  It 0xebfb 0x858f;
  It 0xebfc 0x87fb;
  It 0xebfd 0x8863;
  It 0xebfe 0x8abc;
  It 0xeca1 0x8b70;
  It 0xeca2 0x91ab;
  It 0xeca3 0x4e8c;
  It 0xeca4 0x4ee5;
  It 0xeca5 0x4f0a;
  It 0xeca6 0xf9dd;
  It 0xeca7 0xf9de;
  It 0xeca8 0x5937;
  It 0xeca9 0x59e8;
  It 0xecaa 0xf9df;
  It 0xecab 0x5df2;
  It 0xecac 0x5f1b;
  It 0xecad 0x5f5b;
  It 0xecae 0x6021;
  It 0xecaf 0xf9e0;
  It 0xecb0 0xf9e1;
  It 0xecb1 0xf9e2;
  It 0xecb2 0xf9e3;
  It 0xecb3 0x723e;
  It 0xecb4 0x73e5;
  It 0xecb5 0xf9e4;
  It 0xecb6 0x7570;
  It 0xecb7 0x75cd;
  It 0xecb8 0xf9e5;
  It 0xecb9 0x79fb;
  It 0xecba 0xf9e6;
  It 0xecbb 0x800c;
  It 0xecbc 0x8033;
  It 0xecbd 0x8084;
  It 0xecbe 0x82e1;
  It 0xecbf 0x8351;
  It 0xecc0 0xf9e7;
  It 0xecc1 0xf9e8;
  It 0xecc2 0x8cbd;
  It 0xecc3 0x8cb3;
  It 0xecc4 0x9087;
  It 0xecc5 0xf9e9;
  It 0xecc6 0xf9ea;
  It 0xecc7 0x98f4;
  It 0xecc8 0x990c;
  It 0xecc9 0xf9eb;
  It 0xecca 0xf9ec;
  It 0xeccb 0x7037;
  It 0xeccc 0x76ca;
  It 0xeccd 0x7fca;
  It 0xecce 0x7fcc;
  It 0xeccf 0x7ffc;
  It 0xecd0 0x8b1a;
  It 0xecd1 0x4eba;
  It 0xecd2 0x4ec1;
  It 0xecd3 0x5203;
  It 0xecd4 0x5370;
  It 0xecd5 0xf9ed;
  It 0xecd6 0x54bd;
  It 0xecd7 0x56e0;
  It 0xecd8 0x59fb;
  It 0xecd9 0x5bc5;
  It 0xecda 0x5f15;
  It 0xecdb 0x5fcd;
  It 0xecdc 0x6e6e;
  It 0xecdd 0xf9ee;
  It 0xecde 0xf9ef;
  It 0xecdf 0x7d6a;
  It 0xece0 0x8335;
  It 0xece1 0xf9f0;
  It 0xece2 0x8693;
  It 0xece3 0x8a8d;
  It 0xece4 0xf9f1;
  It 0xece5 0x976d;
  It 0xece6 0x9777;
  It 0xece7 0xf9f2;
  It 0xece8 0xf9f3;
  It 0xece9 0x4e00;
  It 0xecea 0x4f5a;
  It 0xeceb 0x4f7e;
  It 0xecec 0x58f9;
  It 0xeced 0x65e5;
  It 0xecee 0x6ea2;
  It 0xecef 0x9038;
  It 0xecf0 0x93b0;
  It 0xecf1 0x99b9;
  It 0xecf2 0x4efb;
  It 0xecf3 0x58ec;
  It 0xecf4 0x598a;
  It 0xecf5 0x59d9;
  It 0xecf6 0x6041;
  It 0xecf7 0xf9f4;
  It 0xecf8 0xf9f5;
  It 0xecf9 0x7a14;
  It 0xecfa 0xf9f6;
  It 0xecfb 0x834f;
  It 0xecfc 0x8cc3;
  It 0xecfd 0x5165;
  It 0xecfe 0x5344;
  It 0xeda1 0xf9f7;
  It 0xeda2 0xf9f8;
  It 0xeda3 0xf9f9;
  It 0xeda4 0x4ecd;
  It 0xeda5 0x5269;
  It 0xeda6 0x5b55;
  It 0xeda7 0x82bf;
  It 0xeda8 0x4ed4;
  It 0xeda9 0x523a;
  It 0xedaa 0x54a8;
  It 0xedab 0x59c9;
  It 0xedac 0x59ff;
  It 0xedad 0x5b50;
  It 0xedae 0x5b57;
  It 0xedaf 0x5b5c;
  It 0xedb0 0x6063;
  It 0xedb1 0x6148;
  It 0xedb2 0x6ecb;
  It 0xedb3 0x7099;
  It 0xedb4 0x716e;
  It 0xedb5 0x7386;
  It 0xedb6 0x74f7;
  It 0xedb7 0x75b5;
  It 0xedb8 0x78c1;
  It 0xedb9 0x7d2b;
  It 0xedba 0x8005;
  It 0xedbb 0x81ea;
  It 0xedbc 0x8328;
  It 0xedbd 0x8517;
  It 0xedbe 0x85c9;
  It 0xedbf 0x8aee;
  It 0xedc0 0x8cc7;
  It 0xedc1 0x96cc;
  It 0xedc2 0x4f5c;
  It 0xedc3 0x52fa;
  It 0xedc4 0x56bc;
  It 0xedc5 0x65ab;
  It 0xedc6 0x6628;
  It 0xedc7 0x707c;
  It 0xedc8 0x70b8;
  It 0xedc9 0x7235;
  It 0xedca 0x7dbd;
  It 0xedcb 0x828d;
  It 0xedcc 0x914c;
  It 0xedcd 0x96c0;
  It 0xedce 0x9d72;
  It 0xedcf 0x5b71;
  It 0xedd0 0x68e7;
  It 0xedd1 0x6b98;
  It 0xedd2 0x6f7a
].

(* encoding/cp949/lookup_from.go:15509-15758 *)
Definition fromTable_062 : list lookupItem := [
  It 0xedd3 0x76de;
  It 0xedd4 0x5c91;
  It 0xedd5 0x66ab;
  It 0xedd6 0x6f5b;
  It 0xedd7 0x7bb4;
  It 0xedd8 0x7c2a;
  It 0xedd9 0x8836;
  It 0xedda 0x96dc;
  It 0xeddb 0x4e08;
  It 0xeddc 0x4ed7;
  It 0xeddd 0x5320;
  It 0xedde 0x5834;
  It 0xeddf 0x58bb;
  It 0xede0 0x58ef;
  It 0xede1 0x596c;
  It 0xede2 0x5c07;
  It 0xede3 0x5e33;
  It 0xede4 0x5e84;
  It 0xede5 0x5f35;
  It 0xede6 0x638c;
  It 0xede7 0x66b2;
  It 0xede8 0x6756;
  It 0xede9 0x6a1f;
  It 0xedea 0x6aa3;
  It 0xedeb 0x6b0c;
  It 0xedec 0x6f3f;
  It 0xeded 0x7246;
  It 0xedee 0xf9fa;
  It 0xedef 0x7350;
  It 0xedf0 0x748b;
  It 0xedf1 0x7ae0;
  It 0xedf2 0x7ca7;
  It 0xedf3 0x8178;
  It 0xedf4 0x81df;
  It 0xedf5 0x81e7;
  It 0xedf6 0x838a;
  It 0xedf7 0x846c;
  It 0xedf8 0x8523;
  It 0xedf9 0x8594;
  It 0xedfa 0x85cf;
  It 0xedfb 0x88dd;
  It 0xedfc 0x8d13;
  It 0xedfd 0x91ac;
  It 0xedfe 0x9577;
  It 0xeea1 0x969c;
  It 0xeea2 0x518d;
  It 0xeea3 0x54c9;
  It 0xeea4 0x5728;
  It 0xeea5 0x5bb0;
  It 0xeea6 0x624d;
  It 0xeea7 0x6750;
  It 0xeea8 0x683d;
  It 0xeea9 0x6893;
  It 0xeeaa 0x6e3d;
  It 0xeeab 0x6ed3;
  It 0xeeac 0x707d;
  It 0xeead 0x7e21;
  It 0xeeae 0x88c1;
  It 0xeeaf 0x8ca1;
  It 0xeeb0 0x8f09;
  It 0xeeb1 0x9f4b;
  It 0xeeb2 0x9f4e;
  It 0xeeb3 0x722d;
  It 0xeeb4 0x7b8f;
  It 0xeeb5 0x8acd;
  It 0xeeb6 0x931a;
  It 0xeeb7 0x4f47;
  It 0xeeb8 0x4f4e;
  It 0xeeb9 0x5132;
  It 0xeeba 0x5480;
  It 0xeebb 0x59d0;
  It 0xeebc 0x5e95;
  It 0xeebd 0x62b5;
  It 0xeebe 0x6775;
  It 0xeebf 0x696e;
  It 0xeec0 0x6a17;
  It 0xeec1 0x6cae;
  It 0xeec2 0x6e1a;
  It 0xeec3 0x72d9;
  It 0xeec4 0x732a;
  It 0xeec5 0x75bd;
  It 0xeec6 0x7bb8;
  It 0xeec7 0x7d35;
  It 0xeec8 0x82e7;
  It 0xeec9 0x83f9;
  It 0xeeca 0x8457;
  It 0xeecb 0x85f7;
  It 0xeecc 0x8a5b;
  It 0xeecd 0x8caf;
  It 0xeece 0x8e87;
  It 0xeecf 0x9019;
  It 0xeed0 0x90b8;
  It 0xeed1 0x96ce;
  It 0xeed2 0x9f5f;
  It 0xeed3 0x52e3;
  It 0xeed4 0x540a;
  It 0xeed5 0x5ae1;
  It 0xeed6 0x5bc2;
  It 0xeed7 0x6458;
  It 0xeed8 0x6575;
  It 0xeed9 0x6ef4;
  It 0xeeda 0x72c4;
  It 0xeedb 0xf9fb;
  It 0xeedc 0x7684;
  It 0xeedd 0x7a4d;
  It 0xeede 0x7b1b;
  It 0xeedf 0x7c4d;
  It 0xeee0 0x7e3e;
  It 0xeee1 0x7fdf;
  It 0xeee2 0x837b;
  It 0xeee3 0x8b2b;
  It 0xeee4 0x8cca;
  It 0xeee5 0x8d64;
  It 0xeee6 0x8de1;
  It 0xeee7 0x8e5f;
  It 0xeee8 0x8fea;
  It 0xeee9 0x8ff9;
  It 0xeeea 0x9069;
  It 0xeeeb 0x93d1;
  It 0xeeec 0x4f43;
  It 0xeeed 0x4f7a;
  It 0xeeee 0x50b3;
  It 0xeeef 0x5168;
  It 0xeef0 0x5178;
  It 0xeef1 0x524d;
  It 0xeef2 0x526a;
  It 0xeef3 0x5861;
  It 0xeef4 0x587c;
  It 0xeef5 0x5960;
  It 0xeef6 0x5c08;
  It 0xeef7 0x5c55;
  It 0xeef8 0x5edb;
  It 0xeef9 0x609b;
  It 0xeefa 0x6230;
  It 0xeefb 0x6813;
  It 0xeefc 0x6bbf;
  It 0xeefd 0x6c08;
  It 0xeefe 0x6fb1;
  It 0xefa1 0x714e;
  It 0xefa2 0x7420;
  It 0xefa3 0x7530;
  It 0xefa4 0x7538;
  It 0xefa5 0x7551;
  It 0xefa6 0x7672;
  It 0xefa7 0x7b4c;
  It 0xefa8 0x7b8b;
  It 0xefa9 0x7bad;
  It 0xefaa 0x7bc6;
  It 0xefab 0x7e8f;
  It 0xefac 0x8a6e;
  It 0xefad 0x8f3e;
  It 0xefae 0x8f49;
  It 0xefaf 0x923f;
  It 0xefb0 0x9293;
  It 0xefb1 0x9322;
  It 0xefb2 0x942b;
  It 0xefb3 0x96fb;
  It 0xefb4 0x985a;
  It 0xefb5 0x986b;
  It 0xefb6 0x991e;
  It 0xefb7 0x5207;
  It 0xefb8 0x622a;
  It 0xefb9 0x6298;
  It 0xefba 0x6d59;
  It 0xefbb 0x7664;
  It 0xefbc 0x7aca;
  It 0xefbd 0x7bc0;
  It 0xefbe 0x7d76;
  It 0xefbf 0x5360;
  It 0xefc0 0x5cbe;
  It 0xefc1 0x5e97;
  It 0xefc2 0x6f38;
  It 0xefc3 0x70b9;
  It 0xefc4 0x7c98;
  It 0xefc5 0x9711;
  It 0xefc6 0x9b8e;
  It 0xefc7 0x9ede;
  It 0xefc8 0x63a5;
  It 0xefc9 0x647a;
  It 0xefca 0x8776;
  It 0xefcb 0x4e01;
  It 0xefcc 0x4e95;
  It 0xefcd 0x4ead;
  It 0xefce 0x505c;
  It 0xefcf 0x5075;
  It 0xefd0 0x5448;
  It 0xefd1 0x59c3;
  It 0xefd2 0x5b9a;
  It 0xefd3 0x5e40;
  It 0xefd4 0x5ead;
  It 0xefd5 0x5ef7;
  It 0xefd6 0x5f81;
  It 0xefd7 0x60c5;
  It 0xefd8 0x633a;
  It 0xefd9 0x653f;
  It 0xefda 0x6574;
  It 0xefdb 0x65cc;
  It 0xefdc 0x6676;
  It 0xefdd 0x6678;
  It 0xefde 0x67fe;
  It 0xefdf 0x6968;
  It 0xefe0 0x6a89;
  It 0xefe1 0x6b63;
  It 0xefe2 0x6c40;
  It 0xefe3 0x6dc0;
  It 0xefe4 0x6de8;
  It 0xefe5 0x6e1f;
  It 0xefe6 0x6e5e;
  It 0xefe7 0x701e;
  It 0xefe8 0x70a1;
  It 0xefe9 0x738e;
  It 0xefea 0x73fd;
  It 0xefeb 0x753a;
  It 0xefec 0x775b;
  It 0xefed 0x7887;
  It 0xefee 0x798e;
  It 0xefef 0x7a0b;
  It 0xeff0 0x7a7d;
  It 0xeff1 0x7cbe;
  It 0xeff2 0x7d8e;
  It 0xeff3 0x8247;
  It 0xeff4 0x8a02;
  It 0xeff5 0x8aea;
  It 0xeff6 0x8c9e;
  It 0xeff7 0x912d;
  It 0xeff8 0x914a;
  It 0xeff9 0x91d8;
  It 0xeffa 0x9266;
  It 0xeffb 0x92cc;
  It 0xeffc 0x9320;
  It 0xeffd 0x9706;
  It 0xeffe 0x9756;
  It 0xf0a1 0x975c;
  It 0xf0a2 0x9802;
  It 0xf0a3 0x9f0e;
  It 0xf0a4 0x5236;
  It 0xf0a5 0x5291;
  It 0xf0a6 0x557c;
  It 0xf0a7 0x5824;
  It 0xf0a8 0x5e1d;
  It 0xf0a9 0x5f1f;
  It 0xf0aa 0x608c;
  It 0xf0ab 0x63d0;
  It 0xf0ac 0x68af;
  It 0xf0ad 0x6fdf;
  It 0xf0ae 0x796d;
  It 0xf0af 0x7b2c;
  It 0xf0b0 0x81cd;
  It 0xf0b1 0x85ba;
  It 0xf0b2 0x88fd
].

(* encoding/cp949/lookup_from.go:15759-16008 *)
Definition fromTable_063 : list lookupItem := [
  It 0xf0b3 0x8af8;
  It 0xf0b4 0x8e44;
  It 0xf0b5 0x918d;
  It 0xf0b6 0x9664;
  It 0xf0b7 0x969b;
  It 0xf0b8 0x973d;
  It 0xf0b9 0x984c;
  It 0xf0ba 0x9f4a;
  It 0xf0bb 0x4fce;
  It 0xf0bc 0x5146;
  It 0xf0bd 0x51cb;
  It 0xf0be 0x52a9;
  It 0xf0bf 0x5632;
  It 0xf0c0 0x5f14;
  It 0xf0c1 0x5f6b;
  It 0xf0c2 0x63aa;
  It 0xf0c3 0x64cd;
  It 0xf0c4 0x65e9;
  It 0xf0c5 0x6641;
  It 0xf0c6 0x66fa;
  It 0xf0c7 0x66f9;
  It 0xf0c8 0x671d;
  It 0xf0c9 0x689d;
  It 0xf0ca 0x68d7;
  It 0xf0cb 0x69fd;
  It 0xf0cc 0x6f15;
  It 0xf0cd 0x6f6e;
  It 0xf0ce 0x7167;
  It 0xf0cf 0x71e5;
  It 0xf0d0 0x722a;
  It 0xf0d1 0x74aa;
  It 0xf0d2 0x773a;
  It 0xf0d3 0x7956;
  It 0xf0d4 0x795a;
  It 0xf0d5 0x79df;
  It 0xf0d6 0x7a20;
  It 0xf0d7 0x7a95;
  It 0xf0d8 0x7c97;
  It 0xf0d9 0x7cdf;
  It 0xf0da 0x7d44;
  It 0xf0db 0x7e70;
  It 0xf0dc 0x8087;
  It 0xf0dd 0x85fb;
  It 0xf0de 0x86a4;
  It 0xf0df 0x8a54;
  It 0xf0e0 0x8abf;
  It 0xf0e1 0x8d99;
  It 0xf0e2 0x8e81;
  It 0xf0e3 0x9020;
  It 0xf0e4 0x906d;
  It 0xf0e5 0x91e3;
  It 0xf0e6 0x963b;
  It 0xf0e7 0x96d5;
  It 0xf0e8 0x9ce5;
  It 0xf0e9 0x65cf;
  It 0xf0ea 0x7c07;
  It 0xf0eb 0x8db3;
  It 0xf0ec 0x93c3;
  It 0xf0ed 0x5b58;
  It 0xf0ee 0x5c0a;
  It 0xf0ef 0x5352;
  It 0xf0f0 0x62d9;
  It 0xf0f1 0x731d;
  It 0xf0f2 0x5027;
  It 0xf0f3 0x5b97;
  It 0xf0f4 0x5f9e;
  It 0xf0f5 0x60b0;
  It 0xf0f6 0x616b;
  It 0xf0f7 0x68d5;
  It 0xf0f8 0x6dd9;
  It 0xf0f9 0x742e;
  It 0xf0fa 0x7a2e;
  It 0xf0fb 0x7d42;
  It 0xf0fc 0x7d9c;
  It 0xf0fd 0x7e31;
  It 0xf0fe 0x816b;
  It 0xf1a1 0x8e2a;
  It 0xf1a2 0x8e35;
  It 0xf1a3 0x937e;
  It 0xf1a4 0x9418;
  It 0xf1a5 0x4f50;
  It 0xf1a6 0x5750;
  It 0xf1a7 0x5de6;
  It 0xf1a8 0x5ea7;
  It 0xf1a9 0x632b;
  It 0xf1aa 0x7f6a;
  It 0xf1ab 0x4e3b;
  It 0xf1ac 0x4f4f;
  It 0xf1ad 0x4f8f;
  It 0xf1ae 0x505a;
  It 0xf1af 0x59dd;
  It 0xf1b0 0x80c4;
  It 0xf1b1 0x546a;
  It 0xf1b2 0x5468;
  It 0xf1b3 0x55fe;
  It 0xf1b4 0x594f;
  It 0xf1b5 0x5b99;
  It 0xf1b6 0x5dde;
  It 0xf1b7 0x5eda;
  It 0xf1b8 0x665d;
  It 0xf1b9 0x6731;
  It 0xf1ba 0x67f1;
  It 0xf1bb 0x682a;
  It 0xf1bc 0x6ce8;
  It 0xf1bd 0x6d32;
  It 0xf1be 0x6e4a;
  It 0xf1bf 0x6f8d;
  It 0xf1c0 0x70b7;
  It 0xf1c1 0x73e0;
  It 0xf1c2 0x7587;
  It 0xf1c3 0x7c4c;
  It 0xf1c4 0x7d02;
  It 0xf1c5 0x7d2c;
  It 0xf1c6 0x7da2;
  It 0xf1c7 0x821f;
  It 0xf1c8 0x86db;
  It 0xf1c9 0x8a3b;
  It 0xf1ca 0x8a85;
  It 0xf1cb 0x8d70;
  It 0xf1cc 0x8e8a;
  It 0xf1cd 0x8f33;
  It 0xf1ce 0x9031;
  It 0xf1cf 0x914e;
  It 0xf1d0 0x9152;
  It 0xf1d1 0x9444;
  It 0xf1d2 0x99d0;
  It 0xf1d3 0x7af9;
  It 0xf1d4 0x7ca5;
  It 0xf1d5 0x4fca;
  It 0xf1d6 0x5101;
  It 0xf1d7 0x51c6;
  It 0xf1d8 0x57c8;
  It 0xf1d9 0x5bef;
  It 0xf1da 0x5cfb;
  It 0xf1db 0x6659;
  It 0xf1dc 0x6a3d;
  It 0xf1dd 0x6d5a;
  It 0xf1de 0x6e96;
  It 0xf1df 0x6fec;
  It 0xf1e0 0x710c;
  It 0xf1e1 0x756f;
  It 0xf1e2 0x7ae3;
  It 0xf1e3 0x8822;
  It 0xf1e4 0x9021;
  It 0xf1e5 0x9075;
  It 0xf1e6 0x96cb;
  It 0xf1e7 0x99ff;
  It 0xf1e8 0x8301;
  It 0xf1e9 0x4e2d;
  It 0xf1ea 0x4ef2;
  It 0xf1eb 0x8846;
  It 0xf1ec 0x91cd;
  It 0xf1ed 0x537d;
  It 0xf1ee 0x6adb;
  It 0xf1ef 0x696b;
  It 0xf1f0 0x6c41;
  It 0xf1f1 0x847a;
  It 0xf1f2 0x589e;
  It 0xf1f3 0x618e;
  It 0xf1f4 0x66fe;
  It 0xf1f5 0x62ef;
  It 0xf1f6 0x70dd;
  It 0xf1f7 0x7511;
  It 0xf1f8 0x75c7;
  It 0xf1f9 0x7e52;
  It 0xf1fa 0x84b8;
  It 0xf1fb 0x8b49;
  It 0xf1fc 0x8d08;
  It 0xf1fd 0x4e4b;
  It 0xf1fe 0x53ea;
  It 0xf2a1 0x54ab;
  It 0xf2a2 0x5730;
  It 0xf2a3 0x5740;
  It 0xf2a4 0x5fd7;
  It 0xf2a5 0x6301;
  It 0xf2a6 0x6307;
  It 0xf2a7 0x646f;
  It 0xf2a8 0x652f;
  It 0xf2a9 0x65e8;
  It 0xf2aa 0x667a;
  It 0xf2ab 0x679d;
  It 0xf2ac 0x67b3;
  It 0xf2ad 0x6b62;
  It 0xf2ae 0x6c60;
  It 0xf2af 0x6c9a;
  It 0xf2b0 0x6f2c;
  It 0xf2b1 0x77e5;
  It 0xf2b2 0x7825;
  It 0xf2b3 0x7949;
  It 0xf2b4 0x7957;
  It 0xf2b5 0x7d19;
  It 0xf2b6 0x80a2;
  It 0xf2b7 0x8102;
  It 0xf2b8 0x81f3;
  It 0xf2b9 0x829d;
  It 0xf2ba 0x82b7;
  It 0xf2bb 0x8718;
  It 0xf2bc 0x8a8c;
  It 0xf2bd 0xf9fc;
  It 0xf2be 0x8d04;
  It 0xf2bf 0x8dbe;
  It 0xf2c0 0x9072;
  It 0xf2c1 0x76f4;
  It 0xf2c2 0x7a19;
  It 0xf2c3 0x7a37;
  It 0xf2c4 0x7e54;
  It 0xf2c5 0x8077;
  It 0xf2c6 0x5507;
  It 0xf2c7 0x55d4;
  It 0xf2c8 0x5875;
  It 0xf2c9 0x632f;
  It 0xf2ca 0x6422;
  It 0xf2cb 0x6649;
  It 0xf2cc 0x664b;
  It 0xf2cd 0x686d;
  It 0xf2ce 0x699b;
  It 0xf2cf 0x6b84;
  It 0xf2d0 0x6d25;
  It 0xf2d1 0x6eb1;
  It 0xf2d2 0x73cd;
  It 0xf2d3 0x7468;
  It 0xf2d4 0x74a1;
  It 0xf2d5 0x755b;
  It 0xf2d6 0x75b9;
  It 0xf2d7 0x76e1;
  It 0xf2d8 0x771e;
  It 0xf2d9 0x778b;
  It 0xf2da 0x79e6;
  It 0xf2db 0x7e09;
  It 0xf2dc 0x7e1d;
  It 0xf2dd 0x81fb;
  It 0xf2de 0x852f;
  It 0xf2df 0x8897;
  It 0xf2e0 0x8a3a;
  It 0xf2e1 0x8cd1;
  It 0xf2e2 0x8eeb;
  It 0xf2e3 0x8fb0;
  It 0xf2e4 0x9032;
  It 0xf2e5 0x93ad;
  It 0xf2e6 0x9663;
  It 0xf2e7 0x9673;
  It 0xf2e8 0x9707;
  It 0xf2e9 0x4f84;
  It 0xf2ea 0x53f1;
  It 0xf2eb 0x59ea;
  It 0xf2ec 0x5ac9;
  It 0xf2ed 0x5e19;
  It 0xf2ee 0x684e;
  It 0xf2ef 0x74c6;
  It 0xf2f0 0x75be
].

(* encoding/cp949/lookup_from.go:16009-16258 *)
Definition fromTable_064 : list lookupItem := [
  It 0xf2f1 0x79e9;
  It 0xf2f2 0x7a92;
  It 0xf2f3 0x81a3;
  It 0xf2f4 0x86ed;
  It 0xf2f5 0x8cea;
  It 0xf2f6 0x8dcc;
  It 0xf2f7 0x8fed;
  It 0xf2f8 0x659f;
  It 0xf2f9 0x6715;
  It 0xf2fa 0xf9fd;
  It 0xf2fb 0x57f7;
  It 0xf2fc 0x6f57;
  It 0xf2fd 0x7ddd;
  It 0xf2fe 0x8f2f;
  It 0xf3a1 0x93f6;
  It 0xf3a2 0x96c6;
  It 0xf3a3 0x5fb5;
  It 0xf3a4 0x61f2;
  It 0xf3a5 0x6f84;
  It 0xf3a6 0x4e14;
  It 0xf3a7 0x4f98;
  It 0xf3a8 0x501f;
  It 0xf3a9 0x53c9;
  It 0xf3aa 0x55df;
  It 0xf3ab 0x5d6f;
  It 0xf3ac 0x5dee;
  It 0xf3ad 0x6b21;
  It 0xf3ae 0x6b64;
  It 0xf3af 0x78cb;
  It 0xf3b0 0x7b9a;
  It 0xf3b1 0xf9fe;
  It 0xf3b2 0x8e49;
  It 0xf3b3 0x8eca;
  It 0xf3b4 0x906e;
  It 0xf3b5 0x6349;
  It 0xf3b6 0x643e;
  It 0xf3b7 0x7740;
  It 0xf3b8 0x7a84;
  It 0xf3b9 0x932f;
  It 0xf3ba 0x947f;
  It 0xf3bb 0x9f6a;
  It 0xf3bc 0x64b0;
  It 0xf3bd 0x6faf;
  It 0xf3be 0x71e6;
  It 0xf3bf 0x74a8;
  It 0xf3c0 0x74da;
  It 0xf3c1 0x7ac4;
  It 0xf3c2 0x7c12;
  It 0xf3c3 0x7e82;
  It 0xf3c4 0x7cb2;
  It 0xf3c5 0x7e98;
  It 0xf3c6 0x8b9a;
  It 0xf3c7 0x8d0a;
  It 0xf3c8 0x947d;
  It 0xf3c9 0x9910;
  It 0xf3ca 0x994c;
  It 0xf3cb 0x5239;
  It 0xf3cc 0x5bdf;
  It 0xf3cd 0x64e6;
  It 0xf3ce 0x672d;
  It 0xf3cf 0x7d2e;
  It 0xf3d0 0x50ed;
  It 0xf3d1 0x53c3;
  It 0xf3d2 0x5879;
  It 0xf3d3 0x6158;
  It 0xf3d4 0x6159;
  It 0xf3d5 0x61fa;
  It 0xf3d6 0x65ac;
  It 0xf3d7 0x7ad9;
  It 0xf3d8 0x8b92;
  It 0xf3d9 0x8b96;
  It 0xf3da 0x5009;
  It 0xf3db 0x5021;
  It 0xf3dc 0x5275;
  It 0xf3dd 0x5531;
  It 0xf3de 0x5a3c;
  It 0xf3df 0x5ee0;
  It 0xf3e0 0x5f70;
  It 0xf3e1 0x6134;
  It 0xf3e2 0x655e;
  It 0xf3e3 0x660c;
  It 0xf3e4 0x6636;
  It 0xf3e5 0x66a2;
  It 0xf3e6 0x69cd;
  It 0xf3e7 0x6ec4;
  It 0xf3e8 0x6f32;
  It 0xf3e9 0x7316;
  It 0xf3ea 0x7621;
  It 0xf3eb 0x7a93;
  It 0xf3ec 0x8139;
  It 0xf3ed 0x8259;
  It 0xf3ee 0x83d6;
  It 0xf3ef 0x84bc;
  It 0xf3f0 0x50b5;
  It 0xf3f1 0x57f0;
  It 0xf3f2 0x5bc0;
  It 0xf3f3 0x5be8;
  It 0xf3f4 0x5f69;
  It 0xf3f5 0x63a1;
  It 0xf3f6 0x7826;
  It 0xf3f7 0x7db5;
  It 0xf3f8 0x83dc;
  It 0xf3f9 0x8521;
  It 0xf3fa 0x91c7;
  It 0xf3fb 0x91f5;
  It 0xf3fc 0x518a;
  It 0xf3fd 0x67f5;
  It 0xf3fe 0x7b56;
  It 0xf4a1 0x8cac;
  It 0xf4a2 0x51c4;
  It 0xf4a3 0x59bb;
  It 0xf4a4 0x60bd;
  It 0xf4a5 0x8655;
  It 0xf4a6 0x501c;
  It 0xf4a7 0xf9ff;
  It 0xf4a8 0x5254;
  It 0xf4a9 0x5c3a;
  It 0xf4aa 0x617d;
  It 0xf4ab 0x621a;
  It 0xf4ac 0x62d3;
  It 0xf4ad 0x64f2;
  It 0xf4ae 0x65a5;
  It 0xf4af 0x6ecc;
  It 0xf4b0 0x7620;
  It 0xf4b1 0x810a;
  It 0xf4b2 0x8e60;
  It 0xf4b3 0x965f;
  It 0xf4b4 0x96bb;
  It 0xf4b5 0x4edf;
  It 0xf4b6 0x5343;
  It 0xf4b7 0x5598;
  It 0xf4b8 0x5929;
  It 0xf4b9 0x5ddd;
  It 0xf4ba 0x64c5;
  It 0xf4bb 0x6cc9;
  It 0xf4bc 0x6dfa;
  It 0xf4bd 0x7394;
  It 0xf4be 0x7a7f;
  It 0xf4bf 0x821b;
  It 0xf4c0 0x85a6;
  It 0xf4c1 0x8ce4;
  It 0xf4c2 0x8e10;
  It 0xf4c3 0x9077;
  It 0xf4c4 0x91e7;
  It 0xf4c5 0x95e1;
  It 0xf4c6 0x9621;
  It 0xf4c7 0x97c6;
  It 0xf4c8 0x51f8;
  It 0xf4c9 0x54f2;
  It 0xf4ca 0x5586;
  It 0xf4cb 0x5fb9;
  It 0xf4cc 0x64a4;
  It 0xf4cd 0x6f88;
  It 0xf4ce 0x7db4;
  It 0xf4cf 0x8f1f;
  It 0xf4d0 0x8f4d;
  It 0xf4d1 0x9435;
  It 0xf4d2 0x50c9;
  It 0xf4d3 0x5c16;
  It 0xf4d4 0x6cbe;
  It 0xf4d5 0x6dfb;
  It 0xf4d6 0x751b;
  It 0xf4d7 0x77bb;
  It 0xf4d8 0x7c3d;
  It 0xf4d9 0x7c64;
  It 0xf4da 0x8a79;
  It 0xf4db 0x8ac2;
  It 0xf4dc 0x581e;
  It 0xf4dd 0x59be;
  It 0xf4de 0x5e16;
  It 0xf4df 0x6377;
  It 0xf4e0 0x7252;
  It 0xf4e1 0x758a;
  It 0xf4e2 0x776b;
  It 0xf4e3 0x8adc;
  It 0xf4e4 0x8cbc;
  It 0xf4e5 0x8f12;
  It 0xf4e6 0x5ef3;
  It 0xf4e7 0x6674;
  It 0xf4e8 0x6df8;
  It 0xf4e9 0x807d;
  It 0xf4ea 0x83c1;
  It 0xf4eb 0x8acb;
  It 0xf4ec 0x9751;
  It 0xf4ed 0x9bd6;
  It 0xf4ee 0xfa00;
  It 0xf4ef 0x5243;
  It 0xf4f0 0x66ff;
  It 0xf4f1 0x6d95;
  It 0xf4f2 0x6eef;
  It 0xf4f3 0x7de0;
  It 0xf4f4 0x8ae6;
  It 0xf4f5 0x902e;
  It 0xf4f6 0x905e;
  It 0xf4f7 0x9ad4;
  It 0xf4f8 0x521d;
  It 0xf4f9 0x527f;
  It 0xf4fa 0x54e8;
  It 0xf4fb 0x6194;
  It 0xf4fc 0x6284;
  It 0xf4fd 0x62db;
  It 0xf4fe 0x68a2;
  It 0xf5a1 0x6912;
  It 0xf5a2 0x695a;
  It 0xf5a3 0x6a35;
  It 0xf5a4 0x7092;
  It 0xf5a5 0x7126;
  It 0xf5a6 0x785d;
  It 0xf5a7 0x7901;
  It 0xf5a8 0x790e;
  It 0xf5a9 0x79d2;
  It 0xf5aa 0x7a0d;
  It 0xf5ab 0x8096;
  It 0xf5ac 0x8278;
  It 0xf5ad 0x82d5;
  It 0xf5ae 0x8349;
  It 0xf5af 0x8549;
  It 0xf5b0 0x8c82;
  It 0xf5b1 0x8d85;
  It 0xf5b2 0x9162;
  It 0xf5b3 0x918b;
  It 0xf5b4 0x91ae;
  It 0xf5b5 0x4fc3;
  It 0xf5b6 0x56d1;
  It 0xf5b7 0x71ed;
  It 0xf5b8 0x77d7;
  It 0xf5b9 0x8700;
  It 0xf5ba 0x89f8;
  It 0xf5bb 0x5bf8;
  It 0xf5bc 0x5fd6;
  It 0xf5bd 0x6751;
  It 0xf5be 0x90a8;
  It 0xf5bf 0x53e2;
  It 0xf5c0 0x585a;
  It 0xf5c1 0x5bf5;
  It 0xf5c2 0x60a4;
  It 0xf5c3 0x6181;
  It 0xf5c4 0x6460;
  It 0xf5c5 0x7e3d;
  It 0xf5c6 0x8070;
  It 0xf5c7 0x8525;
  It 0xf5c8 0x9283;
  It 0xf5c9 0x64ae;
  It 0xf5ca 0x50ac;
  It 0xf5cb 0x5d14;
  It 0xf5cc 0x6700;
  It 0xf5cd 0x589c;
  It 0xf5ce 0x62bd;
  It 0xf5cf 0x63a8;
  It 0xf5d0 0x690e
].

(* encoding/cp949/lookup_from.go:16259-16508 *)
Definition fromTable_065 : list lookupItem := [
  It 0xf5d1 0x6978;
  It 0xf5d2 0x6a1e;
  It 0xf5d3 0x6e6b;
  It 0xf5d4 0x76ba;
  It 0xf5d5 0x79cb;
  It 0xf5d6 0x82bb;
  It 0xf5d7 0x8429;
  It 0xf5d8 0x8acf;
  It 0xf5d9 0x8da8;
  It 0xf5da 0x8ffd;
  It 0xf5db 0x9112;
  It 0xf5dc 0x914b;
  It 0xf5dd 0x919c;
  It 0xf5de 0x9310;
  It 0xf5df 0x9318;
  It 0xf5e0 0x939a;
  It 0xf5e1 0x96db;
  It 0xf5e2 0x9a36;
  It 0xf5e3 0x9c0d;
  It 0xf5e4 0x4e11;
  It 0xf5e5 0x755c;
  It 0xf5e6 0x795d;
  It 0xf5e7 0x7afa;
  It 0xf5e8 0x7b51;
  It 0xf5e9 0x7bc9;
  It 0xf5ea 0x7e2e;
  It 0xf5eb 0x84c4;
  It 0xf5ec 0x8e59;
  It 0xf5ed 0x8e74;
  It 0xf5ee 0x8ef8;
  It 0xf5ef 0x9010;
  It 0xf5f0 0x6625;
  It 0xf5f1 0x693f;
  It 0xf5f2 0x7443;
  It 0xf5f3 0x51fa;
  It 0xf5f4 0x672e;
  It 0xf5f5 0x9edc;
  It 0xf5f6 0x5145;
  It 0xf5f7 0x5fe0;
  It 0xf5f8 0x6c96;
  It 0xf5f9 0x87f2;
  It 0xf5fa 0x885d;
  It 0xf5fb 0x8877;
  It 0xf5fc 0x60b4;
  It 0xf5fd 0x81b5;
  It 0xf5fe 0x8403;
  It 0xf6a1 0x8d05;
  It 0xf6a2 0x53d6;
  It 0xf6a3 0x5439;
  It 0xf6a4 0x5634;
  It 0xf6a5 0x5a36;
  It 0xf6a6 0x5c31;
  It 0xf6a7 0x708a;
  It 0xf6a8 0x7fe0;
  It 0xf6a9 0x805a;
  It 0xf6aa 0x8106;
  It 0xf6ab 0x81ed;
  It 0xf6ac 0x8da3;
  It 0xf6ad 0x9189;
  It 0xf6ae 0x9a5f;
  It 0xf6af 0x9df2;
  It 0xf6b0 0x5074;
  It 0xf6b1 0x4ec4;
  It 0xf6b2 0x53a0;
  It 0xf6b3 0x60fb;
  It 0xf6b4 0x6e2c;
  It 0xf6b5 0x5c64;
  It 0xf6b6 0x4f88;
  It 0xf6b7 0x5024;
  It 0xf6b8 0x55e4;
  It 0xf6b9 0x5cd9;
  It 0xf6ba 0x5e5f;
  It 0xf6bb 0x6065;
  It 0xf6bc 0x6894;
  It 0xf6bd 0x6cbb;
  It 0xf6be 0x6dc4;
  It 0xf6bf 0x71be;
  It 0xf6c0 0x75d4;
  It 0xf6c1 0x75f4;
  It 0xf6c2 0x7661;
  It 0xf6c3 0x7a1a;
  It 0xf6c4 0x7a49;
  It 0xf6c5 0x7dc7;
  It 0xf6c6 0x7dfb;
  It 0xf6c7 0x7f6e;
  It 0xf6c8 0x81f4;
  It 0xf6c9 0x86a9;
  It 0xf6ca 0x8f1c;
  It 0xf6cb 0x96c9;
  It 0xf6cc 0x99b3;
  It 0xf6cd 0x9f52;
  It 0xf6ce 0x5247;
  It 0xf6cf 0x52c5;
  It 0xf6d0 0x98ed;
  It 0xf6d1 0x89aa;
  It 0xf6d2 0x4e03;
  It 0xf6d3 0x67d2;
  It 0xf6d4 0x6f06;
  It 0xf6d5 0x4fb5;
  It 0xf6d6 0x5be2;
  It 0xf6d7 0x6795;
  It 0xf6d8 0x6c88;
  It 0xf6d9 0x6d78;
  It 0xf6da 0x741b;
  It 0xf6db 0x7827;
  It 0xf6dc 0x91dd;
  It 0xf6dd 0x937c;
  It 0xf6de 0x87c4;
  It 0xf6df 0x79e4;
  It 0xf6e0 0x7a31;
  It 0xf6e1 0x5feb;
  It 0xf6e2 0x4ed6;
  It 0xf6e3 0x54a4;
  It 0xf6e4 0x553e;
  It 0xf6e5 0x58ae;
  It 0xf6e6 0x59a5;
  It 0xf6e7 0x60f0;
  It 0xf6e8 0x6253;
  It 0xf6e9 0x62d6;
  It 0xf6ea 0x6736;
  It 0xf6eb 0x6955;
  It 0xf6ec 0x8235;
  It 0xf6ed 0x9640;
  It 0xf6ee 0x99b1;
  It 0xf6ef 0x99dd;
  It 0xf6f0 0x502c;
  It 0xf6f1 0x5353;
  It 0xf6f2 0x5544;
  It 0xf6f3 0x577c;
  It 0xf6f4 0xfa01;
  It 0xf6f5 0x6258;
  It 0xf6f6 0xfa02;
  It 0xf6f7 0x64e2;
  It 0xf6f8 0x666b;
  It 0xf6f9 0x67dd;
  It 0xf6fa 0x6fc1;
  It 0xf6fb 0x6fef;
  It 0xf6fc 0x7422;
  It 0xf6fd 0x7438;
  It 0xf6fe 0x8a17;
  It 0xf7a1 0x9438;
  It 0xf7a2 0x5451;
  It 0xf7a3 0x5606;
  It 0xf7a4 0x5766;
  It 0xf7a5 0x5f48;
  It 0xf7a6 0x619a;
  It 0xf7a7 0x6b4e;
  It 0xf7a8 0x7058;
  It 0xf7a9 0x70ad;
  It 0xf7aa 0x7dbb;
  It 0xf7ab 0x8a95;
  It 0xf7ac 0x596a;
  It 0xf7ad 0x812b;
  It 0xf7ae 0x63a2;
  It 0xf7af 0x7708;
  It 0xf7b0 0x803d;
  It 0xf7b1 0x8caa;
  It 0xf7b2 0x5854;
  It 0xf7b3 0x642d;
  It 0xf7b4 0x69bb;
  It 0xf7b5 0x5b95;
  It 0xf7b6 0x5e11;
  It 0xf7b7 0x6e6f;
  It 0xf7b8 0xfa03;
  It 0xf7b9 0x8569;
  It 0xf7ba 0x514c;
  It 0xf7bb 0x53f0;
  It 0xf7bc 0x592a;
  It 0xf7bd 0x6020;
  It 0xf7be 0x614b;
  It 0xf7bf 0x6b86;
  It 0xf7c0 0x6c70;
  It 0xf7c1 0x6cf0;
  It 0xf7c2 0x7b1e;
  It 0xf7c3 0x80ce;
  It 0xf7c4 0x82d4;
  It 0xf7c5 0x8dc6;
  It 0xf7c6 0x90b0;
  It 0xf7c7 0x98b1;
  It 0xf7c8 0xfa04;
  It 0xf7c9 0x64c7;
  It 0xf7ca 0x6fa4;
  It 0xf7cb 0x6491;
  It 0xf7cc 0x6504;
  It 0xf7cd 0x514e;
  It 0xf7ce 0x5410;
  It 0xf7cf 0x571f;
  It 0xf7d0 0x8a0e;
  It 0xf7d1 0x615f;
  It 0xf7d2 0x6876;
  It 0xf7d3 0xfa05;
  It 0xf7d4 0x75db;
  It 0xf7d5 0x7b52;
  It 0xf7d6 0x7d71;
  It 0xf7d7 0x901a;
  It 0xf7d8 0x5806;
  It 0xf7d9 0x69cc;
  It 0xf7da 0x817f;
  It 0xf7db 0x892a;
  It 0xf7dc 0x9000;
  It 0xf7dd 0x9839;
  It 0xf7de 0x5078;
  It 0xf7df 0x5957;
  It 0xf7e0 0x59ac;
  It 0xf7e1 0x6295;
  It 0xf7e2 0x900f;
  It 0xf7e3 0x9b2a;
  It 0xf7e4 0x615d;
  It 0xf7e5 0x7279;
  It 0xf7e6 0x95d6;
  It 0xf7e7 0x5761;
  It 0xf7e8 0x5a46;
  It 0xf7e9 0x5df4;
  It 0xf7ea 0x628a;
  It 0xf7eb 0x64ad;
  It 0xf7ec 0x64fa;
  It 0xf7ed 0x6777;
  It 0xf7ee 0x6ce2;
  It 0xf7ef 0x6d3e;
  It 0xf7f0 0x722c;
  It 0xf7f1 0x7436;
  It 0xf7f2 0x7834;
  It 0xf7f3 0x7f77;
  It 0xf7f4 0x82ad;
  It 0xf7f5 0x8ddb;
  It 0xf7f6 0x9817;
  It 0xf7f7 0x5224;
  It 0xf7f8 0x5742;
  It 0xf7f9 0x677f;
  It 0xf7fa 0x7248;
  It 0xf7fb 0x74e3;
  It 0xf7fc 0x8ca9;
  It 0xf7fd 0x8fa6;
  It 0xf7fe 0x9211;
  It 0xf8a1 0x962a;
  It 0xf8a2 0x516b;
  It 0xf8a3 0x53ed;
  It 0xf8a4 0x634c;
  It 0xf8a5 0x4f69;
  It 0xf8a6 0x5504;
  It 0xf8a7 0x6096;
  It 0xf8a8 0x6557;
  It 0xf8a9 0x6c9b;
  It 0xf8aa 0x6d7f;
  It 0xf8ab 0x724c;
  It 0xf8ac 0x72fd;
  It 0xf8ad 0x7a17;
  It 0xf8ae 0x8987;
  It 0xf8af 0x8c9d;
  It 0xf8b0 0x5f6d
].

(* encoding/cp949/lookup_from.go:16509-16758 *)
Definition fromTable_066 : list lookupItem := [
  It 0xf8b1 0x6f8e;
  It 0xf8b2 0x70f9;
  It 0xf8b3 0x81a8;
  It 0xf8b4 0x610e;
  It 0xf8b5 0x4fbf;
  It 0xf8b6 0x504f;
  It 0xf8b7 0x6241;
  It 0xf8b8 0x7247;
  It 0xf8b9 0x7bc7;
  It 0xf8ba 0x7de8;
  It 0xf8bb 0x7fe9;
  It 0xf8bc 0x904d;
  It 0xf8bd 0x97ad;
  It 0xf8be 0x9a19;
  It 0xf8bf 0x8cb6;
  It 0xf8c0 0x576a;
  It 0xf8c1 0x5e73;
  It 0xf8c2 0x67b0;
  It 0xf8c3 0x840d;
  It 0xf8c4 0x8a55;
  It 0xf8c5 0x5420;
  It 0xf8c6 0x5b16;
  It 0xf8c7 0x5e63;
  It 0xf8c8 0x5ee2;
  It 0xf8c9 0x5f0a;
  It 0xf8ca 0x6583;
  It 0xf8cb 0x80ba;
  It 0xf8cc 0x853d;
  It 0xf8cd 0x9589;
  It 0xf8ce 0x965b;
  It 0xf8cf 0x4f48;
  It 0xf8d0 0x5305;
  It 0xf8d1 0x530d;
  It 0xf8d2 0x530f;
  It 0xf8d3 0x5486;
  It 0xf8d4 0x54fa;
  It 0xf8d5 0x5703;
  It 0xf8d6 0x5e03;
  It 0xf8d7 0x6016;
  It 0xf8d8 0x629b;
  It 0xf8d9 0x62b1;
  It 0xf8da 0x6355;
  It 0xf8db 0xfa06;
  It 0xf8dc 0x6ce1;
  It 0xf8dd 0x6d66;
  It 0xf8de 0x75b1;
  It 0xf8df 0x7832;
  It 0xf8e0 0x80de;
  It 0xf8e1 0x812f;
  It 0xf8e2 0x82de;
  It 0xf8e3 0x8461;
  It 0xf8e4 0x84b2;
  It 0xf8e5 0x888d;
  It 0xf8e6 0x8912;
  It 0xf8e7 0x900b;
  It 0xf8e8 0x92ea;
  It 0xf8e9 0x98fd;
  It 0xf8ea 0x9b91;
  It 0xf8eb 0x5e45;
  It 0xf8ec 0x66b4;
  It 0xf8ed 0x66dd;
  It 0xf8ee 0x7011;
  It 0xf8ef 0x7206;
  It 0xf8f0 0xfa07;
  It 0xf8f1 0x4ff5;
  It 0xf8f2 0x527d;
  It 0xf8f3 0x5f6a;
  It 0xf8f4 0x6153;
  It 0xf8f5 0x6753;
  It 0xf8f6 0x6a19;
  It 0xf8f7 0x6f02;
  It 0xf8f8 0x74e2;
  It 0xf8f9 0x7968;
  It 0xf8fa 0x8868;
  It 0xf8fb 0x8c79;
  It 0xf8fc 0x98c7;
  It 0xf8fd 0x98c4;
  It 0xf8fe 0x9a43;
  It 0xf9a1 0x54c1;
  It 0xf9a2 0x7a1f;
  It 0xf9a3 0x6953;
  It 0xf9a4 0x8af7;
  It 0xf9a5 0x8c4a;
  It 0xf9a6 0x98a8;
  It 0xf9a7 0x99ae;
  It 0xf9a8 0x5f7c;
  It 0xf9a9 0x62ab;
  It 0xf9aa 0x75b2;
  It 0xf9ab 0x76ae;
  It 0xf9ac 0x88ab;
  It 0xf9ad 0x907f;
  It 0xf9ae 0x9642;
  It 0xf9af 0x5339;
  It 0xf9b0 0x5f3c;
  It 0xf9b1 0x5fc5;
  It 0xf9b2 0x6ccc;
  It 0xf9b3 0x73cc;
  It 0xf9b4 0x7562;
  It 0xf9b5 0x758b;
  It 0xf9b6 0x7b46;
  It 0xf9b7 0x82fe;
  It 0xf9b8 0x999d;
  It 0xf9b9 0x4e4f;
  It 0xf9ba 0x903c;
  It 0xf9bb 0x4e0b;
  It 0xf9bc 0x4f55;
  It 0xf9bd 0x53a6;
  It 0xf9be 0x590f;
  It 0xf9bf 0x5ec8;
  It 0xf9c0 0x6630;
  It 0xf9c1 0x6cb3;
  It 0xf9c2 0x7455;
  It 0xf9c3 0x8377;
  It 0xf9c4 0x8766;
  It 0xf9c5 0x8cc0;
  It 0xf9c6 0x9050;
  It 0xf9c7 0x971e;
  It 0xf9c8 0x9c15;
  It 0xf9c9 0x58d1;
  It 0xf9ca 0x5b78;
  It 0xf9cb 0x8650;
  It 0xf9cc 0x8b14;
  It 0xf9cd 0x9db4;
  It 0xf9ce 0x5bd2;
  It 0xf9cf 0x6068;
  It 0xf9d0 0x608d;
  It 0xf9d1 0x65f1;
  It 0xf9d2 0x6c57;
  It 0xf9d3 0x6f22;
  It 0xf9d4 0x6fa3;
  It 0xf9d5 0x701a;
  It 0xf9d6 0x7f55;
  It 0xf9d7 0x7ff0;
  It 0xf9d8 0x9591;
  It 0xf9d9 0x9592;
  It 0xf9da 0x9650;
  It 0xf9db 0x97d3;
  It 0xf9dc 0x5272;
  It 0xf9dd 0x8f44;
  It 0xf9de 0x51fd;
  It 0xf9df 0x542b;
  It 0xf9e0 0x54b8;
  It 0xf9e1 0x5563;
  It 0xf9e2 0x558a;
  It 0xf9e3 0x6abb;
  It 0xf9e4 0x6db5;
  It 0xf9e5 0x7dd8;
  It 0xf9e6 0x8266;
  It 0xf9e7 0x929c;
  It 0xf9e8 0x9677;
  It 0xf9e9 0x9e79;
  It 0xf9ea 0x5408;
  It 0xf9eb 0x54c8;
  It 0xf9ec 0x76d2;
  It 0xf9ed 0x86e4;
  It 0xf9ee 0x95a4;
  It 0xf9ef 0x95d4;
  It 0xf9f0 0x965c;
  It 0xf9f1 0x4ea2;
  It 0xf9f2 0x4f09;
  It 0xf9f3 0x59ee;
  It 0xf9f4 0x5ae6;
  It 0xf9f5 0x5df7;
  It 0xf9f6 0x6052;
  It 0xf9f7 0x6297;
  It 0xf9f8 0x676d;
  It 0xf9f9 0x6841;
  It 0xf9fa 0x6c86;
  It 0xf9fb 0x6e2f;
  It 0xf9fc 0x7f38;
  It 0xf9fd 0x809b;
  It 0xf9fe 0x822a;
  It 0xfaa1 0xfa08;
  It 0xfaa2 0xfa09;
  It 0xfaa3 0x9805;
  It 0xfaa4 0x4ea5;
  It 0xfaa5 0x5055;
  It 0xfaa6 0x54b3;
  It 0xfaa7 0x5793;
  It 0xfaa8 0x595a;
  It 0xfaa9 0x5b69;
  It 0xfaaa 0x5bb3;
  It 0xfaab 0x61c8;
  It 0xfaac 0x6977;
  It 0xfaad 0x6d77;
  It 0xfaae 0x7023;
  It 0xfaaf 0x87f9;
  It 0xfab0 0x89e3;
  It 0xfab1 0x8a72;
  It 0xfab2 0x8ae7;
  It 0xfab3 0x9082;
  It 0xfab4 0x99ed;
  It 0xfab5 0x9ab8;
  It 0xfab6 0x52be;
  It 0xfab7 0x6838;
  It 0xfab8 0x5016;
  It 0xfab9 0x5e78;
  It 0xfaba 0x674f;
  It 0xfabb 0x8347;
  It 0xfabc 0x884c;
  It 0xfabd 0x4eab;
  It 0xfabe 0x5411;
  It 0xfabf 0x56ae;
  It 0xfac0 0x73e6;
  It 0xfac1 0x9115;
  It 0xfac2 0x97ff;
  It 0xfac3 0x9909;
  It 0xfac4 0x9957;
  It 0xfac5 0x9999;
  It 0xfac6 0x5653;
  It 0xfac7 0x589f;
  It 0xfac8 0x865b;
  It 0xfac9 0x8a31;
  It 0xfaca 0x61b2;
  It 0xfacb 0x6af6;
  It 0xfacc 0x737b;
  It 0xfacd 0x8ed2;
  It 0xface 0x6b47;
  It 0xfacf 0x96aa;
  It 0xfad0 0x9a57;
  It 0xfad1 0x5955;
  It 0xfad2 0x7200;
  It 0xfad3 0x8d6b;
  It 0xfad4 0x9769;
  It 0xfad5 0x4fd4;
  It 0xfad6 0x5cf4;
  It 0xfad7 0x5f26;
  It 0xfad8 0x61f8;
  It 0xfad9 0x665b;
  It 0xfada 0x6ceb;
  It 0xfadb 0x70ab;
  It 0xfadc 0x7384;
  It 0xfadd 0x73b9;
  It 0xfade 0x73fe;
  It 0xfadf 0x7729;
  It 0xfae0 0x774d;
  It 0xfae1 0x7d43;
  It 0xfae2 0x7d62;
  It 0xfae3 0x7e23;
  It 0xfae4 0x8237;
  It 0xfae5 0x8852;
  It 0xfae6 0xfa0a;
  It 0xfae7 0x8ce2;
  It 0xfae8 0x9249;
  It 0xfae9 0x986f;
  It 0xfaea 0x5b51;
  It 0xfaeb 0x7a74;
  It 0xfaec 0x8840;
  It 0xfaed 0x9801;
  It 0xfaee 0x5acc
].

(* encoding/cp949/lookup_from.go:16759-17008 *)
Definition fromTable_067 : list lookupItem := [
  It 0xfaef 0x4fe0;
  It 0xfaf0 0x5354;
  It 0xfaf1 0x593e;
  It 0xfaf2 0x5cfd;
  It 0xfaf3 0x633e;
  It 0xfaf4 0x6d79;
  It 0xfaf5 0x72f9;
  It 0xfaf6 0x8105;
  It 0xfaf7 0x8107;
  It 0xfaf8 0x83a2;
  It 0xfaf9 0x92cf;
  It 0xfafa 0x9830;
  It 0xfafb 0x4ea8;
  It 0xfafc 0x5144;
  It 0xfafd 0x5211;
  It 0xfafe 0x578b;
  It 0xfba1 0x5f62;
  It 0xfba2 0x6cc2;
  It 0xfba3 0x6ece;
  It 0xfba4 0x7005;
  It 0xfba5 0x7050;
  It 0xfba6 0x70af;
  It 0xfba7 0x7192;
  It 0xfba8 0x73e9;
  It 0xfba9 0x7469;
  It 0xfbaa 0x834a;
  It 0xfbab 0x87a2;
  It 0xfbac 0x8861;
  It 0xfbad 0x9008;
  It 0xfbae 0x90a2;
  It 0xfbaf 0x93a3;
  It 0xfbb0 0x99a8;
  It 0xfbb1 0x516e;
  It 0xfbb2 0x5f57;
  It 0xfbb3 0x60e0;
  It 0xfbb4 0x6167;
  It 0xfbb5 0x66b3;
  It 0xfbb6 0x8559;
  It 0xfbb7 0x8e4a;
  It 0xfbb8 0x91af;
  It 0xfbb9 0x978b;
  It 0xfbba 0x4e4e;
  It 0xfbbb 0x4e92;
  It 0xfbbc 0x547c;
  It 0xfbbd 0x58d5;
  It 0xfbbe 0x58fa;
  It 0xfbbf 0x597d;
  It 0xfbc0 0x5cb5;
  It 0xfbc1 0x5f27;
  It 0xfbc2 0x6236;
  It 0xfbc3 0x6248;
  It 0xfbc4 0x660a;
  It 0xfbc5 0x6667;
  It 0xfbc6 0x6beb;
  It 0xfbc7 0x6d69;
  It 0xfbc8 0x6dcf;
  It 0xfbc9 0x6e56;
  It 0xfbca 0x6ef8;
  It 0xfbcb 0x6f94;
  It 0xfbcc 0x6fe0;
  It 0xfbcd 0x6fe9;
  It 0xfbce 0x705d;
  It 0xfbcf 0x72d0;
  It 0xfbd0 0x7425;
  It 0xfbd1 0x745a;
  It 0xfbd2 0x74e0;
  It 0xfbd3 0x7693;
  It 0xfbd4 0x795c;
  It 0xfbd5 0x7cca;
  It 0xfbd6 0x7e1e;
  It 0xfbd7 0x80e1;
  It 0xfbd8 0x82a6;
  It 0xfbd9 0x846b;
  It 0xfbda 0x84bf;
  It 0xfbdb 0x864e;
  It 0xfbdc 0x865f;
  It 0xfbdd 0x8774;
  It 0xfbde 0x8b77;
  It 0xfbdf 0x8c6a;
  It 0xfbe0 0x93ac;
  It 0xfbe1 0x9800;
  It 0xfbe2 0x9865;
  It 0xfbe3 0x60d1;
  It 0xfbe4 0x6216;
  It 0xfbe5 0x9177;
  It 0xfbe6 0x5a5a;
  It 0xfbe7 0x660f;
  It 0xfbe8 0x6df7;
  It 0xfbe9 0x6e3e;
  It 0xfbea 0x743f;
  It 0xfbeb 0x9b42;
  It 0xfbec 0x5ffd;
  It 0xfbed 0x60da;
  It 0xfbee 0x7b0f;
  It 0xfbef 0x54c4;
  It 0xfbf0 0x5f18;
  It 0xfbf1 0x6c5e;
  It 0xfbf2 0x6cd3;
  It 0xfbf3 0x6d2a;
  It 0xfbf4 0x70d8;
  It 0xfbf5 0x7d05;
  It 0xfbf6 0x8679;
  It 0xfbf7 0x8a0c;
  It 0xfbf8 0x9d3b;
  It 0xfbf9 0x5316;
  It 0xfbfa 0x548c;
  It 0xfbfb 0x5b05;
  It 0xfbfc 0x6a3a;
  It 0xfbfd 0x706b;
  It 0xfbfe 0x7575;
  It 0xfca1 0x798d;
  It 0xfca2 0x79be;
  It 0xfca3 0x82b1;
  It 0xfca4 0x83ef;
  It 0xfca5 0x8a71;
  It 0xfca6 0x8b41;
  It 0xfca7 0x8ca8;
  It 0xfca8 0x9774;
  It 0xfca9 0xfa0b;
  It 0xfcaa 0x64f4;
  It 0xfcab 0x652b;
  It 0xfcac 0x78ba;
  It 0xfcad 0x78bb;
  It 0xfcae 0x7a6b;
  It 0xfcaf 0x4e38;
  It 0xfcb0 0x559a;
  It 0xfcb1 0x5950;
  It 0xfcb2 0x5ba6;
  It 0xfcb3 0x5e7b;
  It 0xfcb4 0x60a3;
  It 0xfcb5 0x63db;
  It 0xfcb6 0x6b61;
  It 0xfcb7 0x6665;
  It 0xfcb8 0x6853;
  It 0xfcb9 0x6e19;
  It 0xfcba 0x7165;
  It 0xfcbb 0x74b0;
  It 0xfcbc 0x7d08;
  It 0xfcbd 0x9084;
  It 0xfcbe 0x9a69;
  It 0xfcbf 0x9c25;
  It 0xfcc0 0x6d3b;
  It 0xfcc1 0x6ed1;
  It 0xfcc2 0x733e;
  It 0xfcc3 0x8c41;
  It 0xfcc4 0x95ca;
  It 0xfcc5 0x51f0;
  It 0xfcc6 0x5e4c;
  It 0xfcc7 0x5fa8;
  It 0xfcc8 0x604d;
  It 0xfcc9 0x60f6;
  It 0xfcca 0x6130;
  It 0xfccb 0x614c;
  It 0xfccc 0x6643;
  It 0xfccd 0x6644;
  It 0xfcce 0x69a5;
  It 0xfccf 0x6cc1;
  It 0xfcd0 0x6e5f;
  It 0xfcd1 0x6ec9;
  It 0xfcd2 0x6f62;
  It 0xfcd3 0x714c;
  It 0xfcd4 0x749c;
  It 0xfcd5 0x7687;
  It 0xfcd6 0x7bc1;
  It 0xfcd7 0x7c27;
  It 0xfcd8 0x8352;
  It 0xfcd9 0x8757;
  It 0xfcda 0x9051;
  It 0xfcdb 0x968d;
  It 0xfcdc 0x9ec3;
  It 0xfcdd 0x532f;
  It 0xfcde 0x56de;
  It 0xfcdf 0x5efb;
  It 0xfce0 0x5f8a;
  It 0xfce1 0x6062;
  It 0xfce2 0x6094;
  It 0xfce3 0x61f7;
  It 0xfce4 0x6666;
  It 0xfce5 0x6703;
  It 0xfce6 0x6a9c;
  It 0xfce7 0x6dee;
  It 0xfce8 0x6fae;
  It 0xfce9 0x7070;
  It 0xfcea 0x736a;
  It 0xfceb 0x7e6a;
  It 0xfcec 0x81be;
  It 0xfced 0x8334;
  It 0xfcee 0x86d4;
  It 0xfcef 0x8aa8;
  It 0xfcf0 0x8cc4;
  It 0xfcf1 0x5283;
  It 0xfcf2 0x7372;
  It 0xfcf3 0x5b96;
  It 0xfcf4 0x6a6b;
  It 0xfcf5 0x9404;
  It 0xfcf6 0x54ee;
  It 0xfcf7 0x5686;
  It 0xfcf8 0x5b5d;
  It 0xfcf9 0x6548;
  It 0xfcfa 0x6585;
  It 0xfcfb 0x66c9;
  It 0xfcfc 0x689f;
  It 0xfcfd 0x6d8d;
  It 0xfcfe 0x6dc6;
  It 0xfda1 0x723b;
  It 0xfda2 0x80b4;
  It 0xfda3 0x9175;
  It 0xfda4 0x9a4d;
  It 0xfda5 0x4faf;
  It 0xfda6 0x5019;
  It 0xfda7 0x539a;
  It 0xfda8 0x540e;
  It 0xfda9 0x543c;
  It 0xfdaa 0x5589;
  It 0xfdab 0x55c5;
  It 0xfdac 0x5e3f;
  It 0xfdad 0x5f8c;
  It 0xfdae 0x673d;
  It 0xfdaf 0x7166;
  It 0xfdb0 0x73dd;
  It 0xfdb1 0x9005;
  It 0xfdb2 0x52db;
  It 0xfdb3 0x52f3;
  It 0xfdb4 0x5864;
  It 0xfdb5 0x58ce;
  It 0xfdb6 0x7104;
  It 0xfdb7 0x718f;
  It 0xfdb8 0x71fb;
  It 0xfdb9 0x85b0;
  It 0xfdba 0x8a13;
  It 0xfdbb 0x6688;
  It 0xfdbc 0x85a8;
  It 0xfdbd 0x55a7;
  It 0xfdbe 0x6684;
  It 0xfdbf 0x714a;
  It 0xfdc0 0x8431;
  It 0xfdc1 0x5349;
  It 0xfdc2 0x5599;
  It 0xfdc3 0x6bc1;
  It 0xfdc4 0x5f59;
  It 0xfdc5 0x5fbd;
  It 0xfdc6 0x63ee;
  It 0xfdc7 0x6689;
  It 0xfdc8 0x7147;
  It 0xfdc9 0x8af1;
  It 0xfdca 0x8f1d;
  It 0xfdcb 0x9ebe;
  It 0xfdcc 0x4f11;
  It 0xfdcd 0x643a;
  It 0xfdce 0x70cb
].

(* encoding/cp949/lookup_from.go:17009-17056 *)
Definition fromTable_068 : list lookupItem := [
  It 0xfdcf 0x7566;
  It 0xfdd0 0x8667;
  It 0xfdd1 0x6064;
  It 0xfdd2 0x8b4e;
  It 0xfdd3 0x9df8;
  It 0xfdd4 0x5147;
  It 0xfdd5 0x51f6;
  It 0xfdd6 0x5308;
  It 0xfdd7 0x6d36;
  It 0xfdd8 0x80f8;
  It 0xfdd9 0x9ed1;
  It 0xfdda 0x6615;
  It 0xfddb 0x6b23;
  It 0xfddc 0x7098;
  It 0xfddd 0x75d5;
  It 0xfdde 0x5403;
  It 0xfddf 0x5c79;
  It 0xfde0 0x7d07;
  It 0xfde1 0x8a16;
  It 0xfde2 0x6b20;
  It 0xfde3 0x6b3d;
  It 0xfde4 0x6b46;
  It 0xfde5 0x5438;
  It 0xfde6 0x6070;
  It 0xfde7 0x6d3d;
  It 0xfde8 0x7fd5;
  It 0xfde9 0x8208;
  It 0xfdea 0x50d6;
  It 0xfdeb 0x51de;
  It 0xfdec 0x559c;
  It 0xfded 0x566b;
  It 0xfdee 0x56cd;
  It 0xfdef 0x59ec;
  It 0xfdf0 0x5b09;
  It 0xfdf1 0x5e0c;
  It 0xfdf2 0x6199;
  It 0xfdf3 0x6198;
  It 0xfdf4 0x6231;
  It 0xfdf5 0x665e;
  It 0xfdf6 0x66e6;
  It 0xfdf7 0x7199;
  It 0xfdf8 0x71b9;
  It 0xfdf9 0x71ba;
  It 0xfdfa 0x72a7;
  It 0xfdfb 0x79a7;
  It 0xfdfc 0x7a00;
  It 0xfdfd 0x7fb2;
  It 0xfdfe 0x8a70
].

(* encoding/cp949/lookup_from.go:9-17056, all 17048 entries in source order. *)
Definition fromTable : list lookupItem :=
  fromTable_000 ++
  fromTable_001 ++
  fromTable_002 ++
  fromTable_003 ++
  fromTable_004 ++
  fromTable_005 ++
  fromTable_006 ++
  fromTable_007 ++
  fromTable_008 ++
  fromTable_009 ++
  fromTable_010 ++
  fromTable_011 ++
  fromTable_012 ++
  fromTable_013 ++
  fromTable_014 ++
  fromTable_015 ++
  fromTable_016 ++
  fromTable_017 ++
  fromTable_018 ++
  fromTable_019 ++
  fromTable_020 ++
  fromTable_021 ++
  fromTable_022 ++
  fromTable_023 ++
  fromTable_024 ++
  fromTable_025 ++
  fromTable_026 ++
  fromTable_027 ++
  fromTable_028 ++
  fromTable_029 ++
  fromTable_030 ++
  fromTable_031 ++
  fromTable_032 ++
  fromTable_033 ++
  fromTable_034 ++
  fromTable_035 ++
  fromTable_036 ++
  fromTable_037 ++
  fromTable_038 ++
  fromTable_039 ++
  fromTable_040 ++
  fromTable_041 ++
  fromTable_042 ++
  fromTable_043 ++
  fromTable_044 ++
  fromTable_045 ++
  fromTable_046 ++
  fromTable_047 ++
  fromTable_048 ++
  fromTable_049 ++
  fromTable_050 ++
  fromTable_051 ++
  fromTable_052 ++
  fromTable_053 ++
  fromTable_054 ++
  fromTable_055 ++
  fromTable_056 ++
  fromTable_057 ++
  fromTable_058 ++
  fromTable_059 ++
  fromTable_060 ++
  fromTable_061 ++
  fromTable_062 ++
  fromTable_063 ++
  fromTable_064 ++
  fromTable_065 ++
  fromTable_066 ++
  fromTable_067 ++
  fromTable_068.
