(** The traces of htm/tests, and what the model makes of them. *)
Require Import NArith ZArith List Bool.
Require Import Verif.Codec_Types Verif.Reader_Model Verif.Htm_Model Verif.Convert_Model Verif.Trace_Spec Verif.Qtdis_Model Verif.Verbose_Model.
Import ListNotations.
Local Open Scope N_scope.

(** htm/tests/run_tests:33-44: htmdecoder, then qtdis -v.  Memory that the trace
    did not initialise is 0; the page behind the end of the output reads as 0. *)
Definition run_test (ws : list N) : (list (N * list N * list note) * qend) + cres :=
  match htmdecoder (fun _ l => l) (fun _ => repeat 0 8) (fun _ => zero_qrec) (bytes_of ws) false with
  | COk f => let (l, e) := read_verbose [0; 0; 0; 0] f in inl (map (fun v => (fst (fst v), snd v)) l, e)
  | e => inr e
  end.
(** Words [a] to [b] *)
Definition part (a b : nat) (ws : list N) : list N := firstn (b - a) (skipn a ws).

(* htm/tests/dumps/01.htm *)
Definition dump01 : list N :=
  [0x000000001abcdf00; 0x1e00301ffffd0000; 0x2e00301ffe000000; 0x1c00000001e50300; 0x1800301ffffe03f8;
   0x3e00301ffe000000; 0x1c00000001e50000; 0x1800007fffff0000; 0xb800000000000000; 0x0100000000000000;
   0x000000003abcdf00; 0xc000000000ea0780; 0x0000000ea0000000; 0x7f8438002abcdf54].
(* htm/tests/dumps/02.htm *)
Definition dump02 : list N :=
  [0x000000001abcdf00; 0x1e00301ffffd0000; 0x2e00301ffe000000; 0x1c00000001e50300; 0x1800301ffffe03f8;
   0x3e00301ffe000000; 0x1c00000001e50000; 0x1800007fffff0000; 0xb800000000000000; 0x0100000000000000;
   0x000000003abcdf00; 0xc000000000ea2e00; 0x0000000ea2000000; 0x800000001abcdf00; 0x1c00000001e50000;
   0x1800007fffff0ff8; 0xb800007fc0000000; 0x0100000000000000; 0xebed00302abcdf4d; 0xb8c0000000000000;
   0xc000007ffffef2b0; 0x0003fffff7800000].
(* htm/tests/dumps/03.htm *)
Definition dump03 : list N :=
  [0x000000001abcdf00; 0x1e00301ffffd0000; 0x2e00301ffe000000; 0x1c00000001e50300; 0x1800301ffffe03f8;
   0x3e00301ffe000000; 0x1c00000001e50000; 0x1800007fffff0000; 0xb800000000000000; 0x0100000000000000;
   0x000000003abcdf00; 0xc000000000ea0800; 0x0000000ea0000000; 0x03a481fcaabcdf0c; 0xb8c0000000000000;
   0x000000003abcdf00; 0xc000000000ea0780; 0x0000000ea0000000; 0x392900012abcdf70; 0xb8c0000000000000].
(* htm/tests/dumps/04.htm *)
Definition dump04 : list N :=
  [0x0000001a1abcdf00; 0x1e01401ffffd0000; 0x2e01401ffe000340; 0x1c00000001ee1400; 0x1801401ffffe03f8;
   0x3e01401ffe000340; 0x1c00000055710000; 0x180000009b6a6000; 0x1400000ab53b2400; 0x100000008eb80300;
   0xb200000bdb710000; 0x0100000000000000; 0x000000003abcdf00; 0x0000000010000600; 0x0000bdb710000000;
   0x018c419daabcdf70; 0xf8c0000000000000; 0x0188419eaabcdf74; 0xf8c0000000000000; 0x014a419faabcdf78;
   0xf8c0000000000000; 0x600000002abcdf7c; 0xf8c0000000000000; 0x000000003abcdf00; 0x0000000010000680;
   0x0000bdb710000000; 0x600000002abcdf00; 0xf8c0000000000000; 0x018c21a2aabcdf04; 0xf8c0000000000000;
   0x018a21a3aabcdf08; 0xf8c0000000000000; 0x014821a4aabcdf0c; 0xf8c0000000000000; 0x600000002abcdf10;
   0xf8c0000000000000; 0x600000002abcdf14; 0xf8c0000000000000; 0x038c21a7aabcdf18; 0xf8c0000000000000;
   0x038821a8aabcdf1c; 0xf8c0000000000000; 0x034a21a9aabcdf20; 0xf8c0000000000000; 0x600000002abcdf24;
   0xf8c0000000000000; 0x600000002abcdf28; 0xf8c0000000000000; 0x038e61acaabcdf2c; 0xf8c0000000000000;
   0x038861adaabcdf30; 0xf8c0000000000000; 0x034861aeaabcdf34; 0xf8c0000000000000; 0x600000002abcdf38;
   0xf8c0000000000000; 0x600000002abcdf3c; 0xf8c0000000000000; 0x386000002abcdf40; 0xf8c0000000000000;
   0x7c6ff1202abcdf44; 0xf8c0000000000000; 0x2b944020aabcdf48; 0xf8c0000000000000; 0x2b904020aabcdf4c;
   0xf8c0000000000000; 0x2b504020aabcdf50; 0xf8c0000000000000; 0x2b9c4120aabcdf54; 0xf8c0000000000000;
   0x2b984120aabcdf58; 0xf8c0000000000000; 0x2b584120aabcdf5c; 0xf8c0000000000000; 0x3c6000002abcdf60;
   0xf8c0000000000000; 0x606300002abcdf64; 0xf8c0000000000000; 0x786307c62abcdf68; 0xf8c0000000000000;
   0x646310002abcdf6c; 0xf8c0000000000000; 0x606306fc2abcdf70; 0xf8c0000000000000; 0x7c6903a62abcdf74;
   0xf8c0000000000000; 0x2d1c0120aabcdf78; 0xf8c0000000000000; 0x38600fff2abcdf7c; 0xf8c0000000000000;
   0x000000003abcdf00; 0x0000000010000700; 0x0000bdb710000000; 0x7c6903a62abcdf00; 0xf8c0000000000000;
   0x2e940020aabcdf04; 0xf8c0000000000000; 0x2e900020aabcdf08; 0xf8c0000000000000; 0x2cd00020aabcdf0c;
   0xf8c0000000000000; 0x3c60ffff2abcdf10; 0xf8c0000000000000; 0x6063ffff2abcdf14; 0xf8c0000000000000;
   0x786307c62abcdf18; 0xf8c0000000000000; 0x6463ffff2abcdf1c; 0xf8c0000000000000; 0x6063ffff2abcdf20;
   0xf8c0000000000000; 0x7c6ff1202abcdf24; 0xf8c0000000000000; 0x299c4960aabcdf28; 0xf8c0000000000000;
   0x29984960aabcdf2c; 0xf8c0000000000000; 0x29584960aabcdf30; 0xf8c0000000000000].
(* htm/tests/dumps/05.htm *)
Definition dump05 : list N :=
  [0x000000139abcdf00; 0x1000000041a005e8; 0xb200000020f10000; 0x0100000000000000; 0x000000003abcdf00;
   0xc00000000000da00; 0x000000000d000000; 0x4c1e00a4aabcdf08; 0xb0c0000000000000].
(* htm/tests/dumps/06.htm *)
Definition dump06 : list N :=
  [0x000000001abcdf00; 0x1e00301ffffd0000; 0x2e00301ffe000000; 0x1c00000001e50300; 0x1800301ffffe03f8;
   0x3e00301ffe000000; 0x1c00000001e50000; 0x1800007fffff0000; 0xb800000000000000; 0x0100000000000000;
   0x000000003abcdf00; 0xc000000000010900; 0x0000000010000000; 0x4c1e0024aabcdf00; 0xb0c0000000000000].
(* htm/tests/dumps/07.htm *)
Definition dump07 : list N :=
  [0x000000039abcdf00; 0x1e00301ffffe0000; 0x2e00301ffe000070; 0x1c00000001e30300; 0x1800301fffffb3f8;
   0x3e00301ffe000070; 0x1c0000001e510000; 0x18000000268fe020; 0x14000000221d9b38; 0x1000000040c53780;
   0xb000000cc4cf4000; 0x0100000000000000; 0x000000003abcdf00; 0x000000012cef0980; 0x0000cc4cf4000000;
   0x800000039abcdf00; 0x1c0000001e5103f8; 0x18000000268f8ff0; 0x1400000c53b14f40; 0x100000001db22bb0;
   0xb000000cc1287000; 0x0100000000000000; 0x800000039abcdf00; 0x100000001db22bb8; 0xb000000cc2044000;
   0x0100000000000000; 0xe92900002abcdf1e; 0xf8c0000000000000; 0x00003fffbd176ffe; 0x0000660943800000;
   0x00003fffbd177000; 0x0000661022000000].
(* htm/tests/dumps/08.htm *)
Definition dump08 : list N :=
  [0x000000019abcdf00; 0x1e00301ffffd0000; 0x2e00301ffe000030; 0x1c00000001e50300; 0x1800301ffffe03f8;
   0x3e00301ffe000030; 0x1c000000494a0000; 0x180000005da98020; 0x14000000f7252f08; 0x100000002b2a0328;
   0xb2000002f5f20000; 0x0100000000000000; 0x000000003abcdf00; 0x000000013c250780; 0x00002f5f20000000;
   0x000000006abcdf5c; 0xf8c0000000000000; 0x0700000000000000].
(* htm/tests/dumps/09.htm *)
Definition dump09 : list N :=
  [0x000000081abcdf00; 0x1e00301ffffd0000; 0x2e00301ffe000100; 0x1c00000001e50300; 0x1800301ffffe03f8;
   0x3e00301ffe000100; 0x1c00000060430000; 0x180000005da80020; 0x14000000572a2bf0; 0x100000007e2303a8;
   0xb2000001432c0000; 0x0100000000000000; 0x000000003abcdf00; 0x000000012fd50780; 0x00001432c0000000;
   0x000000006abcdf5c; 0xf8c0000000000000; 0x0700000000000000; 0x7c631b782abcdf64; 0xf8c0000000000000].
(* htm/tests/dumps/10.htm *)
Definition dump10 : list N :=
  [0x000000003abcdf00; 0xc000000000ed8d80; 0x0000000ed8000000; 0x7c3f48402abcdf34; 0xb8c0000000000000].
(* htm/tests/dumps/11.htm *)
Definition dump11 : list N :=
  [0x000000003abcdf00; 0xc000000000081580; 0x0000000081000000; 0x7cc01b242abcdf7b; 0xb0c0000000000000;
   0x0000000010000000; 0x000aa229f547dc80].

(** htm/tests/disasms/04.dis, with the encoding of the instructions *)
Definition dis04 : list (N * list N * list note) :=
  [(0x10000670, [0x40e20004], [NNode 0x00; NTerm 0x00 0x80]) (* bne+ 0000000010000674 *);
   (0x10000674, [0x40c20004], [NNode 0x00; NTerm 0x00 0x80]) (* bne- 0000000010000678 *);
   (0x10000678, [0x40820004], [NNode 0x00; NTerm 0x00 0x80]) (* bne 000000001000067c *);
   (0x1000067c, [0x60000000], []) (* nop *);
   (0x10000680, [0x60000000], []) (* nop *);
   (0x10000684, [0x40e10004], [NNode 0x00; NTerm 0x00 0x80]) (* ble+ 0000000010000688 *);
   (0x10000688, [0x40c10004], [NNode 0x00; NTerm 0x00 0x80]) (* ble- 000000001000068c *);
   (0x1000068c, [0x40810004], [NNode 0x00; NTerm 0x00 0x80]) (* ble 0000000010000690 *);
   (0x10000690, [0x60000000], []) (* nop *);
   (0x10000694, [0x60000000], []) (* nop *);
   (0x10000698, [0x41e10004], [NNode 0x00; NTerm 0x00 0x80]) (* bgt+ 000000001000069c *);
   (0x1000069c, [0x41c10004], [NNode 0x00; NTerm 0x00 0x80]) (* bgt- 00000000100006a0 *);
   (0x100006a0, [0x41810004], [NNode 0x00; NTerm 0x00 0x80]) (* bgt 00000000100006a4 *);
   (0x100006a4, [0x60000000], []) (* nop *);
   (0x100006a8, [0x60000000], []) (* nop *);
   (0x100006ac, [0x41e30004], [NNode 0x00; NTerm 0x00 0x80]) (* bso+ 00000000100006b0 *);
   (0x100006b0, [0x41c30004], [NNode 0x00; NTerm 0x00 0x80]) (* bso- 00000000100006b4 *);
   (0x100006b4, [0x41830004], [NNode 0x00; NTerm 0x00 0x80]) (* bso 00000000100006b8 *);
   (0x100006b8, [0x60000000], []) (* nop *);
   (0x100006bc, [0x60000000], []) (* nop *);
   (0x100006c0, [0x38600000], []) (* li r3,0 *);
   (0x100006c4, [0x7c6ff120], []) (* mtcr r3 *);
   (0x100006c8, [0x4de20020], [NNode 0x00; NTerm 0x00 0x80]) (* beqlr+ *);
   (0x100006cc, [0x4dc20020], [NNode 0x00; NTerm 0x00 0x80]) (* beqlr- *);
   (0x100006d0, [0x4d820020], [NNode 0x00; NTerm 0x00 0x80]) (* beqlr *);
   (0x100006d4, [0x4de20420], [NNode 0x00; NTerm 0x00 0x80]) (* beqctr+ *);
   (0x100006d8, [0x4dc20420], [NNode 0x00; NTerm 0x00 0x80]) (* beqctr- *);
   (0x100006dc, [0x4d820420], [NNode 0x00; NTerm 0x00 0x80]) (* beqctr *);
   (0x100006e0, [0x3c600000], []) (* lis r3,0 *);
   (0x100006e4, [0x60630000], []) (* ori r3,r3,0 *);
   (0x100006e8, [0x786307c6], []) (* rldicr r3,r3,32,31 *);
   (0x100006ec, [0x64631000], []) (* oris r3,r3,4096 *);
   (0x100006f0, [0x606306fc], []) (* ori r3,r3,1788 *);
   (0x100006f4, [0x7c6903a6], []) (* mtctr r3 *);
   (0x100006f8, [0x4e800420], [NNode 0x00; NTerm 0x00 0x08]) (* bctr *);
   (0x100006fc, [0x38600fff], []) (* li r3,4095 *);
   (0x10000700, [0x7c6903a6], []) (* mtctr r3 *);
   (0x10000704, [0x4f600020], [NNode 0x00; NTerm 0x00 0x80]) (* bdzlr+ *);
   (0x10000708, [0x4f400020], [NNode 0x00; NTerm 0x00 0x80]) (* bdzlr- *);
   (0x1000070c, [0x4e400020], [NNode 0x00; NTerm 0x00 0x80]) (* bdzlr *);
   (0x10000710, [0x3c60ffff], []) (* lis r3,-1 *);
   (0x10000714, [0x6063ffff], []) (* ori r3,r3,65535 *);
   (0x10000718, [0x786307c6], []) (* rldicr r3,r3,32,31 *);
   (0x1000071c, [0x6463ffff], []) (* oris r3,r3,65535 *);
   (0x10000720, [0x6063ffff], []) (* ori r3,r3,65535 *);
   (0x10000724, [0x7c6ff120], []) (* mtcr r3 *);
   (0x10000728, [0x4ce20460], [NNode 0x00; NTerm 0x00 0x80]) (* bnetar+ *);
   (0x1000072c, [0x4cc20460], [NNode 0x00; NTerm 0x00 0x80]) (* bnetar- *);
   (0x10000730, [0x4c820460], [NNode 0x00; NTerm 0x00 0x80]) (* bnetar *)].
