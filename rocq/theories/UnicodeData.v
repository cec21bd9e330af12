(** Data of include/unicode-db/unicode-db.hpp, copied from the file by a script: every table of the
    header, in the order of the file, with the lines it stands on. Code points and flags of the packed
    tables are kept packed as in the header ([code point << 8 | value]). *)
From Coq Require Import ZArith List String.
Import ListNotations.
Open Scope Z_scope.

(** unicode-db.hpp lines 219-235: [bool_trie] with its template parameters. [t_rNs] are the sizes
    [r1_s .. r6_s], [t_rNf] the offsets [r2_t_f], [r4_t_f], [r5_t_f]; [r2_t_b], [r4_t_b] and [r5_t_b]
    are not read by any function. *)
Record bool_trie := mkTrie {
  t_r1s : Z; t_r2s : Z; t_r2f : Z; t_r3s : Z; t_r4s : Z; t_r4f : Z; t_r5s : Z; t_r5f : Z; t_r6s : Z;
  t_r1 : list Z; t_r2 : list Z; t_r3 : list Z; t_r4 : list Z; t_r5 : list Z; t_r6 : list Z
}.

(** unicode-db.hpp lines 1285-1620. *)
Definition age_data : list Z :=
  [0x00000001; 0x0001f604; 0x0001fa01; 0x00021804; 0x00022006; 0x00022107; 0x00022204; 0x00023407; 0x00023708;
   0x00024209; 0x00025001; 0x0002a904; 0x0002ae07; 0x0002b001; 0x0002df04; 0x0002e001; 0x0002ea04; 0x0002ef07;
   0x00030001; 0x00034604; 0x00034f06; 0x00035007; 0x00035808; 0x00035d07; 0x00036001; 0x00036204; 0x00036306;
   0x0003700a; 0x00037401; 0x0003760a; 0x00037800; 0x00037a01; 0x00037b09; 0x00037e01; 0x00037f10; 0x00038000;
   0x00038401; 0x00038b00; 0x00038c01; 0x00038d00; 0x00038e01; 0x0003a200; 0x0003a301; 0x0003cf0a; 0x0003d001;
   0x0003d704; 0x0003d806; 0x0003da01; 0x0003db04; 0x0003dc01; 0x0003dd04; 0x0003de01; 0x0003df04; 0x0003e001;
   0x0003e104; 0x0003e201; 0x0003f405; 0x0003f606; 0x0003f707; 0x0003fc08; 0x00040004; 0x00040101; 0x00040d04;
   0x00040e01; 0x00045004; 0x00045101; 0x00045d04; 0x00045e01; 0x0004870a; 0x00048804; 0x00048a06; 0x00048c04;
   0x00049001; 0x0004c506; 0x0004c701; 0x0004c906; 0x0004cb01; 0x0004cd06; 0x0004cf09; 0x0004d001; 0x0004ec04;
   0x0004ee01; 0x0004f608; 0x0004f801; 0x0004fa09; 0x00050006; 0x00051009; 0x0005140a; 0x0005240b; 0x0005260c;
   0x00052810; 0x00053000; 0x00053101; 0x00055700; 0x00055901; 0x00056014; 0x00056101; 0x00058814; 0x00058901;
   0x00058a04; 0x00058b00; 0x00058d10; 0x00058f0d; 0x00059000; 0x00059102; 0x0005a208; 0x0005a302; 0x0005b001;
   0x0005ba09; 0x0005bb01; 0x0005c402; 0x0005c508; 0x0005c800; 0x0005d001; 0x0005eb00; 0x0005ef14; 0x0005f001;
   0x0005f500; 0x00060007; 0x0006040d; 0x00060510; 0x0006060a; 0x00060b08; 0x00060c01; 0x00060d07; 0x0006160a;
   0x00061b01; 0x00061c0f; 0x00061d18; 0x00061e08; 0x00061f01; 0x0006200c; 0x00062101; 0x00063b0a; 0x00064001;
   0x00065304; 0x00065607; 0x00065908; 0x00065f0c; 0x00066001; 0x00066e06; 0x00067001; 0x0006b804; 0x0006ba01;
   0x0006bf04; 0x0006c001; 0x0006cf04; 0x0006d001; 0x0006ee07; 0x0006f001; 0x0006fa04; 0x0006ff07; 0x00070004;
   0x00070e00; 0x00070f04; 0x00072d07; 0x00073004; 0x00074b00; 0x00074d07; 0x00075008; 0x00076e0a; 0x00078004;
   0x0007b106; 0x0007b200; 0x0007c009; 0x0007fb00; 0x0007fd14; 0x0008000b; 0x00082e00; 0x0008300b; 0x00083f00;
   0x0008400c; 0x00085c00; 0x00085e0c; 0x00085f00; 0x00086013; 0x00086b00; 0x00087018; 0x00088f00; 0x00089018;
   0x00089200; 0x00089818; 0x0008a00d; 0x0008a110; 0x0008a20d; 0x0008ad10; 0x0008b311; 0x0008b518; 0x0008b612;
   0x0008be17; 0x0008c818; 0x0008d314; 0x0008d412; 0x0008e311; 0x0008e40d; 0x0008ff10; 0x0009000b; 0x00090101;
   0x00090407; 0x00090501; 0x00093a0c; 0x00093c01; 0x00094e0b; 0x00094f0c; 0x00095001; 0x0009550b; 0x0009560c;
   0x00095801; 0x0009710a; 0x0009730c; 0x00097810; 0x0009790b; 0x00097b09; 0x00097d08; 0x00097e09; 0x00098010;
   0x00098101; 0x00098400; 0x00098501; 0x00098d00; 0x00098f01; 0x00099100; 0x00099301; 0x0009a900; 0x0009aa01;
   0x0009b100; 0x0009b201; 0x0009b300; 0x0009b601; 0x0009ba00; 0x0009bc01; 0x0009bd07; 0x0009be01; 0x0009c500;
   0x0009c701; 0x0009c900; 0x0009cb01; 0x0009ce08; 0x0009cf00; 0x0009d701; 0x0009d800; 0x0009dc01; 0x0009de00;
   0x0009df01; 0x0009e400; 0x0009e601; 0x0009fb0b; 0x0009fc13; 0x0009fe14; 0x0009ff00; 0x000a0107; 0x000a0201;
   0x000a0307; 0x000a0400; 0x000a0501; 0x000a0b00; 0x000a0f01; 0x000a1100; 0x000a1301; 0x000a2900; 0x000a2a01;
   0x000a3100; 0x000a3201; 0x000a3400; 0x000a3501; 0x000a3700; 0x000a3801; 0x000a3a00; 0x000a3c01; 0x000a3d00;
   0x000a3e01; 0x000a4300; 0x000a4701; 0x000a4900; 0x000a4b01; 0x000a4e00; 0x000a510a; 0x000a5200; 0x000a5901;
   0x000a5d00; 0x000a5e01; 0x000a5f00; 0x000a6601; 0x000a750a; 0x000a7614; 0x000a7700; 0x000a8101; 0x000a8400;
   0x000a8501; 0x000a8c07; 0x000a8d01; 0x000a8e00; 0x000a8f01; 0x000a9200; 0x000a9301; 0x000aa900; 0x000aaa01;
   0x000ab100; 0x000ab201; 0x000ab400; 0x000ab501; 0x000aba00; 0x000abc01; 0x000ac600; 0x000ac701; 0x000aca00;
   0x000acb01; 0x000ace00; 0x000ad001; 0x000ad100; 0x000ae001; 0x000ae107; 0x000ae400; 0x000ae601; 0x000af00d;
   0x000af107; 0x000af200; 0x000af911; 0x000afa13; 0x000b0000; 0x000b0101; 0x000b0400; 0x000b0501; 0x000b0d00;
   0x000b0f01; 0x000b1100; 0x000b1301; 0x000b2900; 0x000b2a01; 0x000b3100; 0x000b3201; 0x000b3400; 0x000b3507;
   0x000b3601; 0x000b3a00; 0x000b3c01; 0x000b440a; 0x000b4500; 0x000b4701; 0x000b4900; 0x000b4b01; 0x000b4e00;
   0x000b5517; 0x000b5601; 0x000b5800; 0x000b5c01; 0x000b5e00; 0x000b5f01; 0x000b620a; 0x000b6400; 0x000b6601;
   0x000b7107; 0x000b720c; 0x000b7800; 0x000b8201; 0x000b8400; 0x000b8501; 0x000b8b00; 0x000b8e01; 0x000b9100;
   0x000b9201; 0x000b9600; 0x000b9901; 0x000b9b00; 0x000b9c01; 0x000b9d00; 0x000b9e01; 0x000ba000; 0x000ba301;
   0x000ba500; 0x000ba801; 0x000bab00; 0x000bae01; 0x000bb608; 0x000bb701; 0x000bba00; 0x000bbe01; 0x000bc300;
   0x000bc601; 0x000bc900; 0x000bca01; 0x000bce00; 0x000bd00a; 0x000bd100; 0x000bd701; 0x000bd800; 0x000be608;
   0x000be701; 0x000bf307; 0x000bfb00; 0x000c0010; 0x000c0101; 0x000c0414; 0x000c0501; 0x000c0d00; 0x000c0e01;
   0x000c1100; 0x000c1201; 0x000c2900; 0x000c2a01; 0x000c3410; 0x000c3501; 0x000c3a00; 0x000c3c18; 0x000c3d0a;
   0x000c3e01; 0x000c4500; 0x000c4601; 0x000c4900; 0x000c4a01; 0x000c4e00; 0x000c5501; 0x000c5700; 0x000c580a;
   0x000c5a11; 0x000c5b00; 0x000c5d18; 0x000c5e00; 0x000c6001; 0x000c620a; 0x000c6400; 0x000c6601; 0x000c7000;
   0x000c7715; 0x000c780a; 0x000c8012; 0x000c8110; 0x000c8201; 0x000c8414; 0x000c8501; 0x000c8d00; 0x000c8e01;
   0x000c9100; 0x000c9201; 0x000ca900; 0x000caa01; 0x000cb400; 0x000cb501; 0x000cba00; 0x000cbc07; 0x000cbe01;
   0x000cc500; 0x000cc601; 0x000cc900; 0x000cca01; 0x000cce00; 0x000cd501; 0x000cd700; 0x000cdd18; 0x000cde01;
   0x000cdf00; 0x000ce001; 0x000ce209; 0x000ce400; 0x000ce601; 0x000cf000; 0x000cf109; 0x000cf300; 0x000d0013;
   0x000d0110; 0x000d0201; 0x000d0417; 0x000d0501; 0x000d0d00; 0x000d0e01; 0x000d1100; 0x000d1201; 0x000d290c;
   0x000d2a01; 0x000d3a0c; 0x000d3b13; 0x000d3d0a; 0x000d3e01; 0x000d440a; 0x000d4500; 0x000d4601; 0x000d4900;
   0x000d4a01; 0x000d4e0c; 0x000d4f12; 0x000d5000; 0x000d5412; 0x000d5701; 0x000d5812; 0x000d5f11; 0x000d6001;
   0x000d620a; 0x000d6400; 0x000d6601; 0x000d700a; 0x000d7612; 0x000d790a; 0x000d8000; 0x000d8117; 0x000d8204;
   0x000d8400; 0x000d8504; 0x000d9700; 0x000d9a04; 0x000db200; 0x000db304; 0x000dbc00; 0x000dbd04; 0x000dbe00;
   0x000dc004; 0x000dc700; 0x000dca04; 0x000dcb00; 0x000dcf04; 0x000dd500; 0x000dd604; 0x000dd700; 0x000dd804;
   0x000de000; 0x000de610; 0x000df000; 0x000df204; 0x000df500; 0x000e0101; 0x000e3b00; 0x000e3f01; 0x000e5c00;
   0x000e8101; 0x000e8300; 0x000e8401; 0x000e8500; 0x000e8615; 0x000e8701; 0x000e8915; 0x000e8a01; 0x000e8b00;
   0x000e8c15; 0x000e8d01; 0x000e8e15; 0x000e9401; 0x000e9815; 0x000e9901; 0x000ea015; 0x000ea101; 0x000ea400;
   0x000ea501; 0x000ea600; 0x000ea701; 0x000ea815; 0x000eaa01; 0x000eac15; 0x000ead01; 0x000eba15; 0x000ebb01;
   0x000ebe00; 0x000ec001; 0x000ec500; 0x000ec601; 0x000ec700; 0x000ec801; 0x000ece00; 0x000ed001; 0x000eda00;
   0x000edc01; 0x000ede0d; 0x000ee000; 0x000f0002; 0x000f4800; 0x000f4902; 0x000f6a04; 0x000f6b0a; 0x000f6d00;
   0x000f7102; 0x000f8c0c; 0x000f9002; 0x000f9604; 0x000f9702; 0x000f9800; 0x000f9902; 0x000fae04; 0x000fb102;
   0x000fb804; 0x000fb902; 0x000fba04; 0x000fbd00; 0x000fbe04; 0x000fcd00; 0x000fce0a; 0x000fcf04; 0x000fd008;
   0x000fd20a; 0x000fd50b; 0x000fd90c; 0x000fdb00; 0x00100004; 0x0010220a; 0x00102304; 0x0010280a; 0x00102904;
   0x00102b0a; 0x00102c04; 0x0010330a; 0x00103604; 0x00103a0a; 0x00104004; 0x00105a0a; 0x00109a0b; 0x00109e0a;
   0x0010a001; 0x0010c600; 0x0010c70d; 0x0010c800; 0x0010cd0d; 0x0010ce00; 0x0010d001; 0x0010f706; 0x0010f908;
   0x0010fb01; 0x0010fc08; 0x0010fd0d; 0x00110001; 0x00115a0b; 0x00115f01; 0x0011a30b; 0x0011a801; 0x0011fa0b;
   0x00120004; 0x00120708; 0x00120804; 0x00124708; 0x00124804; 0x00124900; 0x00124a04; 0x00124e00; 0x00125004;
   0x00125700; 0x00125804; 0x00125900; 0x00125a04; 0x00125e00; 0x00126004; 0x00128708; 0x00128804; 0x00128900;
   0x00128a04; 0x00128e00; 0x00129004; 0x0012af08; 0x0012b004; 0x0012b100; 0x0012b204; 0x0012b600; 0x0012b804;
   0x0012bf00; 0x0012c004; 0x0012c100; 0x0012c204; 0x0012c600; 0x0012c804; 0x0012cf08; 0x0012d004; 0x0012d700;
   0x0012d804; 0x0012ef08; 0x0012f004; 0x00130f08; 0x00131004; 0x00131100; 0x00131204; 0x00131600; 0x00131804;
   0x00131f08; 0x00132004; 0x00134708; 0x00134804; 0x00135b00; 0x00135d0c; 0x00135f08; 0x00136104; 0x00137d00;
   0x00138008; 0x00139a00; 0x0013a004; 0x0013f511; 0x0013f600; 0x0013f811; 0x0013fe00; 0x0014000b; 0x00140104;
   0x0016770b; 0x00168004; 0x00169d00; 0x0016a004; 0x0016f110; 0x0016f900; 0x00170006; 0x00170d18; 0x00170e06;
   0x00171518; 0x00171600; 0x00171f18; 0x00172006; 0x00173700; 0x00174006; 0x00175400; 0x00176006; 0x00176d00;
   0x00176e06; 0x00177100; 0x00177206; 0x00177400; 0x00178004; 0x0017dd07; 0x0017de00; 0x0017e004; 0x0017ea00;
   0x0017f007; 0x0017fa00; 0x00180004; 0x00180f18; 0x00181004; 0x00181a00; 0x00182004; 0x00187814; 0x00187900;
   0x00188004; 0x0018aa0a; 0x0018ab00; 0x0018b00b; 0x0018f600; 0x00190007; 0x00191d10; 0x00191f00; 0x00192007;
   0x00192c00; 0x00193007; 0x00193c00; 0x00194007; 0x00194100; 0x00194407; 0x00196e00; 0x00197007; 0x00197500;
   0x00198008; 0x0019aa0b; 0x0019ac00; 0x0019b008; 0x0019ca00; 0x0019d008; 0x0019da0b; 0x0019db00; 0x0019de08;
   0x0019e007; 0x001a0008; 0x001a1c00; 0x001a1e08; 0x001a200b; 0x001a5f00; 0x001a600b; 0x001a7d00; 0x001a7f0b;
   0x001a8a00; 0x001a900b; 0x001a9a00; 0x001aa00b; 0x001aae00; 0x001ab010; 0x001abf17; 0x001ac118; 0x001acf00;
   0x001b0009; 0x001b4c18; 0x001b4d00; 0x001b5009; 0x001b7d18; 0x001b7f00; 0x001b800a; 0x001bab0d; 0x001bae0a;
   0x001bba0d; 0x001bc00c; 0x001bf400; 0x001bfc0c; 0x001c000a; 0x001c3800; 0x001c3b0a; 0x001c4a00; 0x001c4d0a;
   0x001c8012; 0x001c8900; 0x001c9014; 0x001cbb00; 0x001cbd14; 0x001cc00d; 0x001cc800; 0x001cd00b; 0x001cf30d;
   0x001cf713; 0x001cf810; 0x001cfa15; 0x001cfb00; 0x001d0007; 0x001d6c08; 0x001dc409; 0x001dcb0a; 0x001de710;
   0x001df613; 0x001dfa18; 0x001dfb12; 0x001dfc0c; 0x001dfd0b; 0x001dfe09; 0x001e0001; 0x001e9b02; 0x001e9c0a;
   0x001ea001; 0x001efa0a; 0x001f0001; 0x001f1600; 0x001f1801; 0x001f1e00; 0x001f2001; 0x001f4600; 0x001f4801;
   0x001f4e00; 0x001f5001; 0x001f5800; 0x001f5901; 0x001f5a00; 0x001f5b01; 0x001f5c00; 0x001f5d01; 0x001f5e00;
   0x001f5f01; 0x001f7e00; 0x001f8001; 0x001fb500; 0x001fb601; 0x001fc500; 0x001fc601; 0x001fd400; 0x001fd601;
   0x001fdc00; 0x001fdd01; 0x001ff000; 0x001ff201; 0x001ff500; 0x001ff601; 0x001fff00; 0x00200001; 0x00202f04;
   0x00203001; 0x00204706; 0x00204804; 0x00204e06; 0x00205307; 0x00205508; 0x00205706; 0x00205808; 0x00205f06;
   0x0020640a; 0x00206500; 0x0020660f; 0x00206a01; 0x00207106; 0x00207200; 0x00207401; 0x00208f00; 0x00209008;
   0x0020950c; 0x00209d00; 0x0020a001; 0x0020ab02; 0x0020ac03; 0x0020ad04; 0x0020b006; 0x0020b208; 0x0020b60b;
   0x0020b90c; 0x0020ba0e; 0x0020bb10; 0x0020be11; 0x0020bf13; 0x0020c018; 0x0020c100; 0x0020d001; 0x0020e204;
   0x0020e406; 0x0020eb08; 0x0020ec09; 0x0020f00a; 0x0020f100; 0x00210001; 0x00213904; 0x00213b07; 0x00213c08;
   0x00213d06; 0x00214c08; 0x00214d09; 0x00214f0a; 0x0021500b; 0x00215301; 0x00218304; 0x00218409; 0x0021850a;
   0x0021890b; 0x00218a11; 0x00218c00; 0x00219001; 0x0021eb04; 0x0021f406; 0x00220001; 0x0022f206; 0x00230001;
   0x00230104; 0x00230201; 0x00237b04; 0x00237c06; 0x00237d04; 0x00239b06; 0x0023cf07; 0x0023d108; 0x0023dc09;
   0x0023e80b; 0x0023e90c; 0x0023f410; 0x0023fb12; 0x0023ff13; 0x00240001; 0x00242504; 0x00242700; 0x00244001;
   0x00244b00; 0x00246001; 0x0024eb06; 0x0024ff07; 0x00250001; 0x00259606; 0x0025a001; 0x0025f004; 0x0025f806;
   0x00260001; 0x00261407; 0x00261606; 0x00261808; 0x00261904; 0x00261a01; 0x00267004; 0x00267206; 0x00267e08;
   0x00268006; 0x00268a07; 0x00269208; 0x00269d0a; 0x00269e0b; 0x0026a007; 0x0026a208; 0x0026b209; 0x0026b30a;
   0x0026bd0b; 0x0026c00a; 0x0026c40b; 0x0026ce0c; 0x0026cf0b; 0x0026e20c; 0x0026e30b; 0x0026e40c; 0x0026e80b;
   0x00270010; 0x00270101; 0x0027050c; 0x00270601; 0x00270a0c; 0x00270c01; 0x0027280c; 0x00272901; 0x00274c0c;
   0x00274d01; 0x00274e0c; 0x00274f01; 0x0027530c; 0x00275601; 0x0027570b; 0x00275801; 0x00275f0c; 0x00276101;
   0x00276806; 0x00277601; 0x0027950c; 0x00279801; 0x0027b00c; 0x0027b101; 0x0027bf0c; 0x0027c008; 0x0027c709;
   0x0027cb0d; 0x0027cc0a; 0x0027cd0d; 0x0027ce0c; 0x0027d006; 0x0027ec0a; 0x0027f006; 0x00280004; 0x00290006;
   0x002b0007; 0x002b0e08; 0x002b1409; 0x002b1b0a; 0x002b2009; 0x002b240a; 0x002b4d10; 0x002b500a; 0x002b550b;
   0x002b5a10; 0x002b7400; 0x002b7610; 0x002b9600; 0x002b9717; 0x002b9810; 0x002bba14; 0x002bbd10; 0x002bc915;
   0x002bca10; 0x002bd213; 0x002bd314; 0x002bec11; 0x002bf014; 0x002bff15; 0x002c0008; 0x002c2f18; 0x002c3008;
   0x002c5f18; 0x002c6009; 0x002c6d0a; 0x002c700b; 0x002c710a; 0x002c7409; 0x002c780a; 0x002c7e0b; 0x002c8008;
   0x002ceb0b; 0x002cf20d; 0x002cf400; 0x002cf908; 0x002d2600; 0x002d270d; 0x002d2800; 0x002d2d0d; 0x002d2e00;
   0x002d3008; 0x002d660d; 0x002d6800; 0x002d6f08; 0x002d700c; 0x002d7100; 0x002d7f0c; 0x002d8008; 0x002d9700;
   0x002da008; 0x002da700; 0x002da808; 0x002daf00; 0x002db008; 0x002db700; 0x002db808; 0x002dbf00; 0x002dc008;
   0x002dc700; 0x002dc808; 0x002dcf00; 0x002dd008; 0x002dd700; 0x002dd808; 0x002ddf00; 0x002de00a; 0x002e0008;
   0x002e180a; 0x002e1c08; 0x002e1e0a; 0x002e310b; 0x002e320d; 0x002e3c10; 0x002e4312; 0x002e4513; 0x002e4a14;
   0x002e4f15; 0x002e5017; 0x002e5318; 0x002e5e00; 0x002e8004; 0x002e9a00; 0x002e9b04; 0x002ef400; 0x002f0004;
   0x002fd600; 0x002ff004; 0x002ffc00; 0x00300001; 0x00303804; 0x00303b06; 0x00303e04; 0x00303f01; 0x00304000;
   0x00304101; 0x00309506; 0x00309700; 0x00309901; 0x00309f06; 0x0030a101; 0x0030ff06; 0x00310000; 0x00310501;
   0x00312d0a; 0x00312e13; 0x00312f14; 0x00313000; 0x00313101; 0x00318f00; 0x00319001; 0x0031a004; 0x0031b80c;
   0x0031bb17; 0x0031c008; 0x0031d00a; 0x0031e400; 0x0031f006; 0x00320001; 0x00321d07; 0x00321f00; 0x00322001;
   0x0032440b; 0x00325007; 0x00325106; 0x00326001; 0x00327c07; 0x00327e08; 0x00327f01; 0x0032b106; 0x0032c001;
   0x0032cc07; 0x0032d001; 0x0032ff16; 0x00330001; 0x00337707; 0x00337b01; 0x0033de07; 0x0033e001; 0x0033ff07;
   0x00340004; 0x004db617; 0x004dc007; 0x004e0001; 0x009fa608; 0x009fbc0a; 0x009fc40b; 0x009fcc0d; 0x009fcd11;
   0x009fd613; 0x009feb14; 0x009ff017; 0x009ffd18; 0x00a00004; 0x00a48d00; 0x00a49004; 0x00a4a206; 0x00a4a404;
   0x00a4b406; 0x00a4b504; 0x00a4c106; 0x00a4c204; 0x00a4c506; 0x00a4c604; 0x00a4c700; 0x00a4d00b; 0x00a5000a;
   0x00a62c00; 0x00a6400a; 0x00a6600c; 0x00a6620a; 0x00a6740d; 0x00a67c0a; 0x00a69810; 0x00a69e11; 0x00a69f0d;
   0x00a6a00b; 0x00a6f800; 0x00a70008; 0x00a71709; 0x00a71b0a; 0x00a72009; 0x00a7220a; 0x00a78d0c; 0x00a78f11;
   0x00a7900c; 0x00a7920d; 0x00a79410; 0x00a7a00c; 0x00a7aa0d; 0x00a7ab10; 0x00a7ae12; 0x00a7af14; 0x00a7b010;
   0x00a7b211; 0x00a7b814; 0x00a7ba15; 0x00a7c018; 0x00a7c215; 0x00a7c717; 0x00a7cb00; 0x00a7d018; 0x00a7d200;
   0x00a7d318; 0x00a7d400; 0x00a7d518; 0x00a7da00; 0x00a7f218; 0x00a7f517; 0x00a7f710; 0x00a7f80d; 0x00a7fa0c;
   0x00a7fb0a; 0x00a80008; 0x00a82c17; 0x00a82d00; 0x00a8300b; 0x00a83a00; 0x00a84009; 0x00a87800; 0x00a8800a;
   0x00a8c512; 0x00a8c600; 0x00a8ce0a; 0x00a8da00; 0x00a8e00b; 0x00a8fc11; 0x00a8fe14; 0x00a9000a; 0x00a95400;
   0x00a95f0a; 0x00a9600b; 0x00a97d00; 0x00a9800b; 0x00a9ce00; 0x00a9cf0b; 0x00a9da00; 0x00a9de0b; 0x00a9e010;
   0x00a9ff00; 0x00aa000a; 0x00aa3700; 0x00aa400a; 0x00aa4e00; 0x00aa500a; 0x00aa5a00; 0x00aa5c0a; 0x00aa600b;
   0x00aa7c10; 0x00aa800b; 0x00aac300; 0x00aadb0b; 0x00aae00d; 0x00aaf700; 0x00ab010c; 0x00ab0700; 0x00ab090c;
   0x00ab0f00; 0x00ab110c; 0x00ab1700; 0x00ab200c; 0x00ab2700; 0x00ab280c; 0x00ab2f00; 0x00ab3010; 0x00ab6011;
   0x00ab6410; 0x00ab6615; 0x00ab6817; 0x00ab6c00; 0x00ab7011; 0x00abc00b; 0x00abee00; 0x00abf00b; 0x00abfa00;
   0x00ac0002; 0x00d7a400; 0x00d7b00b; 0x00d7c700; 0x00d7cb0b; 0x00d7fc00; 0x00d80002; 0x00e00001; 0x00fa2e0d;
   0x00fa3006; 0x00fa6b0b; 0x00fa6e00; 0x00fa7008; 0x00fada00; 0x00fb0001; 0x00fb0700; 0x00fb1301; 0x00fb1800;
   0x00fb1d04; 0x00fb1e01; 0x00fb3700; 0x00fb3801; 0x00fb3d00; 0x00fb3e01; 0x00fb3f00; 0x00fb4001; 0x00fb4200;
   0x00fb4301; 0x00fb4500; 0x00fb4601; 0x00fbb20c; 0x00fbc218; 0x00fbc300; 0x00fbd301; 0x00fd4018; 0x00fd5001;
   0x00fd9000; 0x00fd9201; 0x00fdc800; 0x00fdcf18; 0x00fdd000; 0x00fdf001; 0x00fdfc06; 0x00fdfd07; 0x00fdfe18;
   0x00fe0006; 0x00fe1008; 0x00fe1a00; 0x00fe2001; 0x00fe240a; 0x00fe2710; 0x00fe2e11; 0x00fe3001; 0x00fe4506;
   0x00fe4707; 0x00fe4901; 0x00fe5300; 0x00fe5401; 0x00fe6700; 0x00fe6801; 0x00fe6c00; 0x00fe7001; 0x00fe7306;
   0x00fe7401; 0x00fe7500; 0x00fe7601; 0x00fefd00; 0x00feff01; 0x00ff0000; 0x00ff0101; 0x00ff5f06; 0x00ff6101;
   0x00ffbf00; 0x00ffc201; 0x00ffc800; 0x00ffca01; 0x00ffd000; 0x00ffd201; 0x00ffd800; 0x00ffda01; 0x00ffdd00;
   0x00ffe001; 0x00ffe700; 0x00ffe801; 0x00ffef00; 0x00fff904; 0x00fffc03; 0x00fffd01; 0x00fffe00; 0x01000007;
   0x01000c00; 0x01000d07; 0x01002700; 0x01002807; 0x01003b00; 0x01003c07; 0x01003e00; 0x01003f07; 0x01004e00;
   0x01005007; 0x01005e00; 0x01008007; 0x0100fb00; 0x01010007; 0x01010300; 0x01010707; 0x01013400; 0x01013707;
   0x01014008; 0x01018b10; 0x01018d12; 0x01018f00; 0x0101900a; 0x01019c17; 0x01019d00; 0x0101a010; 0x0101a100;
   0x0101d00a; 0x0101fe00; 0x0102800a; 0x01029d00; 0x0102a00a; 0x0102d100; 0x0102e010; 0x0102fc00; 0x01030005;
   0x01031f10; 0x01032005; 0x01032400; 0x01032d13; 0x01033005; 0x01034b00; 0x01035010; 0x01037b00; 0x01038007;
   0x01039e00; 0x01039f07; 0x0103a008; 0x0103c400; 0x0103c808; 0x0103d600; 0x01040005; 0x01042607; 0x01042805;
   0x01044e07; 0x01049e00; 0x0104a007; 0x0104aa00; 0x0104b012; 0x0104d400; 0x0104d812; 0x0104fc00; 0x01050010;
   0x01052800; 0x01053010; 0x01056400; 0x01056f10; 0x01057018; 0x01057b00; 0x01057c18; 0x01058b00; 0x01058c18;
   0x01059300; 0x01059418; 0x01059600; 0x01059718; 0x0105a200; 0x0105a318; 0x0105b200; 0x0105b318; 0x0105ba00;
   0x0105bb18; 0x0105bd00; 0x01060010; 0x01073700; 0x01074010; 0x01075600; 0x01076010; 0x01076800; 0x01078018;
   0x01078600; 0x01078718; 0x0107b100; 0x0107b218; 0x0107bb00; 0x01080007; 0x01080600; 0x01080807; 0x01080900;
   0x01080a07; 0x01083600; 0x01083707; 0x01083900; 0x01083c07; 0x01083d00; 0x01083f07; 0x0108400b; 0x01085600;
   0x0108570b; 0x01086010; 0x01089f00; 0x0108a710; 0x0108b000; 0x0108e011; 0x0108f300; 0x0108f411; 0x0108f600;
   0x0108fb11; 0x01090009; 0x01091a0b; 0x01091c00; 0x01091f09; 0x0109200a; 0x01093a00; 0x01093f0a; 0x01094000;
   0x0109800d; 0x0109b800; 0x0109bc11; 0x0109be0d; 0x0109c011; 0x0109d000; 0x0109d211; 0x010a0008; 0x010a0400;
   0x010a0508; 0x010a0700; 0x010a0c08; 0x010a1400; 0x010a1508; 0x010a1800; 0x010a1908; 0x010a3414; 0x010a3600;
   0x010a3808; 0x010a3b00; 0x010a3f08; 0x010a4814; 0x010a4900; 0x010a5008; 0x010a5900; 0x010a600b; 0x010a8010;
   0x010aa000; 0x010ac010; 0x010ae700; 0x010aeb10; 0x010af700; 0x010b000b; 0x010b3600; 0x010b390b; 0x010b5600;
   0x010b580b; 0x010b7300; 0x010b780b; 0x010b8010; 0x010b9200; 0x010b9910; 0x010b9d00; 0x010ba910; 0x010bb000;
   0x010c000b; 0x010c4900; 0x010c8011; 0x010cb300; 0x010cc011; 0x010cf300; 0x010cfa11; 0x010d0014; 0x010d2800;
   0x010d3014; 0x010d3a00; 0x010e600b; 0x010e7f00; 0x010e8017; 0x010eaa00; 0x010eab17; 0x010eae00; 0x010eb017;
   0x010eb200; 0x010f0014; 0x010f2800; 0x010f3014; 0x010f5a00; 0x010f7018; 0x010f8a00; 0x010fb017; 0x010fcc00;
   0x010fe015; 0x010ff700; 0x0110000c; 0x01104e00; 0x0110520c; 0x01107018; 0x01107600; 0x01107f10; 0x0110800b;
   0x0110c218; 0x0110c300; 0x0110cd14; 0x0110ce00; 0x0110d00d; 0x0110e900; 0x0110f00d; 0x0110fa00; 0x0111000d;
   0x01113500; 0x0111360d; 0x01114414; 0x01114717; 0x01114800; 0x01115010; 0x01117700; 0x0111800d; 0x0111c911;
   0x0111cd10; 0x0111ce17; 0x0111d00d; 0x0111da10; 0x0111db11; 0x0111e000; 0x0111e110; 0x0111f500; 0x01120010;
   0x01121200; 0x01121310; 0x01123e12; 0x01123f00; 0x01128011; 0x01128700; 0x01128811; 0x01128900; 0x01128a11;
   0x01128e00; 0x01128f11; 0x01129e00; 0x01129f11; 0x0112aa00; 0x0112b010; 0x0112eb00; 0x0112f010; 0x0112fa00;
   0x01130011; 0x01130110; 0x01130400; 0x01130510; 0x01130d00; 0x01130f10; 0x01131100; 0x01131310; 0x01132900;
   0x01132a10; 0x01133100; 0x01133210; 0x01133400; 0x01133510; 0x01133a00; 0x01133b14; 0x01133c10; 0x01134500;
   0x01134710; 0x01134900; 0x01134b10; 0x01134e00; 0x01135011; 0x01135100; 0x01135710; 0x01135800; 0x01135d10;
   0x01136400; 0x01136610; 0x01136d00; 0x01137010; 0x01137500; 0x01140012; 0x01145a17; 0x01145b12; 0x01145c00;
   0x01145d12; 0x01145e14; 0x01145f15; 0x01146017; 0x01146200; 0x01148010; 0x0114c800; 0x0114d010; 0x0114da00;
   0x01158010; 0x0115b600; 0x0115b810; 0x0115ca11; 0x0115de00; 0x01160010; 0x01164500; 0x01165010; 0x01165a00;
   0x01166012; 0x01166d00; 0x0116800d; 0x0116b815; 0x0116b918; 0x0116ba00; 0x0116c00d; 0x0116ca00; 0x01170011;
   0x01171a14; 0x01171b00; 0x01171d11; 0x01172c00; 0x01173011; 0x01174018; 0x01174700; 0x01180014; 0x01183c00;
   0x0118a010; 0x0118f300; 0x0118ff10; 0x01190017; 0x01190700; 0x01190917; 0x01190a00; 0x01190c17; 0x01191400;
   0x01191517; 0x01191700; 0x01191817; 0x01193600; 0x01193717; 0x01193900; 0x01193b17; 0x01194700; 0x01195017;
   0x01195a00; 0x0119a015; 0x0119a800; 0x0119aa15; 0x0119d800; 0x0119da15; 0x0119e500; 0x011a0013; 0x011a4800;
   0x011a5013; 0x011a8415; 0x011a8613; 0x011a9d14; 0x011a9e13; 0x011aa300; 0x011ab018; 0x011ac010; 0x011af900;
   0x011c0012; 0x011c0900; 0x011c0a12; 0x011c3700; 0x011c3812; 0x011c4600; 0x011c5012; 0x011c6d00; 0x011c7012;
   0x011c9000; 0x011c9212; 0x011ca800; 0x011ca912; 0x011cb700; 0x011d0013; 0x011d0700; 0x011d0813; 0x011d0a00;
   0x011d0b13; 0x011d3700; 0x011d3a13; 0x011d3b00; 0x011d3c13; 0x011d3e00; 0x011d3f13; 0x011d4800; 0x011d5013;
   0x011d5a00; 0x011d6014; 0x011d6600; 0x011d6714; 0x011d6900; 0x011d6a14; 0x011d8f00; 0x011d9014; 0x011d9200;
   0x011d9314; 0x011d9900; 0x011da014; 0x011daa00; 0x011ee014; 0x011ef900; 0x011fb017; 0x011fb100; 0x011fc015;
   0x011ff200; 0x011fff15; 0x01200009; 0x01236f10; 0x01239911; 0x01239a00; 0x01240009; 0x01246310; 0x01246f00;
   0x01247009; 0x01247410; 0x01247500; 0x01248011; 0x01254400; 0x012f9018; 0x012ff300; 0x0130000b; 0x01342f00;
   0x01343015; 0x01343900; 0x01440011; 0x01464700; 0x0168000c; 0x016a3900; 0x016a4010; 0x016a5f00; 0x016a6010;
   0x016a6a00; 0x016a6e10; 0x016a7018; 0x016abf00; 0x016ac018; 0x016aca00; 0x016ad010; 0x016aee00; 0x016af010;
   0x016af600; 0x016b0010; 0x016b4600; 0x016b5010; 0x016b5a00; 0x016b5b10; 0x016b6200; 0x016b6310; 0x016b7800;
   0x016b7d10; 0x016b9000; 0x016e4014; 0x016e9b00; 0x016f000d; 0x016f4515; 0x016f4b00; 0x016f4f15; 0x016f500d;
   0x016f7f15; 0x016f8800; 0x016f8f0d; 0x016fa000; 0x016fe012; 0x016fe113; 0x016fe215; 0x016fe417; 0x016fe500;
   0x016ff017; 0x016ff200; 0x01700012; 0x0187ed14; 0x0187f215; 0x0187f800; 0x01880012; 0x018af317; 0x018cd600;
   0x018d0017; 0x018d0900; 0x01aff018; 0x01aff400; 0x01aff518; 0x01affc00; 0x01affd18; 0x01afff00; 0x01b0000c;
   0x01b00213; 0x01b11f18; 0x01b12300; 0x01b15015; 0x01b15300; 0x01b16415; 0x01b16800; 0x01b17013; 0x01b2fc00;
   0x01bc0010; 0x01bc6b00; 0x01bc7010; 0x01bc7d00; 0x01bc8010; 0x01bc8900; 0x01bc9010; 0x01bc9a00; 0x01bc9c10;
   0x01bca400; 0x01cf0018; 0x01cf2e00; 0x01cf3018; 0x01cf4700; 0x01cf5018; 0x01cfc400; 0x01d00005; 0x01d0f600;
   0x01d10005; 0x01d12700; 0x01d1290a; 0x01d12a05; 0x01d1de11; 0x01d1e918; 0x01d1eb00; 0x01d20008; 0x01d24600;
   0x01d2e014; 0x01d2f400; 0x01d30007; 0x01d35700; 0x01d36009; 0x01d37214; 0x01d37900; 0x01d40005; 0x01d45500;
   0x01d45605; 0x01d49d00; 0x01d49e05; 0x01d4a000; 0x01d4a205; 0x01d4a300; 0x01d4a505; 0x01d4a700; 0x01d4a905;
   0x01d4ad00; 0x01d4ae05; 0x01d4ba00; 0x01d4bb05; 0x01d4bc00; 0x01d4bd05; 0x01d4c107; 0x01d4c205; 0x01d4c400;
   0x01d4c505; 0x01d50600; 0x01d50705; 0x01d50b00; 0x01d50d05; 0x01d51500; 0x01d51605; 0x01d51d00; 0x01d51e05;
   0x01d53a00; 0x01d53b05; 0x01d53f00; 0x01d54005; 0x01d54500; 0x01d54605; 0x01d54700; 0x01d54a05; 0x01d55100;
   0x01d55205; 0x01d6a408; 0x01d6a600; 0x01d6a805; 0x01d7ca09; 0x01d7cc00; 0x01d7ce05; 0x01d80011; 0x01da8c00;
   0x01da9b11; 0x01daa000; 0x01daa111; 0x01dab000; 0x01df0018; 0x01df1f00; 0x01e00012; 0x01e00700; 0x01e00812;
   0x01e01900; 0x01e01b12; 0x01e02200; 0x01e02312; 0x01e02500; 0x01e02612; 0x01e02b00; 0x01e10015; 0x01e12d00;
   0x01e13015; 0x01e13e00; 0x01e14015; 0x01e14a00; 0x01e14e15; 0x01e15000; 0x01e29018; 0x01e2af00; 0x01e2c015;
   0x01e2fa00; 0x01e2ff15; 0x01e30000; 0x01e7e018; 0x01e7e700; 0x01e7e818; 0x01e7ec00; 0x01e7ed18; 0x01e7ef00;
   0x01e7f018; 0x01e7ff00; 0x01e80010; 0x01e8c500; 0x01e8c710; 0x01e8d700; 0x01e90012; 0x01e94b15; 0x01e94c00;
   0x01e95012; 0x01e95a00; 0x01e95e12; 0x01e96000; 0x01ec7114; 0x01ecb500; 0x01ed0115; 0x01ed3e00; 0x01ee000d;
   0x01ee0400; 0x01ee050d; 0x01ee2000; 0x01ee210d; 0x01ee2300; 0x01ee240d; 0x01ee2500; 0x01ee270d; 0x01ee2800;
   0x01ee290d; 0x01ee3300; 0x01ee340d; 0x01ee3800; 0x01ee390d; 0x01ee3a00; 0x01ee3b0d; 0x01ee3c00; 0x01ee420d;
   0x01ee4300; 0x01ee470d; 0x01ee4800; 0x01ee490d; 0x01ee4a00; 0x01ee4b0d; 0x01ee4c00; 0x01ee4d0d; 0x01ee5000;
   0x01ee510d; 0x01ee5300; 0x01ee540d; 0x01ee5500; 0x01ee570d; 0x01ee5800; 0x01ee590d; 0x01ee5a00; 0x01ee5b0d;
   0x01ee5c00; 0x01ee5d0d; 0x01ee5e00; 0x01ee5f0d; 0x01ee6000; 0x01ee610d; 0x01ee6300; 0x01ee640d; 0x01ee6500;
   0x01ee670d; 0x01ee6b00; 0x01ee6c0d; 0x01ee7300; 0x01ee740d; 0x01ee7800; 0x01ee790d; 0x01ee7d00; 0x01ee7e0d;
   0x01ee7f00; 0x01ee800d; 0x01ee8a00; 0x01ee8b0d; 0x01ee9c00; 0x01eea10d; 0x01eea400; 0x01eea50d; 0x01eeaa00;
   0x01eeab0d; 0x01eebc00; 0x01eef00d; 0x01eef200; 0x01f0000a; 0x01f02c00; 0x01f0300a; 0x01f09400; 0x01f0a00c;
   0x01f0af00; 0x01f0b10c; 0x01f0bf10; 0x01f0c000; 0x01f0c10c; 0x01f0d000; 0x01f0d10c; 0x01f0e010; 0x01f0f600;
   0x01f1000b; 0x01f10b10; 0x01f10d17; 0x01f1100b; 0x01f12f14; 0x01f1300c; 0x01f1310b; 0x01f1320c; 0x01f13d0b;
   0x01f13e0c; 0x01f13f0b; 0x01f1400c; 0x01f1420b; 0x01f1430c; 0x01f1460b; 0x01f1470c; 0x01f14a0b; 0x01f14f0c;
   0x01f1570b; 0x01f1580c; 0x01f15f0b; 0x01f1600c; 0x01f16a0d; 0x01f16c15; 0x01f16d17; 0x01f1700c; 0x01f1790b;
   0x01f17a0c; 0x01f17b0b; 0x01f17d0c; 0x01f17f0b; 0x01f1800c; 0x01f18a0b; 0x01f18e0c; 0x01f1900b; 0x01f1910c;
   0x01f19b12; 0x01f1ad17; 0x01f1ae00; 0x01f1e60c; 0x01f2000b; 0x01f2010c; 0x01f20300; 0x01f2100b; 0x01f2320c;
   0x01f23b12; 0x01f23c00; 0x01f2400b; 0x01f24900; 0x01f2500c; 0x01f25200; 0x01f26013; 0x01f26600; 0x01f3000c;
   0x01f32110; 0x01f32d11; 0x01f3300c; 0x01f33610; 0x01f3370c; 0x01f37d10; 0x01f37e11; 0x01f3800c; 0x01f39410;
   0x01f3a00c; 0x01f3c510; 0x01f3c60c; 0x01f3cb10; 0x01f3cf11; 0x01f3d410; 0x01f3e00c; 0x01f3f110; 0x01f3f811;
   0x01f4000c; 0x01f43f10; 0x01f4400c; 0x01f44110; 0x01f4420c; 0x01f4f810; 0x01f4f90c; 0x01f4fd10; 0x01f4ff11;
   0x01f5000c; 0x01f53e10; 0x01f5400d; 0x01f54410; 0x01f54b11; 0x01f5500c; 0x01f56810; 0x01f57a12; 0x01f57b10;
   0x01f5a412; 0x01f5a510; 0x01f5fb0c; 0x01f6000d; 0x01f6010c; 0x01f6110d; 0x01f6120c; 0x01f6150d; 0x01f6160c;
   0x01f6170d; 0x01f6180c; 0x01f6190d; 0x01f61a0c; 0x01f61b0d; 0x01f61c0c; 0x01f61f0d; 0x01f6200c; 0x01f6260d;
   0x01f6280c; 0x01f62c0d; 0x01f62d0c; 0x01f62e0d; 0x01f6300c; 0x01f6340d; 0x01f6350c; 0x01f64110; 0x01f64311;
   0x01f6450c; 0x01f65010; 0x01f6800c; 0x01f6c610; 0x01f6d011; 0x01f6d112; 0x01f6d313; 0x01f6d515; 0x01f6d617;
   0x01f6d800; 0x01f6dd18; 0x01f6e010; 0x01f6ed00; 0x01f6f010; 0x01f6f412; 0x01f6f713; 0x01f6f914; 0x01f6fa15;
   0x01f6fb17; 0x01f6fd00; 0x01f7000c; 0x01f77400; 0x01f78010; 0x01f7d514; 0x01f7d900; 0x01f7e015; 0x01f7ec00;
   0x01f7f018; 0x01f7f100; 0x01f80010; 0x01f80c00; 0x01f81010; 0x01f84800; 0x01f85010; 0x01f85a00; 0x01f86010;
   0x01f88800; 0x01f89010; 0x01f8ae00; 0x01f8b017; 0x01f8b200; 0x01f90013; 0x01f90c17; 0x01f90d15; 0x01f91011;
   0x01f91912; 0x01f91f13; 0x01f92012; 0x01f92813; 0x01f93012; 0x01f93113; 0x01f93312; 0x01f93f15; 0x01f94012;
   0x01f94c13; 0x01f94d14; 0x01f95012; 0x01f95f13; 0x01f96c14; 0x01f97115; 0x01f97217; 0x01f97314; 0x01f97717;
   0x01f97918; 0x01f97a14; 0x01f97b15; 0x01f97c14; 0x01f98011; 0x01f98512; 0x01f99213; 0x01f99814; 0x01f9a317;
   0x01f9a515; 0x01f9ab17; 0x01f9ae15; 0x01f9b014; 0x01f9ba15; 0x01f9c011; 0x01f9c114; 0x01f9c315; 0x01f9cb17;
   0x01f9cc18; 0x01f9cd15; 0x01f9d013; 0x01f9e714; 0x01fa0015; 0x01fa5400; 0x01fa6014; 0x01fa6e00; 0x01fa7015;
   0x01fa7417; 0x01fa7500; 0x01fa7815; 0x01fa7b18; 0x01fa7d00; 0x01fa8015; 0x01fa8317; 0x01fa8700; 0x01fa9015;
   0x01fa9617; 0x01faa918; 0x01faad00; 0x01fab017; 0x01fab718; 0x01fabb00; 0x01fac017; 0x01fac318; 0x01fac600;
   0x01fad017; 0x01fad718; 0x01fada00; 0x01fae018; 0x01fae800; 0x01faf018; 0x01faf700; 0x01fb0017; 0x01fb9300;
   0x01fb9417; 0x01fbcb00; 0x01fbf017; 0x01fbfa00; 0x02000005; 0x02a6d717; 0x02a6de18; 0x02a6e000; 0x02a7000b;
   0x02b73518; 0x02b73900; 0x02b7400c; 0x02b81e00; 0x02b82011; 0x02cea200; 0x02ceb013; 0x02ebe100; 0x02f80005;
   0x02fa1e00; 0x03000017; 0x03134b00; 0x0e000105; 0x0e000200; 0x0e002005; 0x0e008000; 0x0e010007; 0x0e01f000;
   0x0f000002; 0x0ffffe00; 0x10000002; 0x10fffe00; 0xffffffff].
(** unicode-db.hpp lines 1698-1698. *)
Definition cat_cc : list Z :=
  [0x00000001; 0x00002000; 0x00007f01; 0x0000a000].
(** unicode-db.hpp lines 1699-1702. *)
Definition cat_zs : list Z :=
  [0x00000000; 0x00002001; 0x00002100; 0x0000a001; 0x0000a100; 0x00168001; 0x00168100; 0x00200001; 0x00200b00;
   0x00202f01; 0x00203000; 0x00205f01; 0x00206000; 0x00300001; 0x00300100].
(** unicode-db.hpp lines 1703-1807. *)
Definition cat_po : bool_trie := mkTrie 32 991 1 51 255 1 482 4 43
  [0x8c00d4ee00000000; 0x0000000010000001; 0x80c0008200000000; 0x0000000000000000; 0x0000000000000000;
   0x0000000000000000; 0x0000000000000000; 0x0000000000000000; 0x0000000000000000; 0x0000000000000000;
   0x0000000000000000; 0x0000000000000000; 0x0000000000000000; 0x4000000000000000; 0x0000000000000080;
   0x0000000000000000; 0x0000000000000000; 0x0000000000000000; 0x0000000000000000; 0x0000000000000000;
   0x0000000000000000; 0x00000000fc000000; 0x0000000000000200; 0x0018000000000049; 0x00000000e8003600;
   0x00003c0000000000; 0x0000000000000000; 0x0000000000100000; 0x0000000000003fff; 0x0000000000000000;
   0x0000000000000000; 0x0380000000000000]
  [1; 2; 2; 2; 3; 2; 4; 2; 5; 2; 6; 2; 2; 2; 2; 2; 7; 8; 2; 2; 2; 2; 9; 2; 10; 2; 2; 11; 2; 12; 13; 2; 14; 2;
   15; 2; 2; 2; 2; 2; 2; 2; 2; 2; 16; 2; 2; 2; 2; 2; 2; 2; 2; 2; 2; 2; 17; 2; 18; 19; 2; 2; 20; 21; 2; 2; 2; 2;
   22; 2; 2; 23; 2; 24; 2; 2; 25; 2; 26; 27; 28; 2; 29; 2; 2; 2; 2; 2; 2; 2; 2; 2; 2; 2; 2; 30; 31; 2; 2; 2; 2;
   2; 2; 2; 2; 2; 2; 2; 2; 2; 2; 2; 2; 2; 2; 2; 2; 2; 2; 2; 2; 2; 2; 2; 2; 2; 2; 2; 2; 2; 2; 2; 2; 2; 2; 2; 2;
   2; 2; 2; 2; 2; 2; 2; 2; 2; 32; 2; 6; 2; 2; 33; 34; 2; 2; 2; 2; 2; 2; 35; 2; 2; 15; 2; 2; 2; 2; 2; 2; 2; 2;
   2; 2; 2; 2; 2; 2; 2; 2; 2; 2; 2; 2; 2; 2; 2; 2; 2; 2; 2; 2; 2; 2; 2; 2; 2; 2; 2; 2; 2; 2; 2; 2; 2; 2; 2; 2;
   2; 2; 2; 2; 2; 2; 2; 2; 2; 2; 2; 2; 2; 2; 2; 2; 2; 2; 2; 2; 2; 2; 2; 2; 2; 2; 2; 2; 2; 2; 2; 2; 2; 2; 2; 2;
   2; 2; 2; 2; 2; 2; 2; 2; 2; 2; 2; 2; 2; 2; 2; 2; 2; 2; 2; 2; 2; 2; 2; 2; 2; 2; 2; 2; 2; 2; 2; 2; 2; 2; 2; 2;
   2; 2; 2; 2; 2; 2; 2; 2; 2; 2; 2; 2; 2; 2; 2; 2; 2; 2; 2; 2; 2; 2; 2; 2; 2; 2; 2; 2; 2; 2; 2; 2; 2; 2; 2; 2;
   2; 2; 2; 2; 2; 2; 2; 2; 2; 2; 2; 2; 2; 2; 2; 2; 2; 2; 2; 2; 2; 2; 2; 2; 2; 2; 2; 2; 2; 2; 2; 2; 2; 2; 2; 2;
   2; 2; 2; 2; 2; 2; 2; 2; 2; 2; 2; 2; 2; 2; 2; 2; 2; 2; 2; 2; 2; 2; 2; 2; 2; 2; 2; 2; 2; 2; 2; 2; 2; 2; 2; 2;
   2; 2; 2; 2; 2; 2; 2; 2; 2; 2; 2; 2; 2; 2; 2; 2; 2; 2; 2; 2; 2; 2; 2; 2; 2; 2; 2; 2; 2; 2; 2; 2; 2; 2; 2; 2;
   2; 2; 2; 2; 2; 2; 2; 2; 2; 2; 2; 2; 2; 2; 2; 2; 2; 2; 2; 2; 2; 2; 2; 2; 2; 2; 2; 2; 2; 2; 2; 2; 2; 2; 2; 2;
   2; 2; 2; 2; 2; 2; 2; 2; 2; 2; 2; 2; 2; 2; 2; 2; 2; 2; 2; 2; 2; 2; 2; 2; 2; 2; 2; 2; 2; 2; 2; 2; 2; 2; 2; 2;
   2; 2; 2; 2; 2; 2; 2; 2; 2; 2; 2; 2; 2; 2; 2; 2; 2; 2; 2; 2; 2; 2; 2; 2; 2; 2; 2; 2; 2; 2; 2; 2; 2; 2; 2; 2;
   2; 2; 2; 2; 2; 2; 2; 2; 2; 2; 2; 2; 2; 2; 2; 2; 2; 2; 2; 2; 2; 2; 2; 2; 2; 2; 2; 2; 2; 2; 2; 2; 2; 2; 2; 2;
   2; 2; 2; 2; 2; 2; 2; 2; 2; 2; 2; 2; 2; 2; 2; 2; 2; 2; 2; 2; 2; 2; 2; 2; 2; 2; 2; 2; 2; 2; 2; 2; 2; 2; 2; 2;
   2; 2; 2; 2; 2; 2; 2; 2; 2; 2; 2; 2; 2; 2; 2; 2; 2; 2; 2; 2; 2; 2; 2; 28; 2; 2; 2; 2; 36; 37; 2; 38; 2; 2; 2;
   2; 2; 39; 2; 40; 41; 42; 2; 43; 2; 44; 2; 45; 2; 2; 2; 46; 2; 2; 2; 2; 2; 2; 2; 2; 2; 2; 2; 2; 2; 2; 2; 2;
   2; 2; 2; 2; 2; 2; 2; 2; 2; 2; 2; 2; 2; 2; 2; 2; 2; 2; 2; 2; 2; 2; 2; 2; 2; 2; 2; 2; 2; 2; 2; 2; 2; 2; 2; 2;
   2; 2; 2; 2; 2; 2; 2; 2; 2; 2; 2; 2; 2; 2; 2; 2; 2; 2; 2; 2; 2; 2; 2; 2; 2; 2; 2; 2; 2; 2; 2; 2; 2; 2; 2; 2;
   2; 2; 2; 2; 2; 2; 2; 2; 2; 2; 2; 2; 2; 2; 2; 2; 2; 2; 2; 2; 2; 2; 2; 2; 2; 2; 2; 2; 2; 2; 2; 2; 2; 2; 2; 2;
   2; 2; 2; 2; 2; 2; 2; 2; 2; 2; 2; 2; 2; 2; 2; 2; 2; 2; 2; 2; 2; 2; 2; 2; 2; 2; 2; 2; 2; 2; 2; 2; 2; 2; 2; 2;
   2; 2; 2; 2; 2; 2; 2; 2; 2; 2; 2; 2; 2; 2; 2; 2; 2; 2; 2; 2; 2; 2; 2; 2; 2; 2; 2; 2; 2; 2; 2; 2; 2; 2; 2; 2;
   2; 2; 2; 2; 2; 2; 2; 2; 2; 2; 2; 2; 2; 2; 2; 2; 2; 2; 2; 2; 2; 2; 2; 2; 2; 2; 2; 2; 2; 2; 2; 2; 2; 2; 2; 2;
   2; 2; 2; 2; 2; 2; 2; 2; 2; 2; 2; 2; 2; 2; 2; 2; 2; 2; 2; 2; 2; 2; 2; 2; 2; 2; 2; 2; 2; 2; 2; 2; 2; 2; 2; 2;
   2; 2; 2; 2; 2; 2; 2; 2; 2; 2; 2; 2; 2; 2; 2; 2; 2; 2; 2; 2; 2; 2; 2; 2; 2; 2; 2; 2; 2; 2; 2; 2; 2; 2; 2; 2;
   2; 2; 2; 2; 2; 2; 2; 2; 2; 2; 2; 2; 2; 2; 2; 2; 2; 2; 2; 2; 2; 2; 2; 2; 47; 48; 2; 2; 49; 50; 2; 2]
  [0x7fff000000000000; 0x0000000040000000; 0x0000000000000000; 0x0001003000000000; 0x2000000000000000;
   0x0040000000000000; 0x0001000000000000; 0x0080000000000000; 0x0000000000000010; 0x0010000000000000;
   0x000000000c008000; 0x000000000017fff0; 0x0000000000000020; 0x00000000061f0000; 0x000000000000fc00;
   0x0800000000000000; 0x000001ff00000000; 0x0000400000000000; 0x0000380000000000; 0x0060000000000000;
   0x0000000007700000; 0x00000000000007bf; 0x0000000000000030; 0x00000000c0000000; 0x00003f7f00000000;
   0x60000001fc000000; 0xf000000000000000; 0xf800000000000000; 0xc000000000000000; 0x00000000000800ff;
   0x79ff00ff00c00000; 0x000000007febff8e; 0xde00000000000000; 0xf3ff7c00cb7fc9c3; 0x00000000001cfffa;
   0x200000000000000e; 0x000000000000e000; 0x4008000000000000; 0x00fc000000000000; 0x00f0000000000000;
   0x170000000000c000; 0x0000c00000000000; 0x0000000080000000; 0x00000000c0003ffe; 0x00000000f0000000;
   0x00030000c0000000; 0x0000080000000000; 0x00010000027f0000; 0x00000d0380f71e60; 0x100000018c00d4ee;
   0x0000003200000000]
  [1; 2; 3; 3; 3; 4; 3; 3; 3; 3; 5; 3; 6; 7; 3; 3; 3; 3; 3; 3; 3; 3; 3; 3; 3; 3; 3; 3; 3; 3; 3; 3; 3; 3; 3; 3;
   3; 3; 3; 3; 3; 3; 3; 3; 3; 3; 3; 3; 3; 3; 3; 3; 3; 3; 3; 3; 3; 3; 3; 3; 3; 3; 3; 3; 3; 3; 3; 3; 3; 3; 3; 3;
   3; 3; 3; 3; 3; 3; 3; 3; 3; 3; 3; 3; 3; 3; 3; 3; 3; 3; 3; 3; 3; 3; 3; 3; 3; 3; 3; 3; 3; 3; 3; 3; 3; 3; 3; 3;
   3; 3; 3; 3; 3; 3; 3; 3; 3; 3; 3; 3; 3; 3; 3; 3; 3; 3; 3; 3; 3; 3; 3; 3; 3; 3; 3; 3; 3; 3; 3; 3; 3; 3; 3; 3;
   3; 3; 3; 3; 3; 3; 3; 3; 3; 3; 3; 3; 3; 3; 3; 3; 3; 3; 3; 3; 3; 3; 3; 3; 3; 3; 3; 3; 3; 3; 3; 3; 3; 3; 3; 3;
   3; 3; 3; 3; 3; 3; 3; 3; 3; 3; 3; 3; 3; 3; 3; 3; 3; 3; 3; 3; 3; 3; 3; 3; 3; 3; 3; 3; 3; 3; 3; 3; 3; 3; 3; 3;
   3; 3; 3; 3; 3; 3; 3; 3; 3; 3; 3; 3; 3; 3; 3; 3; 3; 3; 3; 3; 3; 3; 3; 3; 3; 3; 3; 3; 3; 3; 3; 3; 3; 3; 3; 3;
   3; 3; 3]
  [1; 0; 0; 0; 0; 0; 0; 0; 0; 0; 2; 3; 0; 0; 0; 0; 0; 4; 0; 0; 0; 0; 0; 0; 0; 0; 0; 0; 0; 5; 0; 0; 6; 0; 0; 0;
   0; 7; 0; 8; 9; 0; 10; 0; 0; 0; 0; 0; 0; 0; 0; 0; 0; 0; 0; 0; 0; 11; 12; 0; 0; 13; 14; 15; 0; 16; 0; 17; 18;
   0; 19; 0; 0; 0; 0; 0; 0; 20; 0; 21; 0; 0; 0; 22; 0; 23; 24; 0; 25; 0; 0; 0; 26; 0; 0; 0; 0; 27; 0; 28; 29;
   30; 31; 0; 0; 0; 0; 0; 0; 32; 0; 0; 0; 0; 0; 0; 0; 0; 0; 33; 0; 0; 0; 29; 0; 0; 0; 0; 0; 0; 0; 0; 0; 0; 0;
   0; 0; 0; 0; 0; 0; 34; 0; 0; 0; 0; 0; 0; 0; 0; 0; 0; 0; 0; 0; 0; 0; 0; 0; 0; 0; 0; 0; 0; 0; 0; 0; 0; 0; 0; 0;
   0; 0; 0; 0; 0; 0; 0; 0; 0; 0; 0; 0; 0; 0; 0; 0; 35; 0; 0; 0; 0; 0; 0; 0; 0; 0; 0; 0; 0; 0; 0; 0; 0; 0; 0; 0;
   0; 0; 0; 0; 0; 0; 0; 0; 0; 0; 0; 0; 0; 0; 0; 0; 0; 0; 0; 0; 0; 0; 0; 0; 0; 0; 0; 0; 0; 0; 0; 0; 0; 0; 0; 0;
   0; 0; 0; 0; 0; 0; 0; 0; 0; 0; 0; 0; 0; 0; 0; 0; 0; 0; 0; 0; 0; 0; 0; 0; 0; 0; 0; 0; 0; 0; 0; 0; 0; 0; 0; 0;
   0; 0; 0; 0; 0; 0; 0; 0; 0; 0; 0; 0; 0; 0; 36; 0; 37; 38; 39; 0; 0; 0; 0; 0; 0; 0; 0; 0; 0; 0; 0; 40; 0; 0;
   0; 0; 28; 0; 0; 0; 0; 0; 0; 0; 0; 0; 0; 0; 0; 0; 0; 0; 0; 0; 0; 0; 0; 0; 0; 0; 0; 0; 0; 0; 0; 0; 0; 0; 0; 0;
   0; 0; 0; 0; 0; 0; 0; 0; 0; 0; 0; 0; 0; 0; 0; 0; 0; 2; 0; 0; 0; 0; 0; 0; 0; 0; 0; 0; 0; 0; 0; 0; 0; 0; 0; 0;
   0; 0; 0; 0; 0; 0; 0; 0; 0; 0; 0; 0; 0; 0; 0; 0; 0; 0; 0; 0; 0; 0; 0; 0; 0; 0; 0; 0; 0; 0; 0; 0; 0; 0; 0; 0;
   0; 41; 0; 0; 0; 0; 0; 0; 0; 0; 0; 0; 0; 0; 0; 0; 0; 0; 0; 0; 0; 0; 0; 0; 0; 0; 0; 0; 0; 0; 0; 0; 0; 0; 0; 0;
   0; 0; 0; 0; 0; 0; 0; 0; 0; 0; 0; 0; 0; 0; 0; 0; 0; 0; 0; 0; 0; 0; 0; 0; 42]
  [0x0000000000000000; 0x0000000000000007; 0x0000000080000000; 0x0000000000010000; 0x0000800000000000;
   0x0000000000800000; 0x8000000080000000; 0x8000000001ff0000; 0x007f000000000000; 0xfe00000000000000;
   0x000000001e000000; 0x0000000003e00000; 0x00000000000003c0; 0x0000000000003f80; 0xd800000000000000;
   0x0000000000000003; 0x003000000000000f; 0x00000000e80021e0; 0x3f00000000000000; 0x0000020000000000;
   0x000000002c00f800; 0x0000000000000040; 0x0000000000fffffe; 0x00001fff0000000e; 0x0200000000000000;
   0x7000000000000000; 0x0800000000000000; 0x0000000000000070; 0x0000000400000000; 0x8000000000000000;
   0x000000000000007f; 0x00000007dc000000; 0x000300000000003e; 0x0180000000000000; 0x001f000000000000;
   0x0006000000000000; 0x0000c00000000000; 0x0020000000000000; 0x0f80000000000000; 0x0000000000000010;
   0x0000000007800000; 0x0000000000000f80; 0x00000000c0000000].
(** unicode-db.hpp lines 1808-1815. *)
Definition cat_sc : list Z :=
  [0x00000000; 0x00002401; 0x00002500; 0x0000a201; 0x0000a600; 0x00058f01; 0x00059000; 0x00060b01; 0x00060c00;
   0x0007fe01; 0x00080000; 0x0009f201; 0x0009f400; 0x0009fb01; 0x0009fc00; 0x000af101; 0x000af200; 0x000bf901;
   0x000bfa00; 0x000e3f01; 0x000e4000; 0x0017db01; 0x0017dc00; 0x0020a001; 0x0020c100; 0x00a83801; 0x00a83900;
   0x00fdfc01; 0x00fdfd00; 0x00fe6901; 0x00fe6a00; 0x00ff0401; 0x00ff0500; 0x00ffe001; 0x00ffe200; 0x00ffe501;
   0x00ffe700; 0x011fdd01; 0x011fe100; 0x01e2ff01; 0x01e30000; 0x01ecb001; 0x01ecb100].
(** unicode-db.hpp lines 1816-1867. *)
Definition cat_ps : bool_trie := mkTrie 32 962 28 19 0 0 0 0 0
  [0x0000010000000000; 0x0800000008000000; 0x0000000000000000; 0x0000000000000000; 0x0000000000000000;
   0x0000000000000000; 0x0000000000000000; 0x0000000000000000; 0x0000000000000000; 0x0000000000000000;
   0x0000000000000000; 0x0000000000000000; 0x0000000000000000; 0x0000000000000000; 0x0000000000000000;
   0x0000000000000000; 0x0000000000000000; 0x0000000000000000; 0x0000000000000000; 0x0000000000000000;
   0x0000000000000000; 0x0000000000000000; 0x0000000000000000; 0x0000000000000000; 0x0000000000000000;
   0x0000000000000000; 0x0000000000000000; 0x0000000000000000; 0x0000000000000000; 0x0000000000000000;
   0x0000000000000000; 0x0000000000000000]
  [1; 0; 0; 0; 0; 0; 0; 0; 0; 0; 0; 0; 0; 0; 0; 0; 0; 0; 0; 0; 0; 0; 0; 0; 0; 0; 0; 0; 0; 0; 2; 0; 0; 0; 0; 0;
   0; 0; 0; 0; 0; 0; 0; 0; 0; 0; 0; 0; 0; 0; 0; 0; 0; 0; 0; 0; 0; 0; 0; 0; 0; 0; 0; 0; 0; 0; 0; 0; 3; 4; 5; 0;
   0; 0; 0; 0; 0; 0; 0; 0; 6; 0; 0; 0; 0; 0; 0; 0; 0; 0; 0; 0; 0; 0; 0; 0; 0; 7; 0; 8; 0; 0; 0; 0; 0; 0; 9; 10;
   0; 0; 0; 0; 0; 0; 0; 0; 0; 0; 0; 0; 0; 0; 0; 0; 11; 12; 0; 0; 0; 0; 0; 0; 13; 0; 0; 0; 0; 0; 0; 0; 0; 0; 0;
   0; 0; 0; 0; 0; 0; 0; 0; 0; 0; 0; 0; 0; 0; 0; 0; 0; 0; 0; 0; 0; 0; 0; 0; 0; 0; 0; 0; 0; 0; 0; 0; 0; 0; 0; 0;
   0; 0; 0; 0; 0; 0; 0; 0; 0; 0; 0; 0; 0; 0; 0; 0; 0; 0; 0; 0; 0; 0; 0; 0; 0; 0; 0; 0; 0; 0; 0; 0; 0; 0; 0; 0;
   0; 0; 0; 0; 0; 0; 0; 0; 0; 0; 0; 0; 0; 0; 0; 0; 0; 0; 0; 0; 0; 0; 0; 0; 0; 0; 0; 0; 0; 0; 0; 0; 0; 0; 0; 0;
   0; 0; 0; 0; 0; 0; 0; 0; 0; 0; 0; 0; 0; 0; 0; 0; 0; 0; 0; 0; 0; 0; 0; 0; 0; 0; 0; 0; 0; 0; 0; 0; 0; 0; 0; 0;
   0; 0; 0; 0; 0; 0; 0; 0; 0; 0; 0; 0; 0; 0; 0; 0; 0; 0; 0; 0; 0; 0; 0; 0; 0; 0; 0; 0; 0; 0; 0; 0; 0; 0; 0; 0;
   0; 0; 0; 0; 0; 0; 0; 0; 0; 0; 0; 0; 0; 0; 0; 0; 0; 0; 0; 0; 0; 0; 0; 0; 0; 0; 0; 0; 0; 0; 0; 0; 0; 0; 0; 0;
   0; 0; 0; 0; 0; 0; 0; 0; 0; 0; 0; 0; 0; 0; 0; 0; 0; 0; 0; 0; 0; 0; 0; 0; 0; 0; 0; 0; 0; 0; 0; 0; 0; 0; 0; 0;
   0; 0; 0; 0; 0; 0; 0; 0; 0; 0; 0; 0; 0; 0; 0; 0; 0; 0; 0; 0; 0; 0; 0; 0; 0; 0; 0; 0; 0; 0; 0; 0; 0; 0; 0; 0;
   0; 0; 0; 0; 0; 0; 0; 0; 0; 0; 0; 0; 0; 0; 0; 0; 0; 0; 0; 0; 0; 0; 0; 0; 0; 0; 0; 0; 0; 0; 0; 0; 0; 0; 0; 0;
   0; 0; 0; 0; 0; 0; 0; 0; 0; 0; 0; 0; 0; 0; 0; 0; 0; 0; 0; 0; 0; 0; 0; 0; 0; 0; 0; 0; 0; 0; 0; 0; 0; 0; 0; 0;
   0; 0; 0; 0; 0; 0; 0; 0; 0; 0; 0; 0; 0; 0; 0; 0; 0; 0; 0; 0; 0; 0; 0; 0; 0; 0; 0; 0; 0; 0; 0; 0; 0; 0; 0; 0;
   0; 0; 0; 0; 0; 0; 0; 0; 0; 0; 0; 0; 0; 0; 0; 0; 0; 0; 0; 0; 0; 0; 0; 0; 0; 0; 0; 0; 0; 0; 0; 0; 0; 0; 0; 0;
   0; 0; 0; 0; 0; 0; 0; 0; 0; 0; 0; 0; 0; 0; 0; 0; 0; 0; 0; 0; 0; 0; 0; 0; 0; 0; 0; 0; 0; 0; 0; 0; 0; 0; 0; 0;
   0; 0; 0; 0; 0; 0; 0; 0; 0; 0; 0; 0; 0; 0; 0; 0; 0; 0; 0; 0; 0; 0; 0; 0; 0; 0; 0; 0; 0; 0; 0; 0; 0; 0; 0; 0;
   0; 0; 0; 0; 0; 0; 0; 0; 0; 0; 0; 0; 0; 0; 0; 0; 0; 0; 0; 0; 0; 0; 0; 0; 0; 0; 0; 0; 0; 0; 0; 0; 0; 0; 0; 0;
   0; 0; 0; 0; 0; 0; 0; 0; 0; 0; 0; 0; 0; 0; 0; 0; 0; 0; 0; 0; 0; 0; 0; 0; 0; 0; 0; 0; 0; 0; 0; 0; 0; 0; 0; 0;
   0; 0; 0; 0; 0; 0; 0; 0; 0; 0; 0; 0; 0; 0; 0; 0; 0; 0; 0; 0; 0; 0; 0; 0; 0; 0; 0; 0; 0; 0; 0; 0; 0; 0; 0; 0;
   0; 0; 0; 0; 0; 0; 0; 0; 0; 0; 0; 0; 0; 0; 0; 0; 0; 0; 0; 0; 0; 0; 0; 0; 0; 0; 0; 0; 0; 0; 0; 0; 0; 0; 0; 0;
   0; 0; 0; 0; 0; 0; 0; 0; 0; 0; 0; 0; 0; 0; 0; 0; 0; 0; 0; 0; 0; 0; 0; 0; 0; 0; 0; 0; 0; 0; 0; 0; 0; 0; 0; 0;
   0; 0; 0; 0; 0; 0; 0; 0; 0; 0; 0; 0; 0; 0; 0; 0; 0; 0; 0; 0; 0; 0; 0; 0; 0; 0; 0; 0; 0; 0; 0; 0; 0; 0; 0; 0;
   0; 0; 0; 0; 0; 0; 0; 0; 0; 0; 0; 0; 0; 0; 0; 0; 0; 0; 0; 0; 0; 0; 0; 0; 0; 0; 0; 0; 0; 0; 0; 0; 0; 0; 0; 0;
   0; 0; 0; 0; 0; 0; 0; 0; 0; 0; 0; 0; 0; 0; 0; 0; 0; 0; 0; 0; 0; 0; 0; 0; 0; 0; 0; 0; 0; 0; 0; 0; 0; 0; 0; 0;
   0; 0; 0; 0; 0; 0; 0; 0; 0; 0; 0; 0; 0; 0; 0; 0; 0; 14; 0; 0; 0; 15; 16; 0; 0; 17; 18]
  [0x0000000000000000; 0x1400000000000000; 0x0000000008000000; 0x0000000044000000; 0x2000000000000020;
   0x0000000000002000; 0x0000020000000500; 0x0015550000000000; 0x0000554000000020; 0x0000000000aaaaa8;
   0x1000000005000000; 0x0000015400000000; 0x000000000aa00004; 0x0000000025515500; 0x8000000000000000;
   0xaaa0000000800000; 0x000000002a00008a; 0x0800000000000100; 0x0000000488000000]
  []
  []
  [].
(** unicode-db.hpp lines 1868-1919. *)
Definition cat_pe : bool_trie := mkTrie 32 962 28 18 0 0 0 0 0
  [0x0000020000000000; 0x2000000020000000; 0x0000000000000000; 0x0000000000000000; 0x0000000000000000;
   0x0000000000000000; 0x0000000000000000; 0x0000000000000000; 0x0000000000000000; 0x0000000000000000;
   0x0000000000000000; 0x0000000000000000; 0x0000000000000000; 0x0000000000000000; 0x0000000000000000;
   0x0000000000000000; 0x0000000000000000; 0x0000000000000000; 0x0000000000000000; 0x0000000000000000;
   0x0000000000000000; 0x0000000000000000; 0x0000000000000000; 0x0000000000000000; 0x0000000000000000;
   0x0000000000000000; 0x0000000000000000; 0x0000000000000000; 0x0000000000000000; 0x0000000000000000;
   0x0000000000000000; 0x0000000000000000]
  [1; 0; 0; 0; 0; 0; 0; 0; 0; 0; 0; 0; 0; 0; 0; 0; 0; 0; 0; 0; 0; 0; 0; 0; 0; 0; 0; 0; 0; 0; 2; 0; 0; 0; 0; 0;
   0; 0; 0; 0; 0; 0; 0; 0; 0; 0; 0; 0; 0; 0; 0; 0; 0; 0; 0; 0; 0; 0; 0; 0; 0; 0; 0; 0; 0; 0; 0; 0; 0; 3; 4; 0;
   0; 0; 0; 0; 0; 0; 0; 0; 5; 0; 0; 0; 0; 0; 0; 0; 0; 0; 0; 0; 0; 0; 0; 0; 0; 6; 0; 7; 0; 0; 0; 0; 0; 0; 8; 9;
   0; 0; 0; 0; 0; 0; 0; 0; 0; 0; 0; 0; 0; 0; 0; 0; 10; 11; 0; 0; 0; 0; 0; 0; 12; 0; 0; 0; 0; 0; 0; 0; 0; 0; 0;
   0; 0; 0; 0; 0; 0; 0; 0; 0; 0; 0; 0; 0; 0; 0; 0; 0; 0; 0; 0; 0; 0; 0; 0; 0; 0; 0; 0; 0; 0; 0; 0; 0; 0; 0; 0;
   0; 0; 0; 0; 0; 0; 0; 0; 0; 0; 0; 0; 0; 0; 0; 0; 0; 0; 0; 0; 0; 0; 0; 0; 0; 0; 0; 0; 0; 0; 0; 0; 0; 0; 0; 0;
   0; 0; 0; 0; 0; 0; 0; 0; 0; 0; 0; 0; 0; 0; 0; 0; 0; 0; 0; 0; 0; 0; 0; 0; 0; 0; 0; 0; 0; 0; 0; 0; 0; 0; 0; 0;
   0; 0; 0; 0; 0; 0; 0; 0; 0; 0; 0; 0; 0; 0; 0; 0; 0; 0; 0; 0; 0; 0; 0; 0; 0; 0; 0; 0; 0; 0; 0; 0; 0; 0; 0; 0;
   0; 0; 0; 0; 0; 0; 0; 0; 0; 0; 0; 0; 0; 0; 0; 0; 0; 0; 0; 0; 0; 0; 0; 0; 0; 0; 0; 0; 0; 0; 0; 0; 0; 0; 0; 0;
   0; 0; 0; 0; 0; 0; 0; 0; 0; 0; 0; 0; 0; 0; 0; 0; 0; 0; 0; 0; 0; 0; 0; 0; 0; 0; 0; 0; 0; 0; 0; 0; 0; 0; 0; 0;
   0; 0; 0; 0; 0; 0; 0; 0; 0; 0; 0; 0; 0; 0; 0; 0; 0; 0; 0; 0; 0; 0; 0; 0; 0; 0; 0; 0; 0; 0; 0; 0; 0; 0; 0; 0;
   0; 0; 0; 0; 0; 0; 0; 0; 0; 0; 0; 0; 0; 0; 0; 0; 0; 0; 0; 0; 0; 0; 0; 0; 0; 0; 0; 0; 0; 0; 0; 0; 0; 0; 0; 0;
   0; 0; 0; 0; 0; 0; 0; 0; 0; 0; 0; 0; 0; 0; 0; 0; 0; 0; 0; 0; 0; 0; 0; 0; 0; 0; 0; 0; 0; 0; 0; 0; 0; 0; 0; 0;
   0; 0; 0; 0; 0; 0; 0; 0; 0; 0; 0; 0; 0; 0; 0; 0; 0; 0; 0; 0; 0; 0; 0; 0; 0; 0; 0; 0; 0; 0; 0; 0; 0; 0; 0; 0;
   0; 0; 0; 0; 0; 0; 0; 0; 0; 0; 0; 0; 0; 0; 0; 0; 0; 0; 0; 0; 0; 0; 0; 0; 0; 0; 0; 0; 0; 0; 0; 0; 0; 0; 0; 0;
   0; 0; 0; 0; 0; 0; 0; 0; 0; 0; 0; 0; 0; 0; 0; 0; 0; 0; 0; 0; 0; 0; 0; 0; 0; 0; 0; 0; 0; 0; 0; 0; 0; 0; 0; 0;
   0; 0; 0; 0; 0; 0; 0; 0; 0; 0; 0; 0; 0; 0; 0; 0; 0; 0; 0; 0; 0; 0; 0; 0; 0; 0; 0; 0; 0; 0; 0; 0; 0; 0; 0; 0;
   0; 0; 0; 0; 0; 0; 0; 0; 0; 0; 0; 0; 0; 0; 0; 0; 0; 0; 0; 0; 0; 0; 0; 0; 0; 0; 0; 0; 0; 0; 0; 0; 0; 0; 0; 0;
   0; 0; 0; 0; 0; 0; 0; 0; 0; 0; 0; 0; 0; 0; 0; 0; 0; 0; 0; 0; 0; 0; 0; 0; 0; 0; 0; 0; 0; 0; 0; 0; 0; 0; 0; 0;
   0; 0; 0; 0; 0; 0; 0; 0; 0; 0; 0; 0; 0; 0; 0; 0; 0; 0; 0; 0; 0; 0; 0; 0; 0; 0; 0; 0; 0; 0; 0; 0; 0; 0; 0; 0;
   0; 0; 0; 0; 0; 0; 0; 0; 0; 0; 0; 0; 0; 0; 0; 0; 0; 0; 0; 0; 0; 0; 0; 0; 0; 0; 0; 0; 0; 0; 0; 0; 0; 0; 0; 0;
   0; 0; 0; 0; 0; 0; 0; 0; 0; 0; 0; 0; 0; 0; 0; 0; 0; 0; 0; 0; 0; 0; 0; 0; 0; 0; 0; 0; 0; 0; 0; 0; 0; 0; 0; 0;
   0; 0; 0; 0; 0; 0; 0; 0; 0; 0; 0; 0; 0; 0; 0; 0; 0; 0; 0; 0; 0; 0; 0; 0; 0; 0; 0; 0; 0; 0; 0; 0; 0; 0; 0; 0;
   0; 0; 0; 0; 0; 0; 0; 0; 0; 0; 0; 0; 0; 0; 0; 0; 0; 0; 0; 0; 0; 0; 0; 0; 0; 0; 0; 0; 0; 0; 0; 0; 0; 0; 0; 0;
   0; 0; 0; 0; 0; 0; 0; 0; 0; 0; 0; 0; 0; 0; 0; 0; 0; 0; 0; 0; 0; 0; 0; 0; 0; 0; 0; 0; 0; 0; 0; 0; 0; 0; 0; 0;
   0; 0; 0; 0; 0; 0; 0; 0; 0; 0; 0; 0; 0; 0; 0; 0; 0; 0; 0; 0; 0; 0; 0; 0; 0; 0; 0; 0; 0; 0; 0; 0; 0; 0; 0; 0;
   0; 0; 0; 0; 0; 0; 0; 0; 0; 0; 0; 0; 0; 0; 0; 0; 0; 13; 0; 0; 0; 14; 15; 0; 0; 16; 17]
  [0x0000000000000000; 0x2800000000000000; 0x0000000010000000; 0x4000000000000040; 0x0000000000004000;
   0x0000040000000a00; 0x002aaa0000000000; 0x0000aa8000000040; 0x0000000001555550; 0x200000000a000000;
   0x000002a800000000; 0x0000000015400000; 0x00000000caa2aa00; 0x4000000000000000; 0x5540000001000000;
   0x0000000054000115; 0x2000000000000200; 0x0000000920000000]
  []
  []
  [].
(** unicode-db.hpp lines 1920-1977. *)
Definition cat_sm : bool_trie := mkTrie 32 895 97 25 2 13 97 91 7
  [0x7000080000000000; 0x5000000000000000; 0x0002100000000000; 0x0080000000800000; 0x0000000000000000;
   0x0000000000000000; 0x0000000000000000; 0x0000000000000000; 0x0000000000000000; 0x0000000000000000;
   0x0000000000000000; 0x0000000000000000; 0x0000000000000000; 0x0000000000000000; 0x0000000000000000;
   0x0040000000000000; 0x0000000000000000; 0x0000000000000000; 0x0000000000000000; 0x0000000000000000;
   0x0000000000000000; 0x0000000000000000; 0x0000000000000000; 0x0000000000000000; 0x00000000000001c0;
   0x0000000000000000; 0x0000000000000000; 0x0000000000000000; 0x0000000000000000; 0x0000000000000000;
   0x0000000000000000; 0x0000000000000000]
  [1; 2; 0; 3; 4; 5; 6; 7; 7; 7; 7; 8; 9; 10; 11; 0; 0; 0; 0; 0; 0; 12; 13; 0; 14; 0; 0; 0; 0; 0; 15; 0; 0; 0;
   0; 7; 7; 16; 17; 7; 7; 7; 7; 18; 19; 0; 0; 0; 0; 0; 0; 0; 0; 0; 0; 0; 0; 0; 0; 0; 0; 0; 0; 0; 0; 0; 0; 0; 0;
   0; 0; 0; 0; 0; 0; 0; 0; 0; 0; 0; 0; 0; 0; 0; 0; 0; 0; 0; 0; 0; 0; 0; 0; 0; 0; 0; 0; 0; 0; 0; 0; 0; 0; 0; 0;
   0; 0; 0; 0; 0; 0; 0; 0; 0; 0; 0; 0; 0; 0; 0; 0; 0; 0; 0; 0; 0; 0; 0; 0; 0; 0; 0; 0; 0; 0; 0; 0; 0; 0; 0; 0;
   0; 0; 0; 0; 0; 0; 0; 0; 0; 0; 0; 0; 0; 0; 0; 0; 0; 0; 0; 0; 0; 0; 0; 0; 0; 0; 0; 0; 0; 0; 0; 0; 0; 0; 0; 0;
   0; 0; 0; 0; 0; 0; 0; 0; 0; 0; 0; 0; 0; 0; 0; 0; 0; 0; 0; 0; 0; 0; 0; 0; 0; 0; 0; 0; 0; 0; 0; 0; 0; 0; 0; 0;
   0; 0; 0; 0; 0; 0; 0; 0; 0; 0; 0; 0; 0; 0; 0; 0; 0; 0; 0; 0; 0; 0; 0; 0; 0; 0; 0; 0; 0; 0; 0; 0; 0; 0; 0; 0;
   0; 0; 0; 0; 0; 0; 0; 0; 0; 0; 0; 0; 0; 0; 0; 0; 0; 0; 0; 0; 0; 0; 0; 0; 0; 0; 0; 0; 0; 0; 0; 0; 0; 0; 0; 0;
   0; 0; 0; 0; 0; 0; 0; 0; 0; 0; 0; 0; 0; 0; 0; 0; 0; 0; 0; 0; 0; 0; 0; 0; 0; 0; 0; 0; 0; 0; 0; 0; 0; 0; 0; 0;
   0; 0; 0; 0; 0; 0; 0; 0; 0; 0; 0; 0; 0; 0; 0; 0; 0; 0; 0; 0; 0; 0; 0; 0; 0; 0; 0; 0; 0; 0; 0; 0; 0; 0; 0; 0;
   0; 0; 0; 0; 0; 0; 0; 0; 0; 0; 0; 0; 0; 0; 0; 0; 0; 0; 0; 0; 0; 0; 0; 0; 0; 0; 0; 0; 0; 0; 0; 0; 0; 0; 0; 0;
   0; 0; 0; 0; 0; 0; 0; 0; 0; 0; 0; 0; 0; 0; 0; 0; 0; 0; 0; 0; 0; 0; 0; 0; 0; 0; 0; 0; 0; 0; 0; 0; 0; 0; 0; 0;
   0; 0; 0; 0; 0; 0; 0; 0; 0; 0; 0; 0; 0; 0; 0; 0; 0; 0; 0; 0; 0; 0; 0; 0; 0; 0; 0; 0; 0; 0; 0; 0; 0; 0; 0; 0;
   0; 0; 0; 0; 0; 0; 0; 0; 0; 0; 0; 0; 0; 0; 0; 0; 0; 0; 0; 0; 0; 0; 0; 0; 0; 0; 0; 0; 0; 0; 0; 0; 0; 0; 0; 0;
   0; 0; 0; 0; 0; 0; 0; 0; 0; 0; 0; 0; 0; 0; 0; 0; 0; 0; 0; 0; 0; 0; 0; 0; 0; 0; 0; 0; 0; 0; 0; 0; 0; 0; 0; 0;
   0; 0; 0; 0; 0; 0; 0; 0; 0; 0; 0; 0; 0; 0; 0; 0; 0; 0; 0; 0; 0; 0; 0; 0; 0; 0; 0; 0; 0; 0; 0; 0; 0; 0; 0; 0;
   0; 0; 0; 0; 0; 0; 0; 0; 0; 0; 0; 0; 0; 0; 0; 0; 0; 0; 0; 0; 0; 0; 0; 0; 0; 0; 0; 0; 0; 0; 0; 0; 0; 0; 0; 0;
   0; 0; 0; 0; 0; 0; 0; 0; 0; 0; 0; 0; 0; 0; 0; 0; 0; 0; 0; 0; 0; 0; 0; 0; 0; 0; 0; 0; 0; 0; 0; 0; 0; 0; 0; 0;
   0; 0; 0; 0; 0; 0; 0; 0; 0; 0; 0; 0; 0; 0; 0; 0; 0; 0; 0; 0; 0; 0; 0; 0; 0; 0; 0; 0; 0; 0; 0; 0; 0; 0; 0; 0;
   0; 0; 0; 0; 0; 0; 0; 0; 0; 0; 0; 0; 0; 0; 0; 0; 0; 0; 0; 0; 0; 0; 0; 0; 0; 0; 0; 0; 0; 0; 0; 0; 0; 0; 0; 0;
   0; 0; 0; 0; 0; 0; 0; 0; 0; 0; 0; 0; 0; 0; 0; 0; 0; 0; 0; 0; 0; 0; 0; 0; 0; 0; 0; 0; 0; 0; 0; 0; 0; 0; 0; 0;
   0; 0; 0; 0; 0; 0; 0; 0; 0; 0; 0; 0; 0; 0; 0; 0; 0; 0; 0; 0; 0; 0; 0; 0; 0; 0; 0; 0; 0; 0; 0; 0; 0; 0; 0; 0;
   0; 0; 0; 0; 0; 0; 0; 0; 0; 0; 0; 0; 0; 0; 0; 0; 0; 0; 0; 0; 0; 0; 0; 0; 0; 0; 0; 0; 0; 0; 0; 0; 0; 0; 0; 0;
   0; 0; 0; 0; 0; 0; 0; 0; 0; 0; 0; 0; 0; 0; 0; 0; 0; 0; 0; 0; 0; 0; 0; 0; 0; 0; 0; 0; 0; 0; 0; 0; 0; 0; 0; 0;
   0; 0; 0; 0; 0; 0; 0; 0; 0; 0; 0; 0; 0; 0; 20; 0; 0; 0; 0; 0; 0; 0; 0; 0; 0; 0; 0; 21; 0; 0; 22; 23; 0; 24]
  [0x0000000000000000; 0x1c00000000040010; 0x0000000000001c00; 0x0000000001000000; 0x000000000000081f;
   0x000040490c1f0000; 0xfff000000014c000; 0xffffffffffffffff; 0x0000000300000000; 0x1000000000000000;
   0x000ffffff8000000; 0x00000003f0000000; 0x0080000000000000; 0xff00000000000002; 0x0000800000000000;
   0xffff003fffffff9f; 0xfffffffffe000007; 0xcffffffff0ffffff; 0xffff000000000000; 0x0000000000001f9f;
   0x0000020000000000; 0x0000007400000000; 0x0000000070000800; 0x0000000050000000; 0x00001e0400000000]
  [1; 2]
  [1; 2; 3; 4; 5; 0; 0; 0; 0; 0; 0; 0; 0; 0; 0; 0; 0; 0; 0; 0; 0; 0; 0; 0; 0; 0; 0; 0; 0; 0; 0; 0; 0; 0; 0; 0;
   0; 0; 0; 0; 0; 0; 0; 0; 0; 0; 0; 0; 0; 0; 0; 0; 0; 0; 0; 0; 0; 0; 0; 0; 0; 0; 0; 0; 0; 0; 0; 0; 0; 0; 0; 0;
   0; 0; 0; 0; 0; 0; 0; 0; 0; 0; 0; 0; 0; 0; 0; 0; 0; 0; 0; 0; 0; 0; 0; 0; 6]
  [0x0000000000000000; 0x0800000008000002; 0x0020000000200000; 0x0000800000008000; 0x0000020000000200;
   0x0000000000000008; 0x0003000000000000].
(** unicode-db.hpp lines 1978-1981. *)
Definition cat_pd : list Z :=
  [0x1400; 0x1806; 0x058a; 0xff0d; 0x2010; 0x2011; 0x2012; 0x2013; 0x2014; 0x2015; 0x2e17; 0x2e1a; 0x301c;
   0x30a0; 0x002d; 0x10ead; 0x3030; 0xfe31; 0xfe32; 0x2e3a; 0x2e3b; 0x05be; 0x2e40; 0xfe58; 0x2e5d; 0xfe63].
(** unicode-db.hpp lines 1982-2051. *)
Definition cat_nd : bool_trie := mkTrie 32 984 5 9 255 1 414 18 8
  [0x03ff000000000000; 0x0000000000000000; 0x0000000000000000; 0x0000000000000000; 0x0000000000000000;
   0x0000000000000000; 0x0000000000000000; 0x0000000000000000; 0x0000000000000000; 0x0000000000000000;
   0x0000000000000000; 0x0000000000000000; 0x0000000000000000; 0x0000000000000000; 0x0000000000000000;
   0x0000000000000000; 0x0000000000000000; 0x0000000000000000; 0x0000000000000000; 0x0000000000000000;
   0x0000000000000000; 0x0000000000000000; 0x0000000000000000; 0x0000000000000000; 0x0000000000000000;
   0x000003ff00000000; 0x0000000000000000; 0x03ff000000000000; 0x0000000000000000; 0x0000000000000000;
   0x0000000000000000; 0x00000000000003ff]
  [1; 0; 1; 0; 1; 0; 1; 0; 1; 0; 1; 0; 1; 0; 1; 0; 1; 0; 1; 0; 2; 0; 2; 3; 0; 0; 0; 0; 4; 2; 0; 0; 0; 0; 0; 0;
   0; 0; 0; 0; 0; 0; 0; 0; 0; 0; 0; 0; 0; 0; 0; 0; 0; 0; 0; 0; 0; 0; 3; 2; 0; 0; 0; 0; 5; 0; 2; 0; 0; 6; 0; 0;
   2; 7; 0; 0; 6; 0; 0; 0; 0; 0; 0; 0; 0; 0; 0; 0; 0; 0; 0; 0; 0; 0; 0; 0; 0; 0; 0; 0; 0; 0; 0; 0; 0; 0; 0; 0;
   0; 0; 0; 0; 0; 0; 0; 0; 0; 0; 0; 0; 0; 0; 0; 0; 0; 0; 0; 0; 0; 0; 0; 0; 0; 0; 0; 0; 0; 0; 0; 0; 0; 0; 0; 0;
   0; 0; 0; 0; 0; 0; 0; 0; 0; 0; 0; 0; 0; 0; 0; 0; 0; 0; 0; 0; 0; 0; 0; 0; 0; 0; 0; 0; 0; 0; 0; 0; 0; 0; 0; 0;
   0; 0; 0; 0; 0; 0; 0; 0; 0; 0; 0; 0; 0; 0; 0; 0; 0; 0; 0; 0; 0; 0; 0; 0; 0; 0; 0; 0; 0; 0; 0; 0; 0; 0; 0; 0;
   0; 0; 0; 0; 0; 0; 0; 0; 0; 0; 0; 0; 0; 0; 0; 0; 0; 0; 0; 0; 0; 0; 0; 0; 0; 0; 0; 0; 0; 0; 0; 0; 0; 0; 0; 0;
   0; 0; 0; 0; 0; 0; 0; 0; 0; 0; 0; 0; 0; 0; 0; 0; 0; 0; 0; 0; 0; 0; 0; 0; 0; 0; 0; 0; 0; 0; 0; 0; 0; 0; 0; 0;
   0; 0; 0; 0; 0; 0; 0; 0; 0; 0; 0; 0; 0; 0; 0; 0; 0; 0; 0; 0; 0; 0; 0; 0; 0; 0; 0; 0; 0; 0; 0; 0; 0; 0; 0; 0;
   0; 0; 0; 0; 0; 0; 0; 0; 0; 0; 0; 0; 0; 0; 0; 0; 0; 0; 0; 0; 0; 0; 0; 0; 0; 0; 0; 0; 0; 0; 0; 0; 0; 0; 0; 0;
   0; 0; 0; 0; 0; 0; 0; 0; 0; 0; 0; 0; 0; 0; 0; 0; 0; 0; 0; 0; 0; 0; 0; 0; 0; 0; 0; 0; 0; 0; 0; 0; 0; 0; 0; 0;
   0; 0; 0; 0; 0; 0; 0; 0; 0; 0; 0; 0; 0; 0; 0; 0; 0; 0; 0; 0; 0; 0; 0; 0; 0; 0; 0; 0; 0; 0; 0; 0; 0; 0; 0; 0;
   0; 0; 0; 0; 0; 0; 0; 0; 0; 0; 0; 0; 0; 0; 0; 0; 0; 0; 0; 0; 0; 0; 0; 0; 0; 0; 0; 0; 0; 0; 0; 0; 0; 0; 0; 0;
   0; 0; 0; 0; 0; 0; 0; 0; 0; 0; 0; 0; 0; 0; 0; 0; 0; 0; 0; 0; 0; 0; 0; 0; 0; 0; 0; 0; 0; 0; 0; 0; 0; 0; 0; 0;
   0; 0; 0; 0; 0; 0; 0; 0; 0; 0; 0; 0; 0; 0; 0; 0; 0; 0; 0; 0; 0; 0; 0; 0; 0; 0; 0; 0; 0; 0; 0; 0; 0; 0; 0; 0;
   0; 0; 0; 0; 0; 0; 0; 0; 0; 0; 0; 0; 0; 0; 0; 0; 0; 0; 0; 0; 0; 0; 0; 0; 0; 0; 0; 0; 0; 0; 0; 0; 0; 0; 0; 0;
   0; 0; 0; 0; 0; 0; 0; 0; 0; 0; 0; 0; 0; 0; 0; 0; 0; 0; 0; 0; 0; 0; 0; 0; 0; 0; 0; 0; 0; 0; 0; 0; 0; 0; 0; 0;
   0; 0; 0; 0; 0; 0; 0; 0; 0; 0; 0; 0; 0; 0; 0; 3; 0; 0; 0; 0; 0; 0; 0; 0; 0; 0; 2; 4; 0; 0; 8; 0; 2; 0; 0; 0;
   0; 0; 7; 0; 0; 0; 0; 0; 0; 0; 0; 0; 0; 0; 0; 0; 0; 0; 0; 0; 0; 0; 0; 0; 0; 0; 0; 0; 0; 0; 0; 0; 0; 0; 0; 0;
   0; 0; 0; 0; 0; 0; 0; 0; 0; 0; 0; 0; 0; 0; 0; 0; 0; 0; 0; 0; 0; 0; 0; 0; 0; 0; 0; 0; 0; 0; 0; 0; 0; 0; 0; 0;
   0; 0; 0; 0; 0; 0; 0; 0; 0; 0; 0; 0; 0; 0; 0; 0; 0; 0; 0; 0; 0; 0; 0; 0; 0; 0; 0; 0; 0; 0; 0; 0; 0; 0; 0; 0;
   0; 0; 0; 0; 0; 0; 0; 0; 0; 0; 0; 0; 0; 0; 0; 0; 0; 0; 0; 0; 0; 0; 0; 0; 0; 0; 0; 0; 0; 0; 0; 0; 0; 0; 0; 0;
   0; 0; 0; 0; 0; 0; 0; 0; 0; 0; 0; 0; 0; 0; 0; 0; 0; 0; 0; 0; 0; 0; 0; 0; 0; 0; 0; 0; 0; 0; 0; 0; 0; 0; 0; 0;
   0; 0; 0; 0; 0; 0; 0; 0; 0; 0; 0; 0; 0; 0; 0; 0; 0; 0; 0; 0; 0; 0; 0; 0; 0; 0; 0; 0; 0; 0; 0; 0; 0; 0; 0; 0;
   0; 0; 0; 0; 0; 0; 0; 0; 0; 0; 0; 0; 0; 0; 0; 0; 0; 0; 0; 0; 0; 0; 0; 0; 0; 0; 0; 0; 0; 0; 0; 0; 0; 0; 0; 0;
   0; 0; 0; 0; 0; 0; 0; 0; 0; 0; 0; 0; 0; 0; 0; 0; 0; 0; 0; 0; 0; 0; 0; 0; 0; 0; 0; 0; 0; 0; 0; 0; 0; 0; 0; 0;
   0; 0; 0; 0; 0; 0; 0; 0; 0; 0; 0; 0; 0; 0; 0; 0; 0; 0; 0; 0; 0; 0; 0; 0; 0; 0; 0; 0; 0; 0; 0; 0; 0; 0; 0; 0;
   0; 0; 0; 0; 0; 0; 0; 0; 0; 0; 0; 2]
  [0x0000000000000000; 0x0000ffc000000000; 0x0000000003ff0000; 0x000003ff00000000; 0x00000000000003ff;
   0x000000000000ffc0; 0x0000000003ff03ff; 0x03ff000000000000; 0x03ff000003ff0000]
  [1; 2; 2; 2; 2; 3; 2; 2; 2; 2; 2; 2; 4; 5; 6; 2; 2; 2; 2; 2; 2; 2; 2; 2; 2; 2; 2; 2; 2; 2; 2; 2; 2; 2; 2; 2;
   2; 2; 2; 2; 2; 2; 2; 2; 2; 2; 2; 2; 2; 2; 2; 2; 2; 2; 2; 2; 2; 2; 2; 2; 2; 2; 2; 2; 2; 2; 2; 2; 2; 2; 2; 2;
   2; 2; 2; 2; 2; 2; 2; 2; 2; 2; 2; 2; 2; 2; 2; 2; 2; 2; 2; 2; 2; 2; 2; 2; 2; 2; 2; 2; 2; 2; 2; 2; 2; 2; 2; 2;
   2; 2; 2; 2; 2; 2; 2; 2; 2; 2; 2; 2; 2; 2; 2; 2; 2; 2; 2; 2; 2; 2; 2; 2; 2; 2; 2; 2; 2; 2; 2; 2; 2; 2; 2; 2;
   2; 2; 2; 2; 2; 2; 2; 2; 2; 2; 2; 2; 2; 2; 2; 2; 2; 2; 2; 2; 2; 2; 2; 2; 2; 2; 2; 2; 2; 2; 2; 2; 2; 2; 2; 2;
   2; 2; 2; 2; 2; 2; 2; 2; 2; 2; 2; 2; 2; 2; 2; 2; 2; 2; 2; 2; 2; 2; 2; 2; 2; 2; 2; 2; 2; 2; 2; 2; 2; 2; 2; 2;
   2; 2; 2; 2; 2; 2; 2; 2; 2; 2; 2; 2; 2; 2; 2; 2; 2; 2; 2; 2; 2; 2; 2; 2; 2; 2; 2; 2; 2; 2; 2; 2; 2; 2; 2; 2;
   2; 2; 2]
  [1; 0; 0; 0; 0; 0; 0; 0; 0; 0; 0; 0; 0; 0; 0; 0; 0; 0; 0; 0; 0; 0; 0; 0; 0; 0; 0; 0; 0; 0; 0; 0; 0; 0; 2; 0;
   0; 0; 0; 0; 0; 0; 0; 0; 0; 0; 0; 3; 0; 2; 4; 0; 0; 5; 0; 0; 0; 2; 0; 0; 0; 0; 0; 5; 0; 5; 0; 0; 0; 0; 0; 5;
   0; 6; 2; 0; 0; 0; 0; 0; 0; 1; 0; 5; 0; 0; 0; 0; 0; 0; 0; 0; 0; 0; 0; 5; 0; 0; 0; 5; 1; 0; 0; 0; 0; 0; 0; 0;
   0; 0; 0; 0; 0; 0; 0; 0; 0; 0; 0; 0; 0; 0; 0; 0; 0; 0; 0; 0; 0; 0; 0; 0; 0; 0; 0; 0; 0; 0; 0; 0; 0; 0; 0; 0;
   0; 0; 0; 0; 0; 0; 0; 0; 0; 0; 0; 0; 0; 0; 0; 0; 0; 0; 0; 0; 0; 0; 0; 0; 0; 0; 0; 0; 0; 0; 0; 0; 0; 0; 0; 0;
   0; 0; 0; 0; 0; 0; 0; 0; 0; 0; 0; 0; 0; 0; 0; 0; 0; 0; 0; 0; 0; 0; 0; 0; 0; 0; 0; 0; 0; 0; 0; 0; 0; 0; 0; 1;
   0; 6; 0; 5; 0; 0; 0; 0; 0; 0; 0; 0; 0; 0; 0; 0; 0; 0; 0; 0; 0; 0; 0; 0; 0; 0; 0; 0; 0; 0; 0; 0; 0; 0; 0; 0;
   0; 0; 0; 0; 0; 0; 0; 0; 0; 0; 0; 0; 0; 0; 0; 0; 0; 7; 0; 0; 0; 0; 0; 0; 0; 0; 0; 0; 0; 0; 0; 0; 0; 0; 0; 0;
   0; 0; 0; 0; 0; 0; 0; 0; 0; 0; 0; 0; 0; 0; 0; 0; 0; 0; 0; 6; 0; 0; 0; 0; 0; 2; 0; 0; 0; 0; 0; 0; 0; 0; 0; 0;
   0; 0; 0; 0; 0; 0; 0; 0; 0; 0; 0; 0; 0; 0; 0; 5; 0; 0; 0; 0; 0; 0; 0; 0; 0; 0; 0; 0; 0; 0; 0; 0; 0; 0; 0; 0;
   0; 0; 0; 0; 0; 0; 0; 0; 0; 0; 0; 0; 0; 0; 0; 0; 0; 0; 0; 0; 0; 0; 0; 0; 0; 0; 0; 0; 0; 0; 0; 0; 0; 0; 0; 0;
   0; 0; 0; 0; 0; 0; 0; 0; 0; 0; 0; 0; 0; 0; 0; 0; 0; 2]
  [0x0000000000000000; 0x000003ff00000000; 0x03ff000000000000; 0x0000ffc000000000; 0xffc0000000000000;
   0x0000000003ff0000; 0x00000000000003ff; 0xffffffffffffc000].
(** unicode-db.hpp lines 2052-2133. *)
Definition cat_lu : bool_trie := mkTrie 32 955 34 24 255 1 341 16 26
  [0x0000000000000000; 0x0000000007fffffe; 0x0000000000000000; 0x000000007f7fffff; 0xaa55555555555555;
   0x2b555555555554aa; 0x11aed2d5b1dbced6; 0x55d255554aaaa490; 0x6c05555555555555; 0x000000000000557a;
   0x0000000000000000; 0x0000000000000000; 0x0000000000000000; 0x8045000000000000; 0x00000ffbfffed740;
   0xe6905555551c8000; 0x0000ffffffffffff; 0x5555555500000000; 0x5555555555555401; 0x5555555555552aab;
   0xfffe555555555555; 0x00000000007fffff; 0x0000000000000000; 0x0000000000000000; 0x0000000000000000;
   0x0000000000000000; 0x0000000000000000; 0x0000000000000000; 0x0000000000000000; 0x0000000000000000;
   0x0000000000000000; 0x0000000000000000]
  [1; 2; 0; 0; 0; 0; 0; 0; 0; 0; 0; 0; 1; 3; 0; 0; 0; 0; 0; 0; 0; 0; 0; 0; 0; 0; 0; 0; 0; 0; 0; 0; 0; 0; 0; 0;
   0; 0; 0; 0; 0; 0; 0; 0; 0; 0; 0; 0; 4; 0; 0; 0; 0; 0; 5; 5; 6; 5; 7; 8; 9; 10; 0; 0; 0; 0; 11; 12; 13; 0; 0;
   0; 0; 0; 0; 0; 0; 0; 0; 0; 0; 0; 0; 0; 0; 0; 0; 0; 0; 0; 0; 0; 0; 0; 0; 0; 0; 0; 0; 0; 0; 0; 0; 0; 0; 0; 0;
   0; 0; 0; 14; 15; 5; 16; 0; 0; 0; 0; 0; 0; 0; 0; 0; 0; 0; 0; 0; 0; 0; 0; 0; 0; 0; 0; 0; 0; 0; 0; 0; 0; 0; 0;
   0; 0; 0; 0; 0; 0; 0; 0; 0; 0; 0; 0; 0; 0; 0; 0; 0; 0; 0; 0; 0; 0; 0; 0; 0; 0; 0; 0; 0; 0; 0; 0; 0; 0; 0; 0;
   0; 0; 0; 0; 0; 0; 0; 0; 0; 0; 0; 0; 0; 0; 0; 0; 0; 0; 0; 0; 0; 0; 0; 0; 0; 0; 0; 0; 0; 0; 0; 0; 0; 0; 0; 0;
   0; 0; 0; 0; 0; 0; 0; 0; 0; 0; 0; 0; 0; 0; 0; 0; 0; 0; 0; 0; 0; 0; 0; 0; 0; 0; 0; 0; 0; 0; 0; 0; 0; 0; 0; 0;
   0; 0; 0; 0; 0; 0; 0; 0; 0; 0; 0; 0; 0; 0; 0; 0; 0; 0; 0; 0; 0; 0; 0; 0; 0; 0; 0; 0; 0; 0; 0; 0; 0; 0; 0; 0;
   0; 0; 0; 0; 0; 0; 0; 0; 0; 0; 0; 0; 0; 0; 0; 0; 0; 0; 0; 0; 0; 0; 0; 0; 0; 0; 0; 0; 0; 0; 0; 0; 0; 0; 0; 0;
   0; 0; 0; 0; 0; 0; 0; 0; 0; 0; 0; 0; 0; 0; 0; 0; 0; 0; 0; 0; 0; 0; 0; 0; 0; 0; 0; 0; 0; 0; 0; 0; 0; 0; 0; 0;
   0; 0; 0; 0; 0; 0; 0; 0; 0; 0; 0; 0; 0; 0; 0; 0; 0; 0; 0; 0; 0; 0; 0; 0; 0; 0; 0; 0; 0; 0; 0; 0; 0; 0; 0; 0;
   0; 0; 0; 0; 0; 0; 0; 0; 0; 0; 0; 0; 0; 0; 0; 0; 0; 0; 0; 0; 0; 0; 0; 0; 0; 0; 0; 0; 0; 0; 0; 0; 0; 0; 0; 0;
   0; 0; 0; 0; 0; 0; 0; 0; 0; 0; 0; 0; 0; 0; 0; 0; 0; 0; 0; 0; 0; 0; 0; 0; 0; 0; 0; 0; 0; 0; 0; 0; 0; 0; 0; 0;
   0; 0; 0; 0; 0; 0; 0; 0; 0; 0; 0; 0; 0; 0; 0; 0; 0; 0; 0; 0; 0; 0; 0; 0; 0; 0; 0; 0; 0; 0; 0; 0; 0; 0; 0; 0;
   0; 0; 0; 0; 0; 0; 0; 0; 0; 0; 0; 0; 0; 0; 0; 0; 0; 0; 0; 0; 0; 0; 0; 0; 0; 0; 0; 0; 0; 0; 0; 0; 0; 0; 0; 0;
   0; 0; 0; 0; 0; 0; 0; 0; 0; 0; 0; 0; 0; 0; 0; 0; 0; 0; 0; 0; 0; 0; 0; 0; 0; 0; 0; 0; 0; 0; 0; 0; 0; 0; 0; 0;
   0; 0; 0; 0; 0; 0; 0; 0; 0; 0; 0; 0; 0; 0; 0; 0; 0; 0; 0; 0; 0; 0; 0; 0; 0; 17; 18; 0; 19; 20; 21; 22; 0; 0;
   0; 0; 0; 0; 0; 0; 0; 0; 0; 0; 0; 0; 0; 0; 0; 0; 0; 0; 0; 0; 0; 0; 0; 0; 0; 0; 0; 0; 0; 0; 0; 0; 0; 0; 0; 0;
   0; 0; 0; 0; 0; 0; 0; 0; 0; 0; 0; 0; 0; 0; 0; 0; 0; 0; 0; 0; 0; 0; 0; 0; 0; 0; 0; 0; 0; 0; 0; 0; 0; 0; 0; 0;
   0; 0; 0; 0; 0; 0; 0; 0; 0; 0; 0; 0; 0; 0; 0; 0; 0; 0; 0; 0; 0; 0; 0; 0; 0; 0; 0; 0; 0; 0; 0; 0; 0; 0; 0; 0;
   0; 0; 0; 0; 0; 0; 0; 0; 0; 0; 0; 0; 0; 0; 0; 0; 0; 0; 0; 0; 0; 0; 0; 0; 0; 0; 0; 0; 0; 0; 0; 0; 0; 0; 0; 0;
   0; 0; 0; 0; 0; 0; 0; 0; 0; 0; 0; 0; 0; 0; 0; 0; 0; 0; 0; 0; 0; 0; 0; 0; 0; 0; 0; 0; 0; 0; 0; 0; 0; 0; 0; 0;
   0; 0; 0; 0; 0; 0; 0; 0; 0; 0; 0; 0; 0; 0; 0; 0; 0; 0; 0; 0; 0; 0; 0; 0; 0; 0; 0; 0; 0; 0; 0; 0; 0; 0; 0; 0;
   0; 0; 0; 0; 0; 0; 0; 0; 0; 0; 0; 0; 0; 0; 0; 0; 0; 0; 0; 0; 0; 0; 0; 0; 0; 0; 0; 0; 0; 0; 0; 0; 0; 0; 0; 0;
   0; 0; 0; 0; 0; 0; 0; 0; 0; 0; 0; 0; 0; 0; 0; 0; 0; 0; 0; 0; 0; 0; 0; 0; 0; 0; 0; 0; 0; 0; 0; 0; 0; 0; 0; 0;
   0; 0; 0; 0; 0; 0; 0; 0; 0; 0; 0; 0; 0; 0; 0; 0; 0; 0; 0; 0; 0; 0; 0; 0; 0; 0; 0; 0; 0; 0; 0; 0; 0; 0; 0; 0;
   0; 0; 0; 0; 0; 0; 0; 0; 0; 0; 0; 0; 0; 0; 0; 0; 0; 0; 0; 0; 0; 0; 23]
  [0x0000000000000000; 0xffffffff00000000; 0x00000000000020bf; 0x003fffffffffffff; 0xe7ffffffffff0000;
   0x5555555555555555; 0x5555555540155555; 0xff00ff003f00ff00; 0x0000ff00aa003f00; 0x0f00000000000000;
   0x0f001f000f000f00; 0xc00f3d503e273884; 0x0000000000000020; 0x0000000000000008; 0x0000ffffffffffff;
   0xc025ea9d00000000; 0x0004280555555555; 0x0000155555555555; 0x0000000005555555; 0x5554555400000000;
   0x6a00555555555555; 0x555f7d5555452855; 0x00200000014102f5; 0x07fffffe00000000]
  [1; 2; 2; 2; 2; 3; 2; 2; 2; 2; 2; 2; 4; 5; 2; 2; 2; 2; 2; 2; 2; 2; 2; 2; 2; 2; 2; 2; 2; 2; 2; 2; 2; 2; 2; 2;
   2; 2; 2; 2; 2; 2; 2; 2; 2; 2; 2; 2; 2; 2; 2; 2; 2; 2; 2; 2; 2; 2; 2; 2; 2; 2; 2; 2; 2; 2; 2; 2; 2; 2; 2; 2;
   2; 2; 2; 2; 2; 2; 2; 2; 2; 2; 2; 2; 2; 2; 2; 2; 2; 2; 2; 2; 2; 2; 2; 2; 2; 2; 2; 2; 2; 2; 2; 2; 2; 2; 2; 2;
   2; 2; 2; 2; 2; 2; 2; 2; 2; 2; 2; 2; 2; 2; 2; 2; 2; 2; 2; 2; 2; 2; 2; 2; 2; 2; 2; 2; 2; 2; 2; 2; 2; 2; 2; 2;
   2; 2; 2; 2; 2; 2; 2; 2; 2; 2; 2; 2; 2; 2; 2; 2; 2; 2; 2; 2; 2; 2; 2; 2; 2; 2; 2; 2; 2; 2; 2; 2; 2; 2; 2; 2;
   2; 2; 2; 2; 2; 2; 2; 2; 2; 2; 2; 2; 2; 2; 2; 2; 2; 2; 2; 2; 2; 2; 2; 2; 2; 2; 2; 2; 2; 2; 2; 2; 2; 2; 2; 2;
   2; 2; 2; 2; 2; 2; 2; 2; 2; 2; 2; 2; 2; 2; 2; 2; 2; 2; 2; 2; 2; 2; 2; 2; 2; 2; 2; 2; 2; 2; 2; 2; 2; 2; 2; 2;
   2; 2; 2]
  [1; 0; 2; 3; 0; 4; 5; 0; 0; 0; 0; 0; 0; 0; 0; 0; 0; 0; 0; 0; 0; 0; 0; 0; 0; 0; 0; 0; 0; 0; 0; 0; 0; 0; 6; 0;
   0; 0; 0; 0; 0; 0; 0; 0; 0; 0; 0; 0; 0; 0; 0; 0; 0; 0; 0; 0; 0; 0; 0; 0; 0; 0; 0; 0; 0; 0; 0; 0; 0; 0; 0; 0;
   0; 0; 0; 0; 0; 0; 0; 0; 0; 0; 7; 0; 0; 0; 0; 0; 0; 0; 0; 0; 0; 0; 0; 0; 0; 0; 0; 0; 0; 0; 0; 0; 0; 0; 0; 0;
   0; 0; 0; 0; 0; 0; 0; 0; 0; 0; 0; 0; 0; 0; 0; 0; 0; 0; 0; 0; 0; 0; 0; 0; 0; 0; 0; 0; 0; 0; 0; 0; 0; 0; 0; 0;
   0; 0; 0; 0; 0; 0; 0; 0; 0; 0; 0; 0; 0; 0; 0; 0; 0; 0; 0; 0; 0; 0; 0; 0; 0; 0; 0; 0; 0; 0; 0; 0; 0; 0; 0; 0;
   0; 0; 0; 0; 0; 0; 0; 0; 0; 0; 0; 0; 0; 0; 0; 0; 0; 0; 0; 0; 0; 0; 0; 0; 0; 0; 0; 0; 0; 0; 0; 0; 0; 0; 0; 0;
   0; 0; 0; 0; 0; 0; 0; 0; 0; 0; 0; 0; 0; 0; 0; 0; 0; 8; 0; 0; 0; 0; 0; 0; 0; 0; 0; 0; 0; 0; 0; 0; 0; 0; 0; 0;
   0; 0; 0; 0; 9; 10; 11; 12; 13; 14; 15; 16; 17; 18; 19; 20; 21; 22; 23; 24; 0; 0; 0; 0; 0; 0; 0; 0; 0; 0; 0;
   0; 0; 0; 0; 0; 0; 0; 0; 0; 0; 0; 0; 0; 0; 0; 0; 0; 0; 0; 0; 0; 0; 0; 0; 0; 0; 0; 0; 0; 0; 0; 0; 0; 0; 0; 0;
   0; 0; 0; 0; 0; 0; 0; 0; 0; 0; 0; 0; 0; 0; 0; 0; 0; 0; 0; 0; 0; 25]
  [0x0000000000000000; 0x000000ffffffffff; 0xffff000000000000; 0x00000000000fffff; 0xf7ff000000000000;
   0x000000000037f7ff; 0x0007ffffffffffff; 0xffffffff00000000; 0x00000000ffffffff; 0xfff0000003ffffff;
   0xffffff0000003fff; 0x003fde64d0000003; 0x000003ffffff0000; 0x7b0000001fdfe7b0; 0xfffff0000001fc5f;
   0x03ffffff0000003f; 0x00003ffffff00000; 0xf0000003ffffff00; 0xffff0000003fffff; 0xffffff00000003ff;
   0x07fffffc00000001; 0x001ffffff0000000; 0x00007fffffc00000; 0x000001ffffff0000; 0x0000000000000400;
   0x00000003ffffffff].
(** unicode-db.hpp lines 2134-2184. *)
Definition cat_sk : bool_trie := mkTrie 32 990 2 13 1 15 1 79 2
  [0x0000000000000000; 0x0000000140000000; 0x0110810000000000; 0x0000000000000000; 0x0000000000000000;
   0x0000000000000000; 0x0000000000000000; 0x0000000000000000; 0x0000000000000000; 0x0000000000000000;
   0x0000000000000000; 0xffffafe0fffc003c; 0x0000000000000000; 0x0020000000000000; 0x0000000000000030;
   0x0000000000000000; 0x0000000000000000; 0x0000000000000000; 0x0000000000000000; 0x0000000000000000;
   0x0000000000000000; 0x0000000000000000; 0x0000000000000000; 0x0000000000000000; 0x0000000000000000;
   0x0000000000000000; 0x0000000000000000; 0x0000000000000000; 0x0000000000000000; 0x0000000000000000;
   0x0000000000000000; 0x0000000000000000]
  [1; 0; 0; 0; 0; 0; 0; 0; 0; 0; 0; 0; 0; 0; 0; 0; 0; 0; 0; 0; 0; 0; 0; 0; 0; 0; 0; 0; 0; 0; 0; 0; 0; 0; 0; 0;
   0; 0; 0; 0; 0; 0; 0; 0; 0; 0; 0; 0; 0; 0; 0; 0; 0; 0; 0; 0; 0; 0; 0; 0; 0; 0; 0; 0; 0; 0; 0; 0; 0; 0; 0; 0;
   0; 0; 0; 0; 0; 0; 0; 0; 0; 0; 0; 0; 0; 0; 0; 0; 0; 0; 0; 0; 2; 3; 0; 0; 0; 0; 0; 0; 0; 0; 0; 0; 0; 0; 0; 0;
   0; 0; 0; 0; 0; 0; 0; 0; 0; 0; 0; 0; 0; 0; 0; 0; 0; 0; 0; 0; 0; 0; 0; 0; 0; 0; 0; 0; 0; 0; 0; 0; 0; 0; 0; 0;
   0; 0; 0; 0; 0; 0; 0; 0; 0; 0; 0; 0; 0; 0; 0; 0; 4; 0; 0; 0; 0; 0; 0; 0; 0; 0; 0; 0; 0; 0; 0; 0; 0; 0; 0; 0;
   0; 0; 0; 0; 0; 0; 0; 0; 0; 0; 0; 0; 0; 0; 0; 0; 0; 0; 0; 0; 0; 0; 0; 0; 0; 0; 0; 0; 0; 0; 0; 0; 0; 0; 0; 0;
   0; 0; 0; 0; 0; 0; 0; 0; 0; 0; 0; 0; 0; 0; 0; 0; 0; 0; 0; 0; 0; 0; 0; 0; 0; 0; 0; 0; 0; 0; 0; 0; 0; 0; 0; 0;
   0; 0; 0; 0; 0; 0; 0; 0; 0; 0; 0; 0; 0; 0; 0; 0; 0; 0; 0; 0; 0; 0; 0; 0; 0; 0; 0; 0; 0; 0; 0; 0; 0; 0; 0; 0;
   0; 0; 0; 0; 0; 0; 0; 0; 0; 0; 0; 0; 0; 0; 0; 0; 0; 0; 0; 0; 0; 0; 0; 0; 0; 0; 0; 0; 0; 0; 0; 0; 0; 0; 0; 0;
   0; 0; 0; 0; 0; 0; 0; 0; 0; 0; 0; 0; 0; 0; 0; 0; 0; 0; 0; 0; 0; 0; 0; 0; 0; 0; 0; 0; 0; 0; 0; 0; 0; 0; 0; 0;
   0; 0; 0; 0; 0; 0; 0; 0; 0; 0; 0; 0; 0; 0; 0; 0; 0; 0; 0; 0; 0; 0; 0; 0; 0; 0; 0; 0; 0; 0; 0; 0; 0; 0; 0; 0;
   0; 0; 0; 0; 0; 0; 0; 0; 0; 0; 0; 0; 0; 0; 0; 0; 0; 0; 0; 0; 0; 0; 0; 0; 0; 0; 0; 0; 0; 0; 0; 0; 0; 0; 0; 0;
   0; 0; 0; 0; 0; 0; 0; 0; 0; 0; 0; 0; 0; 0; 0; 0; 0; 0; 0; 0; 0; 0; 0; 0; 0; 0; 0; 0; 0; 0; 0; 0; 0; 0; 0; 0;
   0; 0; 0; 0; 0; 0; 0; 0; 0; 0; 0; 0; 0; 0; 0; 0; 0; 0; 0; 0; 0; 0; 0; 0; 0; 0; 0; 0; 0; 0; 0; 0; 0; 0; 0; 0;
   0; 0; 0; 0; 0; 0; 0; 0; 0; 0; 0; 0; 0; 0; 0; 0; 0; 0; 0; 0; 0; 0; 0; 0; 0; 0; 0; 0; 0; 0; 0; 0; 0; 0; 0; 0;
   0; 0; 0; 0; 0; 0; 0; 0; 0; 0; 0; 0; 0; 0; 0; 0; 0; 0; 0; 0; 0; 0; 0; 0; 0; 0; 0; 0; 0; 0; 0; 0; 0; 0; 0; 0;
   0; 0; 0; 0; 0; 0; 0; 0; 0; 0; 0; 0; 0; 0; 0; 0; 0; 0; 0; 0; 0; 0; 0; 0; 0; 0; 0; 0; 0; 0; 0; 0; 0; 0; 0; 0;
   0; 0; 0; 0; 0; 0; 0; 0; 0; 0; 0; 0; 0; 0; 0; 0; 0; 0; 0; 0; 0; 0; 5; 0; 6; 0; 0; 0; 0; 0; 0; 0; 0; 0; 0; 0;
   0; 0; 0; 7; 0; 0; 0; 0; 0; 0; 0; 0; 0; 0; 0; 0; 0; 0; 0; 0; 0; 0; 0; 0; 0; 0; 0; 0; 0; 0; 0; 0; 0; 0; 0; 0;
   0; 0; 0; 0; 0; 0; 0; 0; 0; 0; 0; 0; 0; 0; 0; 0; 0; 0; 0; 0; 0; 0; 0; 0; 0; 0; 0; 0; 0; 0; 0; 0; 0; 0; 0; 0;
   0; 0; 0; 0; 0; 0; 0; 0; 0; 0; 0; 0; 0; 0; 0; 0; 0; 0; 0; 0; 0; 0; 0; 0; 0; 0; 0; 0; 0; 0; 0; 0; 0; 0; 0; 0;
   0; 0; 0; 0; 0; 0; 0; 0; 0; 0; 0; 0; 0; 0; 0; 0; 0; 0; 0; 0; 0; 0; 0; 0; 0; 0; 0; 0; 0; 0; 0; 0; 0; 0; 0; 0;
   0; 0; 0; 0; 0; 0; 0; 0; 0; 0; 0; 0; 0; 0; 0; 0; 0; 0; 0; 0; 0; 0; 0; 0; 0; 0; 0; 0; 0; 0; 0; 0; 0; 0; 0; 0;
   0; 0; 0; 0; 0; 0; 0; 0; 0; 0; 0; 0; 0; 0; 0; 0; 0; 0; 0; 0; 0; 0; 0; 0; 0; 0; 0; 0; 0; 0; 0; 0; 0; 0; 0; 0;
   0; 0; 0; 0; 0; 0; 0; 0; 0; 0; 0; 0; 0; 0; 0; 0; 0; 0; 0; 0; 0; 0; 0; 0; 0; 0; 0; 0; 0; 0; 0; 0; 0; 0; 0; 0;
   0; 0; 0; 0; 0; 0; 0; 0; 0; 0; 0; 0; 0; 0; 0; 0; 0; 0; 0; 0; 0; 0; 0; 0; 0; 0; 0; 0; 0; 0; 0; 0; 0; 0; 0; 0;
   0; 0; 0; 0; 0; 0; 0; 0; 0; 0; 0; 0; 0; 0; 0; 0; 0; 0; 0; 0; 0; 0; 0; 0; 0; 0; 0; 0; 0; 0; 0; 0; 0; 0; 0; 0;
   8; 9; 0; 0; 0; 0; 0; 0; 0; 0; 0; 0; 0; 0; 10; 11; 0; 12]
  [0x0000000000000000; 0x0000000000000100; 0xa000000000000000; 0x6000e000e000e003; 0x0000000018000000;
   0x00000003007fffff; 0x0000000000000600; 0x00000c0008000000; 0xfffc000000000000; 0x0000000000000007;
   0x4000000000000000; 0x0000000000000001; 0x0000000800000000]
  [1]
  [1]
  [0x0000000000000000; 0xf800000000000000].
(** unicode-db.hpp lines 2185-2186. *)
Definition cat_pc : list Z :=
  [0x2040; 0xfe4d; 0xfe4e; 0xfe4f; 0xfe33; 0x2054; 0xfe34; 0xff3f; 0x005f; 0x203f].
(** unicode-db.hpp lines 2187-2272. *)
Definition cat_ll : bool_trie := mkTrie 32 955 35 30 255 1 342 16 27
  [0x0000000000000000; 0x07fffffe00000000; 0x0020000000000000; 0xff7fffff80000000; 0x55aaaaaaaaaaaaaa;
   0xd4aaaaaaaaaaab55; 0xe6512d2a4e243129; 0xaa29aaaab5555240; 0x93faaaaaaaaaaaaa; 0xffffffffffffaa85;
   0x0000ffffffefffff; 0x0000000000000000; 0x0000000000000000; 0x388a000000000000; 0xfffff00000010000;
   0x192faaaaaae37fff; 0xffff000000000000; 0xaaaaaaaaffffffff; 0xaaaaaaaaaaaaa802; 0xaaaaaaaaaaaad554;
   0x0000aaaaaaaaaaaa; 0xffffffff00000000; 0x00000000000001ff; 0x0000000000000000; 0x0000000000000000;
   0x0000000000000000; 0x0000000000000000; 0x0000000000000000; 0x0000000000000000; 0x0000000000000000;
   0x0000000000000000; 0x0000000000000000]
  [1; 0; 0; 0; 0; 0; 0; 0; 0; 0; 0; 0; 2; 0; 0; 0; 0; 0; 0; 0; 0; 0; 0; 0; 0; 0; 0; 0; 0; 0; 0; 0; 0; 0; 0; 0;
   0; 0; 0; 0; 0; 0; 0; 0; 0; 0; 0; 3; 0; 4; 5; 6; 0; 7; 7; 8; 7; 9; 10; 11; 12; 0; 0; 0; 0; 13; 14; 15; 0; 0;
   0; 0; 0; 0; 0; 0; 0; 0; 0; 0; 0; 0; 0; 0; 0; 0; 0; 0; 0; 0; 0; 0; 0; 0; 0; 0; 0; 0; 0; 0; 0; 0; 0; 0; 0; 0;
   0; 0; 0; 16; 17; 7; 18; 19; 0; 0; 0; 0; 0; 0; 0; 0; 0; 0; 0; 0; 0; 0; 0; 0; 0; 0; 0; 0; 0; 0; 0; 0; 0; 0; 0;
   0; 0; 0; 0; 0; 0; 0; 0; 0; 0; 0; 0; 0; 0; 0; 0; 0; 0; 0; 0; 0; 0; 0; 0; 0; 0; 0; 0; 0; 0; 0; 0; 0; 0; 0; 0;
   0; 0; 0; 0; 0; 0; 0; 0; 0; 0; 0; 0; 0; 0; 0; 0; 0; 0; 0; 0; 0; 0; 0; 0; 0; 0; 0; 0; 0; 0; 0; 0; 0; 0; 0; 0;
   0; 0; 0; 0; 0; 0; 0; 0; 0; 0; 0; 0; 0; 0; 0; 0; 0; 0; 0; 0; 0; 0; 0; 0; 0; 0; 0; 0; 0; 0; 0; 0; 0; 0; 0; 0;
   0; 0; 0; 0; 0; 0; 0; 0; 0; 0; 0; 0; 0; 0; 0; 0; 0; 0; 0; 0; 0; 0; 0; 0; 0; 0; 0; 0; 0; 0; 0; 0; 0; 0; 0; 0;
   0; 0; 0; 0; 0; 0; 0; 0; 0; 0; 0; 0; 0; 0; 0; 0; 0; 0; 0; 0; 0; 0; 0; 0; 0; 0; 0; 0; 0; 0; 0; 0; 0; 0; 0; 0;
   0; 0; 0; 0; 0; 0; 0; 0; 0; 0; 0; 0; 0; 0; 0; 0; 0; 0; 0; 0; 0; 0; 0; 0; 0; 0; 0; 0; 0; 0; 0; 0; 0; 0; 0; 0;
   0; 0; 0; 0; 0; 0; 0; 0; 0; 0; 0; 0; 0; 0; 0; 0; 0; 0; 0; 0; 0; 0; 0; 0; 0; 0; 0; 0; 0; 0; 0; 0; 0; 0; 0; 0;
   0; 0; 0; 0; 0; 0; 0; 0; 0; 0; 0; 0; 0; 0; 0; 0; 0; 0; 0; 0; 0; 0; 0; 0; 0; 0; 0; 0; 0; 0; 0; 0; 0; 0; 0; 0;
   0; 0; 0; 0; 0; 0; 0; 0; 0; 0; 0; 0; 0; 0; 0; 0; 0; 0; 0; 0; 0; 0; 0; 0; 0; 0; 0; 0; 0; 0; 0; 0; 0; 0; 0; 0;
   0; 0; 0; 0; 0; 0; 0; 0; 0; 0; 0; 0; 0; 0; 0; 0; 0; 0; 0; 0; 0; 0; 0; 0; 0; 0; 0; 0; 0; 0; 0; 0; 0; 0; 0; 0;
   0; 0; 0; 0; 0; 0; 0; 0; 0; 0; 0; 0; 0; 0; 0; 0; 0; 0; 0; 0; 0; 0; 0; 0; 0; 0; 0; 0; 0; 0; 0; 0; 0; 0; 0; 0;
   0; 0; 0; 0; 0; 0; 0; 0; 0; 0; 0; 0; 0; 0; 0; 0; 0; 0; 0; 0; 0; 0; 0; 0; 0; 0; 0; 0; 0; 0; 0; 0; 0; 0; 0; 0;
   0; 0; 0; 0; 0; 0; 0; 0; 0; 0; 0; 0; 0; 0; 0; 0; 0; 0; 0; 0; 0; 0; 0; 0; 0; 20; 21; 0; 22; 23; 24; 25; 0; 0;
   0; 0; 0; 0; 0; 0; 0; 0; 0; 0; 16; 26; 27; 0; 0; 0; 0; 0; 0; 0; 0; 0; 0; 0; 0; 0; 0; 0; 0; 0; 0; 0; 0; 0; 0;
   0; 0; 0; 0; 0; 0; 0; 0; 0; 0; 0; 0; 0; 0; 0; 0; 0; 0; 0; 0; 0; 0; 0; 0; 0; 0; 0; 0; 0; 0; 0; 0; 0; 0; 0; 0;
   0; 0; 0; 0; 0; 0; 0; 0; 0; 0; 0; 0; 0; 0; 0; 0; 0; 0; 0; 0; 0; 0; 0; 0; 0; 0; 0; 0; 0; 0; 0; 0; 0; 0; 0; 0;
   0; 0; 0; 0; 0; 0; 0; 0; 0; 0; 0; 0; 0; 0; 0; 0; 0; 0; 0; 0; 0; 0; 0; 0; 0; 0; 0; 0; 0; 0; 0; 0; 0; 0; 0; 0;
   0; 0; 0; 0; 0; 0; 0; 0; 0; 0; 0; 0; 0; 0; 0; 0; 0; 0; 0; 0; 0; 0; 0; 0; 0; 0; 0; 0; 0; 0; 0; 0; 0; 0; 0; 0;
   0; 0; 0; 0; 0; 0; 0; 0; 0; 0; 0; 0; 0; 0; 0; 0; 0; 0; 0; 0; 0; 0; 0; 0; 0; 0; 0; 0; 0; 0; 0; 0; 0; 0; 0; 0;
   0; 0; 0; 0; 0; 0; 0; 0; 0; 0; 0; 0; 0; 0; 0; 0; 0; 0; 0; 0; 0; 0; 0; 0; 0; 0; 0; 0; 0; 0; 0; 0; 0; 0; 0; 0;
   0; 0; 0; 0; 0; 0; 0; 0; 0; 0; 0; 0; 0; 0; 0; 0; 0; 0; 0; 0; 0; 0; 0; 0; 0; 0; 0; 0; 0; 0; 0; 0; 0; 0; 0; 0;
   0; 0; 0; 0; 0; 0; 0; 0; 0; 0; 0; 0; 0; 0; 0; 0; 0; 0; 0; 0; 0; 0; 0; 0; 0; 0; 0; 0; 0; 0; 0; 0; 0; 0; 0; 0;
   0; 0; 0; 0; 0; 0; 0; 28; 0; 0; 0; 0; 0; 0; 0; 0; 0; 0; 0; 0; 0; 0; 0; 0; 29]
  [0x0000000000000000; 0xe7ffffffffff0000; 0x3f00000000000000; 0x00000000000001ff; 0x00000fffffffffff;
   0xfefff80000000000; 0x0000000007ffffff; 0xaaaaaaaaaaaaaaaa; 0xaaaaaaaabfeaaaaa; 0x00ff00ff003f00ff;
   0x3fff00ff00ff003f; 0x40df00ff00ff00ff; 0x00dc00ff00cf00dc; 0x321080000008c400; 0x00000000000043c0;
   0x0000000000000010; 0xffff000000000000; 0x0fda1562ffffffff; 0x0008501aaaaaaaaa; 0x000020bfffffffff;
   0x00002aaaaaaaaaaa; 0x000000000aaaaaaa; 0xaaabaaa800000000; 0x95feaaaaaaaaaaaa; 0xaaa082aaaaba50aa;
   0x0440000002aa050a; 0xffff01ff07ffffff; 0xffffffffffffffff; 0x0000000000f8007f; 0x0000000007fffffe]
  [1; 2; 2; 2; 2; 3; 2; 2; 2; 2; 2; 2; 4; 5; 2; 2; 2; 2; 2; 2; 2; 2; 2; 2; 2; 2; 2; 2; 2; 2; 2; 2; 2; 2; 2; 2;
   2; 2; 2; 2; 2; 2; 2; 2; 2; 2; 2; 2; 2; 2; 2; 2; 2; 2; 2; 2; 2; 2; 2; 2; 2; 2; 2; 2; 2; 2; 2; 2; 2; 2; 2; 2;
   2; 2; 2; 2; 2; 2; 2; 2; 2; 2; 2; 2; 2; 2; 2; 2; 2; 2; 2; 2; 2; 2; 2; 2; 2; 2; 2; 2; 2; 2; 2; 2; 2; 2; 2; 2;
   2; 2; 2; 2; 2; 2; 2; 2; 2; 2; 2; 2; 2; 2; 2; 2; 2; 2; 2; 2; 2; 2; 2; 2; 2; 2; 2; 2; 2; 2; 2; 2; 2; 2; 2; 2;
   2; 2; 2; 2; 2; 2; 2; 2; 2; 2; 2; 2; 2; 2; 2; 2; 2; 2; 2; 2; 2; 2; 2; 2; 2; 2; 2; 2; 2; 2; 2; 2; 2; 2; 2; 2;
   2; 2; 2; 2; 2; 2; 2; 2; 2; 2; 2; 2; 2; 2; 2; 2; 2; 2; 2; 2; 2; 2; 2; 2; 2; 2; 2; 2; 2; 2; 2; 2; 2; 2; 2; 2;
   2; 2; 2; 2; 2; 2; 2; 2; 2; 2; 2; 2; 2; 2; 2; 2; 2; 2; 2; 2; 2; 2; 2; 2; 2; 2; 2; 2; 2; 2; 2; 2; 2; 2; 2; 2;
   2; 2; 2]
  [1; 2; 0; 3; 0; 0; 4; 0; 0; 0; 0; 0; 0; 0; 0; 0; 0; 0; 0; 0; 0; 0; 0; 0; 0; 0; 0; 0; 0; 0; 0; 0; 0; 0; 0; 5;
   0; 0; 0; 0; 0; 0; 0; 0; 0; 0; 0; 0; 0; 0; 0; 0; 0; 0; 0; 0; 0; 0; 0; 0; 0; 0; 0; 0; 0; 0; 0; 0; 0; 0; 0; 0;
   0; 0; 0; 0; 0; 0; 0; 0; 0; 0; 0; 6; 0; 0; 0; 0; 0; 0; 0; 0; 0; 0; 0; 0; 0; 0; 0; 0; 0; 0; 0; 0; 0; 0; 0; 0;
   0; 0; 0; 0; 0; 0; 0; 0; 0; 0; 0; 0; 0; 0; 0; 0; 0; 0; 0; 0; 0; 0; 0; 0; 0; 0; 0; 0; 0; 0; 0; 0; 0; 0; 0; 0;
   0; 0; 0; 0; 0; 0; 0; 0; 0; 0; 0; 0; 0; 0; 0; 0; 0; 0; 0; 0; 0; 0; 0; 0; 0; 0; 0; 0; 0; 0; 0; 0; 0; 0; 0; 0;
   0; 0; 0; 0; 0; 0; 0; 0; 0; 0; 0; 0; 0; 0; 0; 0; 0; 0; 0; 0; 0; 0; 0; 0; 0; 0; 0; 0; 0; 0; 0; 0; 0; 0; 0; 0;
   0; 0; 0; 0; 0; 0; 0; 0; 0; 0; 0; 0; 0; 0; 0; 0; 0; 7; 0; 0; 0; 0; 0; 0; 0; 0; 0; 0; 0; 0; 0; 0; 0; 0; 0; 0;
   0; 0; 0; 0; 8; 9; 10; 11; 12; 13; 14; 15; 16; 17; 18; 19; 20; 21; 22; 23; 0; 0; 0; 0; 0; 0; 0; 0; 0; 0; 0;
   0; 0; 0; 0; 0; 0; 0; 0; 0; 0; 0; 0; 0; 0; 0; 0; 0; 24; 0; 0; 0; 0; 0; 0; 0; 0; 0; 0; 0; 0; 0; 0; 0; 0; 0; 0;
   0; 0; 0; 0; 0; 0; 0; 0; 0; 0; 0; 0; 0; 0; 0; 0; 0; 0; 0; 0; 0; 25; 26]
  [0x0000000000000000; 0xffffff0000000000; 0x000000000000ffff; 0x0fffffffff000000; 0x1bfbfffbff800000;
   0x0007ffffffffffff; 0x00000000ffffffff; 0xffffffff00000000; 0x000ffffffc000000; 0x000000ffffdfc000;
   0xebc000000ffffffc; 0xfffffc000000ffef; 0x00ffffffc000000f; 0x00000ffffffc0000; 0xfc000000ffffffc0;
   0xffffc000000fffff; 0x0ffffffc000000ff; 0x0000ffffffc00000; 0x0000003ffffffc00; 0xf0000003f7fffffc;
   0xffc000000fdfffff; 0xffff0000003f7fff; 0xfffffc000000fdff; 0x0000000000000bf7; 0x000000007ffffbff;
   0xfffffffc00000000; 0x000000000000000f].
(** unicode-db.hpp lines 2273-2384. *)
Definition cat_so : bool_trie := mkTrie 32 985 7 54 255 1 556 4 48
  [0x0000000000000000; 0x0000000000000000; 0x0001424000000000; 0x0000000000000000; 0x0000000000000000;
   0x0000000000000000; 0x0000000000000000; 0x0000000000000000; 0x0000000000000000; 0x0000000000000000;
   0x0000000000000000; 0x0000000000000000; 0x0000000000000000; 0x0000000000000000; 0x0000000000000000;
   0x0000000000000000; 0x0000000000000000; 0x0000000000000000; 0x0000000000000004; 0x0000000000000000;
   0x0000000000000000; 0x0000000000000000; 0x0000000000006000; 0x0000000000000000; 0x000000000000c000;
   0x0000000000000000; 0x0000000000000000; 0x6000020040000000; 0x0000000000000000; 0x0000000000000000;
   0x0000000000000000; 0x0040000000000000]
  [1; 0; 0; 0; 0; 0; 2; 0; 3; 0; 4; 0; 0; 0; 5; 0; 0; 0; 0; 0; 0; 6; 0; 7; 8; 0; 0; 9; 0; 0; 0; 0; 0; 0; 0; 0;
   0; 0; 0; 10; 0; 0; 0; 0; 0; 0; 0; 0; 0; 0; 11; 0; 0; 0; 0; 0; 0; 0; 0; 0; 0; 0; 12; 0; 13; 0; 0; 0; 0; 0;
   14; 0; 0; 0; 0; 0; 0; 0; 0; 0; 0; 0; 0; 0; 0; 0; 0; 0; 0; 0; 0; 0; 0; 15; 16; 17; 18; 0; 0; 0; 0; 19; 20;
   21; 22; 23; 24; 25; 26; 27; 27; 28; 29; 27; 30; 27; 27; 27; 31; 32; 0; 27; 27; 27; 27; 0; 0; 0; 0; 0; 0; 0;
   0; 33; 34; 35; 27; 0; 0; 0; 36; 0; 0; 0; 0; 0; 37; 38; 39; 27; 27; 27; 40; 41; 0; 0; 0; 0; 0; 42; 43; 44;
   45; 46; 27; 27; 27; 27; 27; 0; 0; 0; 0; 0; 0; 0; 0; 0; 0; 0; 0; 0; 0; 0; 0; 0; 0; 0; 0; 0; 0; 0; 0; 0; 0; 0;
   0; 0; 0; 0; 0; 0; 0; 0; 0; 0; 0; 0; 0; 0; 0; 0; 0; 0; 0; 0; 0; 0; 0; 0; 0; 0; 0; 0; 0; 0; 0; 0; 0; 0; 0; 0;
   0; 0; 0; 0; 0; 0; 0; 0; 0; 0; 0; 0; 0; 0; 0; 0; 0; 0; 0; 0; 0; 0; 0; 0; 0; 0; 0; 0; 0; 0; 0; 0; 0; 0; 0; 0;
   0; 0; 0; 0; 27; 0; 0; 0; 0; 0; 0; 0; 0; 0; 0; 0; 0; 0; 0; 0; 0; 0; 0; 0; 0; 0; 0; 0; 0; 0; 0; 0; 0; 0; 0; 0;
   0; 0; 0; 0; 0; 0; 0; 0; 0; 0; 0; 0; 0; 0; 0; 0; 0; 0; 0; 0; 0; 0; 0; 0; 0; 0; 0; 0; 0; 0; 0; 0; 0; 0; 0; 0;
   0; 0; 0; 0; 0; 0; 0; 0; 0; 0; 0; 0; 0; 0; 0; 0; 0; 0; 0; 0; 0; 0; 0; 0; 0; 0; 0; 0; 0; 0; 0; 0; 0; 0; 0; 0;
   0; 0; 0; 0; 0; 0; 0; 0; 0; 0; 0; 0; 0; 0; 0; 0; 0; 0; 0; 0; 0; 0; 0; 0; 0; 0; 0; 0; 0; 0; 0; 0; 0; 0; 0; 0;
   0; 0; 0; 0; 0; 0; 0; 0; 0; 0; 0; 0; 0; 0; 0; 0; 0; 0; 0; 0; 0; 0; 0; 0; 0; 0; 0; 0; 0; 0; 0; 0; 0; 0; 0; 0;
   0; 0; 0; 0; 0; 0; 0; 0; 0; 0; 0; 0; 0; 0; 0; 0; 0; 0; 0; 0; 0; 0; 0; 0; 0; 0; 0; 0; 0; 0; 0; 0; 0; 0; 0; 0;
   0; 0; 0; 0; 0; 0; 0; 0; 0; 0; 0; 0; 0; 0; 0; 0; 0; 0; 0; 0; 0; 0; 0; 0; 0; 0; 0; 0; 0; 0; 0; 0; 0; 0; 0; 0;
   0; 0; 0; 0; 0; 0; 0; 0; 0; 0; 0; 0; 0; 0; 0; 0; 0; 0; 0; 0; 0; 0; 0; 0; 0; 0; 0; 0; 0; 0; 0; 0; 0; 0; 0; 0;
   0; 0; 0; 0; 0; 0; 0; 0; 0; 0; 0; 0; 0; 0; 0; 0; 0; 0; 0; 0; 0; 0; 0; 0; 0; 0; 0; 0; 0; 0; 0; 0; 0; 0; 0; 0;
   0; 0; 0; 0; 0; 0; 0; 0; 0; 0; 0; 0; 0; 0; 0; 0; 0; 0; 0; 0; 0; 0; 0; 0; 0; 0; 0; 47; 48; 0; 0; 0; 0; 0; 0;
   0; 0; 0; 0; 0; 0; 49; 0; 0; 0; 0; 0; 0; 0; 0; 50; 0; 0; 0; 0; 0; 0; 0; 0; 0; 0; 0; 0; 0; 0; 0; 0; 0; 0; 0;
   0; 0; 0; 0; 0; 0; 0; 0; 0; 0; 0; 0; 0; 0; 0; 0; 0; 0; 0; 0; 0; 0; 0; 0; 0; 0; 0; 0; 0; 0; 0; 0; 0; 0; 0; 0;
   0; 0; 0; 0; 0; 0; 0; 0; 0; 0; 0; 0; 0; 0; 0; 0; 0; 0; 0; 0; 0; 0; 0; 0; 0; 0; 0; 0; 0; 0; 0; 0; 0; 0; 0; 0;
   0; 0; 0; 0; 0; 0; 0; 0; 0; 0; 0; 0; 0; 0; 0; 0; 0; 0; 0; 0; 0; 0; 0; 0; 0; 0; 0; 0; 0; 0; 0; 0; 0; 0; 0; 0;
   0; 0; 0; 0; 0; 0; 0; 0; 0; 0; 0; 0; 0; 0; 0; 0; 0; 0; 0; 0; 0; 0; 0; 0; 0; 0; 0; 0; 0; 0; 0; 0; 0; 0; 0; 0;
   0; 0; 0; 0; 0; 0; 0; 0; 0; 0; 0; 0; 0; 0; 0; 0; 0; 0; 0; 0; 0; 0; 0; 0; 0; 0; 0; 0; 0; 0; 0; 0; 0; 0; 0; 0;
   0; 0; 0; 0; 0; 0; 0; 0; 0; 0; 0; 0; 0; 0; 0; 0; 0; 0; 0; 0; 0; 0; 0; 0; 0; 0; 0; 0; 0; 0; 0; 0; 0; 0; 0; 0;
   0; 0; 0; 0; 0; 0; 0; 0; 0; 0; 0; 0; 0; 0; 0; 0; 0; 0; 0; 0; 0; 0; 0; 0; 0; 0; 0; 0; 0; 0; 0; 0; 0; 0; 0; 0;
   0; 0; 0; 0; 0; 0; 0; 0; 0; 0; 0; 0; 0; 0; 0; 0; 0; 0; 0; 0; 0; 0; 0; 0; 0; 0; 0; 0; 0; 0; 0; 0; 0; 0; 0; 0;
   0; 0; 0; 0; 0; 0; 0; 0; 0; 0; 0; 0; 0; 0; 0; 0; 0; 0; 0; 0; 0; 0; 0; 0; 51; 0; 52; 0; 0; 0; 0; 0; 0; 0; 53]
  [0x0000000000000000; 0x0400000000000000; 0x0001000000000000; 0x05f8000000000000; 0x8000000000000000;
   0x0200000000008000; 0x01500000fce8000e; 0xc000000000000000; 0x0000000001e0dfbf; 0x00000000c0000000;
   0x0000000003ff0000; 0x0000200000000000; 0x0000000000000001; 0xffffffffc0000000; 0x1ff007fe00000000;
   0x0c0042afc0d0037b; 0x000000000000b400; 0xffffbfb6f3e00c00; 0x000fffffffeb3fff; 0xfffff9fcfffff0ff;
   0xefffffffffffffff; 0xfff0000007ffffff; 0xfffffffc0fffffff; 0x0000007fffffffff; 0x00000000000007ff;
   0xfffffffff0000000; 0x000003ffffffffff; 0xffffffffffffffff; 0xff7fffffffffffff; 0x00fffffffffffffd;
   0xffff7fffffffffff; 0x000000ffffffffff; 0xfffffffffff00000; 0x0000ffffffffffff; 0xffcfffffffffe060;
   0xffffffffffbfffff; 0x000007e000000000; 0x0000000000030000; 0xfffffffffbffffff; 0x000fffffffffffff;
   0x0fff0000003fffff; 0xc0c00001000c0010; 0x00000000ffc30000; 0x0000000fffffffff; 0xfffffc007fffffff;
   0xffffffff000100ff; 0x0001fffffffffc00; 0xffffffffffff0000; 0x000000000000007f; 0x02c00f0000000000;
   0x0380000000000000; 0x000000000000ffff; 0xe000000000008000; 0x3000611000000000]
  [1; 2; 2; 2; 2; 3; 2; 2; 2; 2; 4; 5; 6; 7; 8; 2; 2; 2; 2; 2; 2; 2; 2; 2; 2; 2; 2; 2; 2; 2; 2; 2; 2; 2; 2; 2;
   2; 2; 2; 2; 2; 2; 2; 2; 2; 2; 2; 2; 2; 2; 2; 2; 2; 2; 2; 2; 2; 2; 2; 2; 2; 2; 2; 2; 2; 2; 2; 2; 2; 2; 2; 2;
   2; 2; 2; 2; 2; 2; 2; 2; 2; 2; 2; 2; 2; 2; 2; 2; 2; 2; 2; 2; 2; 2; 2; 2; 2; 2; 2; 2; 2; 2; 2; 2; 2; 2; 2; 2;
   2; 2; 2; 2; 2; 2; 2; 2; 2; 2; 2; 2; 2; 2; 2; 2; 2; 2; 2; 2; 2; 2; 2; 2; 2; 2; 2; 2; 2; 2; 2; 2; 2; 2; 2; 2;
   2; 2; 2; 2; 2; 2; 2; 2; 2; 2; 2; 2; 2; 2; 2; 2; 2; 2; 2; 2; 2; 2; 2; 2; 2; 2; 2; 2; 2; 2; 2; 2; 2; 2; 2; 2;
   2; 2; 2; 2; 2; 2; 2; 2; 2; 2; 2; 2; 2; 2; 2; 2; 2; 2; 2; 2; 2; 2; 2; 2; 2; 2; 2; 2; 2; 2; 2; 2; 2; 2; 2; 2;
   2; 2; 2; 2; 2; 2; 2; 2; 2; 2; 2; 2; 2; 2; 2; 2; 2; 2; 2; 2; 2; 2; 2; 2; 2; 2; 2; 2; 2; 2; 2; 2; 2; 2; 2; 2;
   2; 2; 2]
  [1; 2; 3; 4; 0; 0; 0; 0; 0; 0; 0; 0; 0; 0; 0; 0; 0; 0; 0; 0; 0; 0; 0; 0; 0; 0; 0; 0; 0; 5; 0; 0; 0; 0; 0; 0;
   0; 0; 0; 6; 0; 0; 0; 0; 0; 0; 0; 0; 0; 0; 0; 0; 0; 0; 0; 0; 0; 0; 0; 0; 0; 0; 0; 0; 0; 0; 0; 0; 0; 0; 0; 0;
   0; 0; 0; 0; 0; 0; 0; 0; 0; 0; 0; 0; 0; 0; 0; 0; 7; 0; 0; 0; 0; 0; 0; 0; 0; 0; 0; 0; 0; 0; 0; 0; 0; 0; 0; 0;
   0; 0; 0; 0; 0; 0; 0; 0; 0; 0; 0; 0; 0; 0; 0; 8; 0; 0; 0; 0; 0; 0; 0; 0; 0; 0; 0; 0; 0; 0; 0; 0; 0; 0; 0; 0;
   0; 0; 0; 0; 0; 0; 0; 0; 0; 0; 0; 0; 0; 0; 0; 0; 0; 0; 0; 0; 0; 0; 0; 0; 0; 0; 0; 0; 0; 0; 0; 0; 0; 0; 0; 0;
   0; 0; 0; 0; 0; 0; 0; 0; 0; 0; 0; 0; 0; 0; 0; 0; 0; 0; 0; 0; 0; 0; 0; 0; 0; 0; 0; 0; 0; 0; 0; 0; 0; 0; 0; 0;
   0; 0; 0; 0; 0; 0; 0; 0; 0; 0; 0; 0; 0; 0; 0; 0; 9; 10; 0; 0; 0; 0; 0; 0; 0; 0; 0; 0; 0; 0; 0; 0; 0; 0; 0; 0;
   0; 0; 0; 0; 0; 0; 0; 0; 0; 0; 0; 0; 0; 0; 0; 0; 0; 0; 0; 0; 0; 0; 0; 0; 0; 0; 0; 0; 0; 0; 0; 0; 0; 0; 0; 0;
   0; 0; 0; 0; 0; 0; 0; 0; 0; 0; 0; 0; 0; 0; 11; 0; 0; 0; 0; 0; 0; 0; 0; 0; 0; 0; 0; 0; 0; 0; 0; 0; 0; 0; 0; 0;
   0; 0; 0; 0; 0; 0; 0; 0; 0; 0; 0; 0; 0; 0; 0; 0; 0; 0; 0; 0; 0; 0; 0; 0; 0; 0; 0; 0; 0; 0; 0; 0; 0; 0; 0; 0;
   0; 0; 0; 0; 0; 0; 0; 0; 0; 0; 0; 0; 0; 0; 0; 0; 0; 12; 13; 14; 13; 13; 13; 15; 16; 17; 18; 19; 13; 20; 0; 0;
   13; 21; 0; 0; 0; 0; 0; 0; 0; 0; 0; 0; 0; 0; 0; 0; 0; 0; 0; 0; 13; 13; 13; 13; 13; 13; 13; 13; 22; 23; 24; 0;
   0; 0; 0; 0; 0; 0; 0; 0; 0; 0; 0; 0; 0; 0; 0; 0; 0; 0; 0; 0; 0; 0; 0; 0; 0; 25; 0; 0; 0; 0; 0; 0; 0; 0; 0; 0;
   0; 0; 0; 0; 0; 0; 0; 0; 0; 0; 0; 0; 0; 0; 0; 0; 0; 0; 0; 0; 0; 0; 0; 0; 0; 0; 0; 0; 0; 0; 0; 0; 0; 0; 26; 0;
   27; 0; 0; 0; 0; 0; 0; 0; 0; 0; 0; 0; 28; 13; 29; 30; 31; 13; 32; 33; 34; 35; 0; 0; 13; 13; 13; 36; 13; 13;
   13; 13; 13; 13; 13; 13; 13; 13; 13; 37; 13; 38; 13; 39; 40; 41; 42; 0; 13; 13; 13; 13; 13; 43; 44; 45; 13;
   13; 46; 47]
  [0x0000000000000000; 0xff80000000000000; 0xfe00000000000000; 0x000000011fff73ff; 0x1fffffffffff0000;
   0x0180000000000000; 0x0000000000000100; 0x8000000000000000; 0x0003fffe1fe00000; 0xf000000000000000;
   0x0000000000000020; 0x0000000010000000; 0xffffffffffff0000; 0xffffffffffffffff; 0x000000000000000f;
   0x003fffffffffffff; 0xfffffe7fffffffff; 0x00001c1fffffffff; 0xffffc3fffffff018; 0x000007ffffffffff;
   0x0000000000000023; 0x00000000007fffff; 0x0780000000000000; 0xffdfe00000000000; 0x000000000000006f;
   0x0000000000008000; 0x0000100000000000; 0x0000400000000000; 0xffff0fffffffffff; 0xfffe7fff000fffff;
   0x003ffffffffefffe; 0xffffffffffffe000; 0x00003fffffffffff; 0xffffffc000000000; 0x0fffffffffff0007;
   0x0000003f000301ff; 0x07ffffffffffffff; 0x1fff1fffe0ffffff; 0x000fffffffffffff; 0x00010fff01ffffff;
   0xffffffffffff0fff; 0xffffffff03ff00ff; 0x00033fffffff00ff; 0x1f1f3fff000fffff; 0x07ff1fffffff007f;
   0x007f00ff03ff003f; 0xfffffffffff7ffff; 0x00000000000007ff].
(** unicode-db.hpp lines 2385-2564. *)
Definition cat_lo : bool_trie := mkTrie 32 991 1 114 255 1 1151 1 103
  [0x0000000000000000; 0x0000000000000000; 0x0400040000000000; 0x0000000000000000; 0x0000000000000000;
   0x0000000000000000; 0x0800000000000000; 0x000000000000000f; 0x0000000000000000; 0x0000000000000000;
   0x0000000000100000; 0x0000000000000000; 0x0000000000000000; 0x0000000000000000; 0x0000000000000000;
   0x0000000000000000; 0x0000000000000000; 0x0000000000000000; 0x0000000000000000; 0x0000000000000000;
   0x0000000000000000; 0x0000000000000000; 0x0000000000000000; 0x000787ffffff0000; 0xffffffff00000000;
   0xfffec000000007fe; 0xffffffffffffffff; 0x9c00c000002fffff; 0x0000fffffffd0000; 0xffffffffffffe000;
   0x0002003fffffffff; 0x000007fffffffc00]
  [1; 2; 3; 4; 5; 6; 7; 8; 9; 10; 11; 12; 13; 14; 15; 16; 17; 18; 19; 20; 21; 22; 23; 24; 25; 26; 27; 28; 29;
   30; 31; 32; 33; 34; 31; 35; 35; 35; 35; 35; 36; 37; 38; 39; 40; 41; 31; 42; 35; 35; 35; 35; 35; 35; 35; 35;
   43; 44; 45; 46; 47; 48; 49; 50; 51; 52; 53; 54; 55; 56; 57; 58; 59; 31; 31; 60; 61; 62; 63; 64; 65; 31; 66;
   31; 31; 31; 31; 31; 31; 31; 31; 31; 31; 31; 31; 31; 31; 31; 31; 67; 31; 31; 31; 31; 31; 31; 31; 31; 31; 31;
   31; 31; 31; 31; 31; 31; 31; 31; 31; 31; 31; 31; 31; 31; 31; 31; 31; 31; 31; 31; 31; 31; 31; 31; 31; 31; 31;
   31; 31; 31; 31; 31; 31; 31; 31; 31; 31; 68; 69; 70; 71; 31; 31; 31; 31; 31; 31; 31; 31; 72; 42; 73; 74; 75;
   35; 76; 68; 31; 31; 31; 31; 31; 31; 31; 31; 35; 35; 35; 35; 35; 35; 35; 35; 35; 35; 35; 35; 35; 35; 35; 35;
   35; 35; 35; 35; 35; 35; 35; 35; 35; 35; 35; 35; 35; 35; 35; 35; 35; 35; 35; 35; 35; 35; 35; 35; 35; 35; 35;
   35; 35; 35; 35; 35; 35; 35; 35; 35; 35; 35; 35; 35; 35; 35; 35; 35; 35; 35; 35; 35; 35; 35; 35; 35; 35; 35;
   35; 35; 35; 35; 35; 35; 35; 35; 35; 35; 35; 35; 35; 35; 35; 35; 35; 35; 35; 35; 35; 35; 35; 35; 35; 35; 35;
   35; 35; 35; 35; 35; 35; 31; 35; 35; 35; 35; 35; 35; 35; 35; 35; 35; 35; 35; 35; 35; 35; 35; 35; 35; 35; 35;
   35; 35; 35; 35; 35; 35; 35; 35; 35; 35; 35; 35; 35; 35; 35; 35; 35; 35; 35; 35; 35; 35; 35; 35; 35; 35; 35;
   35; 35; 35; 35; 35; 35; 35; 35; 35; 35; 35; 35; 35; 35; 35; 35; 35; 35; 35; 35; 35; 35; 35; 35; 35; 35; 35;
   35; 35; 35; 35; 35; 35; 35; 35; 35; 35; 35; 35; 35; 35; 35; 35; 35; 35; 35; 35; 35; 35; 35; 35; 35; 35; 35;
   35; 35; 35; 35; 35; 35; 35; 35; 35; 35; 35; 35; 35; 35; 35; 35; 35; 35; 35; 35; 35; 35; 35; 35; 35; 35; 35;
   35; 35; 35; 35; 35; 35; 35; 35; 35; 35; 35; 35; 35; 35; 35; 35; 35; 35; 35; 35; 35; 35; 35; 35; 35; 35; 35;
   35; 35; 35; 35; 35; 35; 35; 35; 35; 35; 35; 35; 35; 35; 35; 35; 35; 35; 35; 35; 35; 35; 35; 35; 35; 35; 35;
   35; 35; 35; 35; 35; 35; 35; 35; 35; 35; 35; 35; 35; 35; 35; 35; 35; 35; 35; 35; 35; 35; 35; 35; 35; 35; 35;
   35; 35; 35; 35; 35; 35; 35; 35; 35; 35; 35; 35; 35; 35; 35; 35; 35; 35; 35; 35; 35; 35; 35; 35; 35; 35; 35;
   35; 35; 35; 35; 35; 35; 35; 35; 35; 35; 35; 35; 35; 35; 35; 35; 35; 35; 35; 35; 35; 35; 35; 35; 35; 35; 35;
   35; 35; 35; 35; 35; 35; 35; 35; 35; 35; 35; 35; 35; 35; 35; 35; 35; 35; 35; 35; 35; 35; 35; 35; 35; 35; 35;
   35; 35; 35; 35; 35; 35; 35; 35; 35; 35; 35; 35; 35; 35; 35; 35; 35; 35; 35; 35; 35; 35; 35; 35; 35; 35; 35;
   35; 35; 35; 35; 35; 35; 35; 35; 35; 35; 35; 77; 35; 35; 35; 35; 35; 35; 35; 35; 35; 35; 35; 35; 35; 35; 35;
   35; 35; 78; 79; 35; 35; 35; 35; 80; 81; 50; 63; 31; 31; 82; 83; 84; 48; 85; 86; 87; 88; 89; 90; 91; 92; 93;
   94; 95; 31; 31; 96; 35; 35; 35; 35; 35; 35; 35; 35; 35; 35; 35; 35; 35; 35; 35; 35; 35; 35; 35; 35; 35; 35;
   35; 35; 35; 35; 35; 35; 35; 35; 35; 35; 35; 35; 35; 35; 35; 35; 35; 35; 35; 35; 35; 35; 35; 35; 35; 35; 35;
   35; 35; 35; 35; 35; 35; 35; 35; 35; 35; 35; 35; 35; 35; 35; 35; 35; 35; 35; 35; 35; 35; 35; 35; 35; 35; 35;
   35; 35; 35; 35; 35; 35; 35; 35; 35; 35; 35; 35; 35; 35; 35; 35; 35; 35; 35; 35; 35; 35; 35; 35; 35; 35; 35;
   35; 35; 35; 35; 35; 35; 35; 35; 35; 35; 35; 35; 35; 35; 35; 35; 35; 35; 35; 35; 35; 35; 35; 35; 35; 35; 35;
   35; 35; 35; 35; 35; 35; 35; 35; 35; 35; 35; 35; 35; 35; 35; 35; 35; 35; 35; 35; 35; 35; 35; 35; 35; 35; 35;
   35; 35; 35; 35; 35; 35; 35; 35; 35; 35; 35; 35; 35; 35; 35; 35; 35; 97; 98; 31; 31; 31; 31; 31; 31; 31; 31;
   31; 31; 31; 31; 31; 31; 31; 31; 31; 31; 31; 31; 31; 31; 31; 31; 31; 31; 31; 31; 31; 31; 31; 31; 31; 31; 31;
   31; 31; 31; 31; 31; 31; 31; 31; 31; 31; 31; 31; 31; 31; 31; 31; 31; 31; 31; 31; 31; 31; 31; 31; 31; 31; 31;
   31; 31; 31; 31; 31; 31; 31; 31; 31; 31; 31; 31; 31; 31; 31; 31; 31; 31; 31; 31; 31; 31; 31; 31; 31; 31; 31;
   31; 31; 31; 31; 31; 31; 31; 31; 31; 31; 31; 31; 31; 31; 31; 31; 31; 31; 31; 31; 31; 31; 31; 31; 31; 31; 31;
   31; 31; 31; 31; 31; 31; 31; 31; 31; 31; 31; 31; 31; 31; 31; 31; 35; 35; 35; 35; 35; 99; 35; 100; 101; 102;
   103; 104; 35; 35; 35; 35; 105; 106; 107; 108; 31; 109; 35; 110; 31; 111; 112; 113]
  [0x00000000003fffff; 0xffff07ff01ffffff; 0xffffffff00007eff; 0x00000000000001ff; 0x23fffffffffffff0;
   0xfffc0003ff010000; 0x23c5fdfffff99fe1; 0x10030003b0004000; 0x036dfdfffff987e0; 0x001c00005e000000;
   0x23edfdfffffbbfe0; 0x0200000300010000; 0x23edfdfffff99fe0; 0x00020003b0000000; 0x03ffc718d63dc7e8;
   0x0000000000010000; 0x23fffdfffffddfe0; 0x0000000327000000; 0x23effdfffffddfe1; 0x0006000360000000;
   0x27fffffffffddff0; 0xfc00000380704000; 0x2ffbfffffc7fffe0; 0x000000000000007f; 0x000dfffffffffffe;
   0x000000000000003f; 0x200dffaffffff7d6; 0x00000000f000001f; 0x0000000000000001; 0x00001ffffffffeff;
   0x0000000000001f00; 0x0000000000000000; 0x800007ffffffffff; 0xffe1c0623c3f0000; 0x0000000000004003;
   0xffffffffffffffff; 0xffffffff3d7f3dff; 0x7f3dffffffff3dff; 0xffffffffff7fff3d; 0xffffffffff3dffff;
   0x0000000007ffffff; 0x000000000000ffff; 0xfffffffffffffffe; 0xffff9fffffffffff; 0xffffffff07fffffe;
   0x01fe07ffffffffff; 0x0003ffff8003ffff; 0x0001dfff0003ffff; 0x000fffffffffffff; 0x0000000010000000;
   0xffffffff00000000; 0x01fffffffffffff7; 0xffff05ffffffff9f; 0x003fffffffffffff; 0x000000007fffffff;
   0x001f3fffffff0000; 0xffff0fffffffffff; 0x00000000000003ff; 0xffffffff007fffff; 0x00000000001fffff;
   0x000fffffffffffe0; 0x0000000000001fe0; 0xfc00c001fffffff8; 0x0000003fffffffff; 0x0000000fffffffff;
   0x00fffffffc00e000; 0x046fde0000000000; 0x01e0000000000000; 0xffff000000000000; 0x000000ffffffffff;
   0x7f7f7f7f007fffff; 0x000000007f7f7f7f; 0x1000000000000040; 0xfffffffe807fffff; 0x87ffffffffffffff;
   0xfffeffffffffffe0; 0xffffffff00007fff; 0xffffffffffdfffff; 0x0000000000001fff; 0x00ffffffffff0000;
   0x00000c00ffff0fff; 0x0000400000000000; 0x0000000000008000; 0xf880000000000000; 0x00000007fffff7bb;
   0x000ffffffffffffc; 0x68fc000000000000; 0xffff003ffffffc00; 0x1fffffff0000007f; 0x0007fffffffffff0;
   0x7c00ff9f00000000; 0x000001ffffffffff; 0xc47effff00000ff7; 0x3e62ffffffffffff; 0x000407ff18000005;
   0x00007f7f007e7e7e; 0x00000007ffffffff; 0xffff000fffffffff; 0x0ffffffffffff87f; 0xffff3fffffffffff;
   0x0000000003ffffff; 0x5f7ffdffa0000000; 0xffffffffffffffdb; 0x0003ffffffffffff; 0xfffffffffff80000;
   0x3fffffffffffffff; 0xffffffffffff0000; 0xfffffffffffcffff; 0x0fff0000000000ff; 0xffdf000000000000;
   0x1fffffffffffffff; 0xfffeffc000000000; 0x7fffffff3fffffff; 0x000000001cfcfcfc]
  [1; 2; 3; 4; 5; 6; 7; 8; 5; 5; 9; 5; 10; 11; 5; 7; 7; 7; 7; 7; 7; 7; 7; 7; 7; 12; 13; 14; 7; 15; 16; 7; 17;
   5; 5; 5; 5; 5; 5; 5; 5; 5; 5; 5; 5; 5; 5; 5; 5; 5; 5; 5; 5; 5; 5; 5; 5; 5; 5; 5; 5; 5; 5; 5; 5; 5; 5; 5; 5;
   5; 5; 5; 5; 5; 5; 5; 5; 5; 5; 5; 5; 5; 5; 5; 5; 5; 5; 5; 5; 5; 5; 5; 5; 5; 5; 5; 5; 5; 5; 5; 5; 5; 5; 5; 5;
   5; 5; 5; 5; 5; 5; 5; 5; 5; 5; 5; 5; 5; 5; 5; 5; 5; 5; 5; 5; 5; 5; 5; 5; 5; 5; 5; 5; 5; 5; 5; 5; 5; 5; 5; 5;
   5; 5; 5; 5; 5; 5; 5; 5; 5; 5; 5; 5; 5; 5; 5; 5; 5; 5; 5; 5; 5; 5; 5; 5; 5; 5; 5; 5; 5; 5; 5; 5; 5; 5; 5; 5;
   5; 5; 5; 5; 5; 5; 5; 5; 5; 5; 5; 5; 5; 5; 5; 5; 5; 5; 5; 5; 5; 5; 5; 5; 5; 5; 5; 5; 5; 5; 5; 5; 5; 5; 5; 5;
   5; 5; 5; 5; 5; 5; 5; 5; 5; 5; 5; 5; 5; 5; 5; 5; 5; 5; 5; 5; 5; 5; 5; 5; 5; 5; 5; 5; 5; 5; 5; 5; 5; 5; 5; 5;
   5; 5; 5; 5; 5; 5]
  [1; 2; 3; 4; 4; 4; 4; 4; 4; 5; 6; 7; 8; 9; 10; 4; 11; 12; 4; 13; 14; 4; 4; 2; 2; 2; 2; 15; 16; 4; 4; 17; 18;
   19; 20; 21; 4; 22; 4; 23; 24; 25; 26; 27; 28; 29; 4; 2; 30; 4; 4; 14; 4; 4; 4; 4; 4; 31; 4; 32; 33; 34; 35;
   36; 37; 38; 39; 40; 41; 42; 43; 44; 4; 45; 19; 46; 47; 4; 4; 48; 49; 50; 51; 4; 4; 52; 53; 50; 54; 55; 4;
   56; 57; 4; 4; 58; 4; 4; 59; 60; 61; 62; 63; 64; 65; 66; 67; 4; 4; 4; 4; 68; 69; 70; 4; 71; 72; 73; 4; 4; 4;
   4; 74; 4; 4; 75; 4; 2; 2; 2; 2; 2; 2; 2; 2; 2; 2; 2; 2; 2; 2; 76; 4; 4; 4; 2; 2; 2; 77; 4; 4; 4; 4; 4; 4; 4;
   4; 4; 4; 4; 4; 4; 4; 4; 4; 4; 4; 4; 4; 4; 4; 4; 4; 4; 4; 4; 4; 4; 4; 4; 4; 4; 4; 4; 4; 4; 4; 4; 4; 11; 78;
   2; 2; 2; 2; 2; 2; 2; 2; 2; 2; 2; 2; 2; 2; 2; 2; 52; 4; 4; 4; 4; 4; 4; 4; 4; 4; 4; 4; 4; 4; 4; 4; 4; 4; 4; 4;
   4; 4; 4; 4; 4; 4; 4; 4; 4; 4; 4; 4; 4; 4; 4; 4; 4; 4; 4; 4; 4; 4; 4; 4; 4; 4; 4; 4; 4; 4; 4; 4; 4; 4; 4; 4;
   4; 4; 4; 4; 4; 4; 4; 4; 2; 2; 2; 2; 2; 2; 2; 2; 2; 57; 4; 4; 4; 4; 4; 4; 4; 4; 4; 4; 4; 4; 4; 4; 4; 4; 4; 4;
   4; 4; 4; 4; 4; 4; 4; 4; 4; 4; 4; 4; 4; 4; 4; 4; 4; 4; 4; 4; 4; 4; 4; 4; 4; 4; 4; 4; 4; 4; 4; 4; 4; 4; 4; 4;
   4; 4; 4; 4; 4; 4; 4; 4; 4; 4; 4; 4; 4; 4; 4; 4; 4; 4; 4; 4; 4; 4; 4; 4; 4; 4; 4; 4; 4; 4; 4; 4; 4; 4; 4; 4;
   4; 4; 4; 4; 4; 4; 4; 4; 4; 4; 4; 4; 4; 4; 4; 4; 4; 4; 4; 4; 4; 4; 4; 4; 4; 4; 4; 4; 4; 4; 4; 4; 4; 4; 4; 4;
   4; 4; 4; 4; 4; 4; 4; 4; 2; 2; 2; 2; 2; 2; 2; 2; 67; 79; 80; 81; 50; 82; 70; 4; 4; 4; 4; 4; 4; 4; 4; 4; 4; 4;
   4; 4; 2; 83; 4; 4; 2; 2; 2; 2; 2; 2; 2; 2; 2; 2; 2; 2; 2; 2; 2; 2; 2; 2; 2; 2; 2; 2; 2; 2; 2; 2; 2; 2; 2; 2;
   2; 2; 2; 2; 2; 2; 2; 2; 2; 2; 2; 2; 2; 2; 2; 2; 2; 2; 2; 2; 2; 2; 2; 2; 2; 2; 2; 2; 2; 2; 2; 2; 2; 2; 2; 2;
   2; 2; 2; 2; 2; 2; 2; 2; 2; 2; 2; 2; 2; 2; 2; 2; 2; 2; 2; 2; 2; 2; 2; 2; 2; 2; 2; 2; 2; 84; 2; 2; 2; 2; 2; 2;
   2; 2; 2; 2; 2; 2; 2; 2; 2; 2; 2; 2; 2; 85; 30; 4; 4; 4; 4; 4; 4; 4; 4; 4; 4; 4; 2; 2; 2; 2; 86; 87; 2; 2; 2;
   2; 2; 88; 4; 4; 4; 4; 4; 4; 4; 4; 4; 4; 4; 4; 4; 4; 4; 4; 4; 4; 4; 4; 4; 4; 4; 4; 4; 4; 4; 4; 4; 4; 4; 4; 4;
   4; 4; 4; 2; 89; 90; 4; 4; 4; 4; 4; 4; 4; 4; 4; 4; 4; 4; 4; 4; 4; 4; 4; 4; 4; 4; 4; 4; 4; 4; 4; 4; 4; 4; 4;
   4; 4; 4; 4; 4; 4; 4; 4; 4; 4; 4; 4; 4; 4; 4; 4; 4; 4; 4; 4; 4; 4; 4; 4; 4; 4; 4; 4; 4; 4; 4; 4; 4; 4; 4; 4;
   4; 4; 4; 4; 4; 4; 4; 4; 91; 4; 4; 4; 4; 4; 4; 4; 92; 93; 4; 4; 4; 4; 81; 58; 4; 4; 4; 4; 4; 4; 4; 4; 4; 4;
   4; 4; 4; 4; 4; 4; 4; 4; 4; 94; 2; 2; 2; 95; 4; 4; 4; 4; 4; 4; 4; 4; 4; 4; 4; 4; 4; 4; 4; 4; 4; 4; 4; 4; 96;
   97; 98; 4; 4; 4; 4; 4; 2; 2; 2; 2; 2; 2; 2; 2; 2; 2; 2; 2; 2; 2; 2; 2; 2; 2; 2; 2; 2; 2; 2; 2; 2; 2; 2; 99;
   2; 2; 2; 2; 2; 2; 2; 2; 2; 2; 2; 2; 2; 2; 2; 2; 2; 2; 2; 2; 2; 2; 2; 2; 2; 2; 2; 2; 2; 2; 2; 2; 2; 2; 2; 2;
   2; 2; 2; 2; 2; 2; 2; 2; 2; 2; 2; 2; 2; 2; 2; 2; 2; 2; 2; 2; 2; 2; 2; 2; 2; 2; 2; 2; 67; 2; 2; 2; 9; 2; 2; 2;
   2; 2; 2; 2; 2; 2; 2; 2; 2; 2; 2; 2; 2; 2; 2; 2; 2; 2; 2; 2; 2; 2; 2; 2; 2; 2; 2; 2; 2; 2; 2; 2; 2; 2; 2; 2;
   2; 2; 2; 2; 2; 2; 2; 2; 2; 2; 2; 2; 2; 2; 2; 2; 2; 2; 2; 2; 2; 2; 2; 2; 2; 2; 2; 2; 2; 2; 2; 2; 2; 2; 2; 2;
   2; 2; 2; 2; 2; 2; 2; 2; 2; 2; 2; 2; 2; 2; 100; 2; 2; 2; 2; 2; 2; 2; 2; 2; 2; 2; 2; 2; 2; 2; 2; 2; 2; 2; 2;
   2; 2; 2; 2; 2; 2; 2; 2; 2; 2; 2; 2; 2; 2; 2; 2; 2; 2; 2; 2; 2; 2; 2; 2; 2; 2; 2; 2; 2; 2; 2; 2; 101; 4; 4;
   4; 4; 4; 4; 4; 4; 4; 4; 4; 4; 4; 4; 4; 4; 4; 4; 4; 4; 4; 4; 4; 4; 4; 4; 4; 4; 4; 4; 4; 4; 4; 4; 4; 4; 4; 4;
   4; 4; 4; 4; 4; 4; 4; 4; 4; 4; 2; 2; 2; 2; 2; 2; 2; 2; 12; 4; 4; 4; 4; 4; 4; 4; 4; 4; 4; 4; 4; 4; 4; 4; 4; 4;
   4; 4; 4; 4; 4; 4; 2; 2; 2; 2; 2; 2; 2; 2; 2; 2; 2; 2; 2; 102; 4; 4; 4; 4; 4; 4; 4; 4; 4; 4; 4; 4; 4; 4; 4;
   4; 4; 4; 4; 4; 4; 4; 4; 4; 4; 4; 4; 4; 4; 4; 4; 4; 4; 4; 4; 4; 4; 4; 4; 4; 4; 4; 4; 4; 4; 4; 4; 4; 4; 4]
  [0xb7ffff7fffffefff; 0x000000003fff3fff; 0xffffffffffffffff; 0x07ffffffffffffff; 0x0000000000000000;
   0xffffffff1fffffff; 0x000000000001ffff; 0xffffe000ffffffff; 0x003fffffffff03fd; 0xffffffff3fffffff;
   0x000000000000ff0f; 0xffffffffffff0000; 0x000000003fffffff; 0xffff00ffffffffff; 0x0000000fffffffff;
   0x007fffffffffffff; 0x000000ff003fffff; 0x91bffffffffffd3f; 0x007fffff003fffff; 0x000000007fffffff;
   0x0037ffff00000000; 0x03ffffff003fffff; 0xc0ffffffffffffff; 0x003ffffffeef0001; 0x1fffffff00000000;
   0x000000001fffffff; 0x0000001ffffffeff; 0x003fffffffffffff; 0x0007ffff003fffff; 0x000000000003ffff;
   0x00000000000001ff; 0x000303ffffffffff; 0xffff00801fffffff; 0xffff00000000003f; 0xffff000000000003;
   0x007fffff0000001f; 0x00fffffffffffff8; 0x0026000000000000; 0x0000fffffffffff8; 0x000001ffffff0000;
   0x0000007ffffffff8; 0x0047ffffffff0090; 0x0007fffffffffff8; 0x000000001400001e; 0x00000ffffffbffff;
   0xffff01ffbfffbd7f; 0x23edfdfffff99fe0; 0x00000003e0010000; 0x001fffffffffffff; 0x0000000380000780;
   0x0000ffffffffffff; 0x00000000000000b0; 0x00007fffffffffff; 0x000000000f000000; 0x0000000000000010;
   0x010007ffffffffff; 0x0000000007ffffff; 0x000000000000007f; 0x00000fffffffffff; 0x8000000000000000;
   0x8000ffffff6ff27f; 0x0000000000000002; 0xfffffcff00000000; 0x0000000a0001ffff; 0x0407fffffffff801;
   0xfffffffff0010000; 0xffff0000200003ff; 0x01ffffffffffffff; 0x00007ffffffffdff; 0xfffc000000000001;
   0x000000000000ffff; 0x0001fffffffffb7f; 0xfffffdbf00000040; 0x00000000010003ff; 0x0007ffff00000000;
   0x0001000000000000; 0x0000000003ffffff; 0x000000000000000f; 0x0001ffffffffffff; 0xffff00007fffffff;
   0x7fffffffffffffff; 0x00003fffffff0000; 0xe0fffff800000000; 0x00000000000107ff; 0x00ffffffffffffff;
   0x00000000003fffff; 0x00000007ffffffff; 0xffff00f000070000; 0x0fffffffffffffff; 0x1fff07ffffffffff;
   0x0000000003ff01ff; 0x0000000000000400; 0x00001fffffffffff; 0x0000000000004000; 0x7fff6f7f00000000;
   0x000000000000001f; 0x0af7fe96ffffffef; 0x5ef7f796aa96ea84; 0x0ffffbee0ffffbff; 0x00000000ffffffff;
   0xffff0003ffffffff; 0x00000001ffffffff; 0x00000000000007ff].
(** unicode-db.hpp lines 2565-2566. *)
Definition cat_pi : list Z :=
  [0x2e20; 0x2e02; 0x2e04; 0x2e09; 0x00ab; 0x2e0c; 0x2018; 0x2039; 0x201b; 0x201c; 0x2e1c; 0x201f].
(** unicode-db.hpp lines 2567-2574. *)
Definition cat_cf : list Z :=
  [0x00000000; 0x0000ad01; 0x0000ae00; 0x00060001; 0x00060600; 0x00061c01; 0x00061d00; 0x0006dd01; 0x0006de00;
   0x00070f01; 0x00071000; 0x00089001; 0x00089200; 0x0008e201; 0x0008e300; 0x00180e01; 0x00180f00; 0x00200b01;
   0x00201000; 0x00202a01; 0x00202f00; 0x00206001; 0x00206500; 0x00206601; 0x00207000; 0x00feff01; 0x00ff0000;
   0x00fff901; 0x00fffc00; 0x0110bd01; 0x0110be00; 0x0110cd01; 0x0110ce00; 0x01343001; 0x01343900; 0x01bca001;
   0x01bca400; 0x01d17301; 0x01d17b00; 0x0e000101; 0x0e000200; 0x0e002001; 0x0e008000].
(** unicode-db.hpp lines 2575-2650. *)
Definition cat_no : bool_trie := mkTrie 32 634 7 25 255 1 385 4 37
  [0x0000000000000000; 0x0000000000000000; 0x720c000000000000; 0x0000000000000000; 0x0000000000000000;
   0x0000000000000000; 0x0000000000000000; 0x0000000000000000; 0x0000000000000000; 0x0000000000000000;
   0x0000000000000000; 0x0000000000000000; 0x0000000000000000; 0x0000000000000000; 0x0000000000000000;
   0x0000000000000000; 0x0000000000000000; 0x0000000000000000; 0x0000000000000000; 0x0000000000000000;
   0x0000000000000000; 0x0000000000000000; 0x0000000000000000; 0x0000000000000000; 0x0000000000000000;
   0x0000000000000000; 0x0000000000000000; 0x0000000000000000; 0x0000000000000000; 0x0000000000000000;
   0x0000000000000000; 0x0000000000000000]
  [1; 0; 0; 0; 0; 0; 2; 0; 3; 0; 4; 0; 0; 0; 5; 0; 0; 0; 0; 0; 0; 6; 0; 0; 0; 0; 0; 0; 0; 0; 0; 0; 0; 0; 0; 0;
   0; 0; 7; 0; 0; 0; 0; 0; 0; 0; 0; 0; 0; 0; 0; 0; 0; 0; 0; 0; 8; 0; 0; 0; 0; 0; 0; 0; 9; 0; 0; 0; 0; 0; 0; 0;
   0; 0; 0; 0; 0; 0; 0; 0; 0; 0; 0; 0; 0; 0; 0; 0; 0; 0; 10; 11; 0; 0; 12; 13; 0; 0; 0; 0; 0; 0; 0; 0; 0; 0;
   14; 15; 16; 0; 0; 0; 0; 0; 0; 0; 0; 0; 17; 18; 0; 0; 0; 0; 0; 0; 0; 0; 0; 0; 0; 0; 0; 0; 0; 0; 0; 0; 0; 0;
   19; 0; 0; 0; 0; 0; 0; 0; 0; 0; 0; 0; 0; 0; 0; 0; 0; 0; 0; 20; 0; 21; 22; 23; 0; 0; 0; 0; 0; 0; 0; 0; 0; 0;
   0; 0; 0; 0; 0; 0; 0; 0; 0; 0; 0; 0; 0; 0; 0; 0; 0; 0; 0; 0; 0; 0; 0; 0; 0; 0; 0; 0; 0; 0; 0; 0; 0; 0; 0; 0;
   0; 0; 0; 0; 0; 0; 0; 0; 0; 0; 0; 0; 0; 0; 0; 0; 0; 0; 0; 0; 0; 0; 0; 0; 0; 0; 0; 0; 0; 0; 0; 0; 0; 0; 0; 0;
   0; 0; 0; 0; 0; 0; 0; 0; 0; 0; 0; 0; 0; 0; 0; 0; 0; 0; 0; 0; 0; 0; 0; 0; 0; 0; 0; 0; 0; 0; 0; 0; 0; 0; 0; 0;
   0; 0; 0; 0; 0; 0; 0; 0; 0; 0; 0; 0; 0; 0; 0; 0; 0; 0; 0; 0; 0; 0; 0; 0; 0; 0; 0; 0; 0; 0; 0; 0; 0; 0; 0; 0;
   0; 0; 0; 0; 0; 0; 0; 0; 0; 0; 0; 0; 0; 0; 0; 0; 0; 0; 0; 0; 0; 0; 0; 0; 0; 0; 0; 0; 0; 0; 0; 0; 0; 0; 0; 0;
   0; 0; 0; 0; 0; 0; 0; 0; 0; 0; 0; 0; 0; 0; 0; 0; 0; 0; 0; 0; 0; 0; 0; 0; 0; 0; 0; 0; 0; 0; 0; 0; 0; 0; 0; 0;
   0; 0; 0; 0; 0; 0; 0; 0; 0; 0; 0; 0; 0; 0; 0; 0; 0; 0; 0; 0; 0; 0; 0; 0; 0; 0; 0; 0; 0; 0; 0; 0; 0; 0; 0; 0;
   0; 0; 0; 0; 0; 0; 0; 0; 0; 0; 0; 0; 0; 0; 0; 0; 0; 0; 0; 0; 0; 0; 0; 0; 0; 0; 0; 0; 0; 0; 0; 0; 0; 0; 0; 0;
   0; 0; 0; 0; 0; 0; 0; 0; 0; 0; 0; 0; 0; 0; 0; 0; 0; 0; 0; 0; 0; 0; 0; 0; 0; 0; 0; 0; 0; 0; 0; 0; 0; 0; 0; 0;
   0; 0; 0; 0; 0; 0; 0; 0; 0; 0; 0; 0; 0; 0; 0; 0; 0; 0; 0; 0; 0; 0; 0; 0; 0; 0; 0; 0; 0; 0; 0; 0; 0; 0; 0; 0;
   0; 0; 0; 0; 0; 0; 0; 0; 0; 0; 0; 0; 0; 0; 0; 0; 0; 0; 0; 0; 0; 0; 0; 0; 0; 0; 0; 0; 0; 0; 0; 0; 0; 0; 0; 0;
   0; 0; 0; 0; 0; 0; 0; 0; 0; 0; 0; 0; 0; 0; 0; 0; 0; 0; 0; 0; 0; 0; 0; 0; 0; 0; 0; 0; 0; 0; 0; 0; 0; 0; 0; 0;
   0; 0; 0; 0; 0; 0; 0; 0; 0; 0; 0; 0; 0; 0; 0; 0; 0; 0; 0; 0; 0; 0; 0; 0; 0; 0; 0; 24]
  [0x0000000000000000; 0x03f0000000000000; 0x00fc000000000000; 0x0007000000000000; 0x7f00000000000000;
   0x01ff00007f000000; 0x000ffc0000000000; 0x1ffffe0000000000; 0x03ff000000000000; 0x0000000004000000;
   0x03f1000000000000; 0x00000000000003ff; 0x00000000ffff0000; 0x0000000000000200; 0xffffffff00000000;
   0x000000000fffffff; 0xfffffc0000000000; 0xffc0000000000000; 0x00000000000fffff; 0x2000000000000000;
   0x00000000003c0000; 0x000003ff00000000; 0x00000000fffeff00; 0xfffe0000000003ff; 0x003f000000000000]
  [1; 2; 2; 2; 2; 3; 2; 2; 2; 2; 2; 2; 4; 5; 6; 2; 2; 2; 2; 2; 2; 2; 2; 2; 2; 2; 2; 2; 2; 2; 2; 2; 2; 2; 2; 2;
   2; 2; 2; 2; 2; 2; 2; 2; 2; 2; 2; 2; 2; 2; 2; 2; 2; 2; 2; 2; 2; 2; 2; 2; 2; 2; 2; 2; 2; 2; 2; 2; 2; 2; 2; 2;
   2; 2; 2; 2; 2; 2; 2; 2; 2; 2; 2; 2; 2; 2; 2; 2; 2; 2; 2; 2; 2; 2; 2; 2; 2; 2; 2; 2; 2; 2; 2; 2; 2; 2; 2; 2;
   2; 2; 2; 2; 2; 2; 2; 2; 2; 2; 2; 2; 2; 2; 2; 2; 2; 2; 2; 2; 2; 2; 2; 2; 2; 2; 2; 2; 2; 2; 2; 2; 2; 2; 2; 2;
   2; 2; 2; 2; 2; 2; 2; 2; 2; 2; 2; 2; 2; 2; 2; 2; 2; 2; 2; 2; 2; 2; 2; 2; 2; 2; 2; 2; 2; 2; 2; 2; 2; 2; 2; 2;
   2; 2; 2; 2; 2; 2; 2; 2; 2; 2; 2; 2; 2; 2; 2; 2; 2; 2; 2; 2; 2; 2; 2; 2; 2; 2; 2; 2; 2; 2; 2; 2; 2; 2; 2; 2;
   2; 2; 2; 2; 2; 2; 2; 2; 2; 2; 2; 2; 2; 2; 2; 2; 2; 2; 2; 2; 2; 2; 2; 2; 2; 2; 2; 2; 2; 2; 2; 2; 2; 2; 2; 2;
   2; 2; 2]
  [1; 2; 3; 0; 0; 0; 0; 4; 5; 0; 0; 0; 0; 0; 0; 0; 0; 0; 0; 0; 0; 0; 0; 0; 0; 0; 0; 0; 0; 6; 7; 8; 9; 0; 10;
   11; 0; 12; 13; 14; 0; 15; 16; 0; 0; 0; 0; 17; 0; 0; 0; 0; 0; 18; 0; 0; 19; 20; 0; 21; 0; 22; 0; 0; 0; 0; 0;
   23; 0; 0; 0; 0; 0; 0; 0; 0; 0; 0; 0; 0; 0; 0; 0; 0; 0; 0; 0; 0; 24; 0; 0; 0; 0; 0; 0; 25; 0; 0; 0; 0; 0; 0;
   0; 0; 0; 0; 0; 0; 0; 26; 0; 0; 0; 0; 0; 0; 0; 0; 0; 0; 0; 0; 0; 27; 0; 0; 0; 0; 0; 0; 0; 0; 0; 0; 0; 0; 0;
   0; 0; 0; 0; 0; 0; 0; 0; 0; 0; 0; 0; 0; 0; 0; 0; 0; 0; 0; 0; 0; 0; 0; 0; 0; 0; 0; 0; 0; 0; 0; 0; 0; 0; 0; 0;
   0; 0; 0; 0; 0; 0; 0; 0; 0; 0; 0; 0; 0; 0; 0; 0; 0; 0; 0; 0; 0; 0; 0; 0; 0; 0; 0; 0; 0; 0; 0; 0; 0; 0; 0; 0;
   0; 0; 0; 0; 0; 0; 0; 0; 0; 0; 0; 0; 0; 0; 0; 0; 0; 0; 0; 0; 0; 0; 0; 0; 28; 0; 0; 0; 0; 0; 0; 0; 0; 0; 0; 0;
   0; 29; 0; 0; 0; 0; 0; 0; 0; 0; 0; 0; 0; 0; 0; 0; 0; 0; 30; 0; 31; 0; 0; 0; 0; 0; 0; 0; 0; 0; 0; 0; 0; 0; 0;
   0; 0; 0; 0; 0; 0; 0; 0; 0; 0; 0; 0; 0; 0; 0; 0; 0; 0; 0; 0; 0; 0; 0; 0; 0; 0; 0; 0; 0; 0; 0; 0; 0; 0; 0; 0;
   0; 0; 0; 0; 0; 0; 0; 0; 0; 0; 0; 0; 0; 0; 0; 0; 0; 0; 0; 0; 0; 0; 0; 0; 0; 0; 0; 0; 0; 0; 0; 0; 0; 0; 0; 32;
   0; 0; 0; 0; 0; 0; 0; 0; 0; 0; 0; 0; 0; 33; 34; 0; 35; 0; 0; 0; 0; 0; 0; 0; 0; 0; 0; 0; 0; 0; 0; 0; 36]
  [0x0000000000000000; 0x000fffffffffff80; 0x01e0000000000000; 0x0000000000000c00; 0x0ffffffe00000000;
   0x0000000f00000000; 0xfe000000ff000000; 0x0000ff8000000000; 0xf800000000000000; 0x000000000fc00000;
   0x3000000000000000; 0xfffffffffffcffff; 0x60000000000001ff; 0x00000000e0000000; 0x0000f80000000000;
   0xff000000ff000000; 0x0000fe0000000000; 0xfc00000000000000; 0x7fffffff00000000; 0x0000007fe0000000;
   0x00000000001e0000; 0x0000000000000fe0; 0x0000003ffffc0000; 0x001ffffe00000000; 0x0c00000000000000;
   0x0007fc0000000000; 0x00001ffffc000000; 0x00000000001fffff; 0x00000003f8000000; 0x00000000007fffff;
   0x000fffff00000000; 0x01ffffff00000000; 0x000000000000ff80; 0xfffe000000000000; 0x001eefffffffffff;
   0x3fffbffffffffffe; 0x0000000000001fff].
(** unicode-db.hpp lines 2651-2652. *)
Definition cat_pf : list Z :=
  [0x2e21; 0x2e1d; 0x2e03; 0x2e05; 0x2e0a; 0x2e0d; 0x2019; 0x203a; 0x00bb; 0x201d].
(** unicode-db.hpp lines 2653-2656. *)
Definition cat_lt : list Z :=
  [0x00000000; 0x0001c501; 0x0001c600; 0x0001c801; 0x0001c900; 0x0001cb01; 0x0001cc00; 0x0001f201; 0x0001f300;
   0x001f8801; 0x001f9000; 0x001f9801; 0x001fa000; 0x001fa801; 0x001fb000; 0x001fbc01; 0x001fbd00; 0x001fcc01;
   0x001fcd00; 0x001ffc01; 0x001ffd00].
(** unicode-db.hpp lines 2657-2733. *)
Definition cat_lm : bool_trie := mkTrie 32 991 1 32 255 1 264 30 8
  [0x0000000000000000; 0x0000000000000000; 0x0000000000000000; 0x0000000000000000; 0x0000000000000000;
   0x0000000000000000; 0x0000000000000000; 0x0000000000000000; 0x0000000000000000; 0x0000000000000000;
   0xffff000000000000; 0x0000501f0003ffc3; 0x0000000000000000; 0x0410000000000000; 0x0000000000000000;
   0x0000000000000000; 0x0000000000000000; 0x0000000000000000; 0x0000000000000000; 0x0000000000000000;
   0x0000000000000000; 0x0000000002000000; 0x0000000000000000; 0x0000000000000000; 0x0000000000000000;
   0x0000000000000001; 0x0000000000000000; 0x0000006000000000; 0x0000000000000000; 0x0000000000000000;
   0x0000000000000000; 0x0430000000000000]
  [1; 1; 2; 1; 3; 1; 1; 1; 1; 1; 1; 1; 1; 1; 1; 1; 1; 1; 1; 1; 1; 1; 1; 1; 4; 1; 4; 1; 1; 1; 1; 1; 1; 1; 5; 1;
   1; 1; 1; 1; 1; 1; 1; 1; 1; 1; 1; 1; 1; 1; 1; 1; 1; 1; 1; 1; 1; 1; 1; 1; 1; 1; 6; 1; 7; 1; 1; 1; 1; 1; 1; 1;
   1; 8; 1; 1; 1; 1; 1; 1; 9; 1; 1; 10; 11; 12; 1; 1; 1; 1; 1; 1; 1; 1; 1; 1; 13; 14; 1; 1; 1; 1; 1; 1; 1; 1;
   1; 1; 1; 1; 1; 1; 1; 1; 1; 1; 1; 1; 1; 1; 1; 1; 1; 1; 1; 1; 1; 1; 1; 1; 1; 1; 1; 1; 1; 1; 1; 1; 1; 1; 1; 1;
   1; 1; 15; 1; 1; 1; 16; 1; 1; 16; 1; 1; 1; 1; 1; 1; 1; 17; 1; 18; 19; 1; 1; 1; 1; 1; 1; 1; 1; 1; 1; 1; 1; 1;
   1; 1; 1; 1; 1; 1; 1; 1; 1; 1; 1; 1; 1; 1; 1; 1; 1; 1; 1; 1; 1; 1; 1; 1; 1; 1; 1; 1; 1; 1; 1; 1; 1; 1; 1; 1;
   1; 1; 1; 1; 1; 1; 1; 1; 1; 1; 1; 1; 1; 1; 1; 1; 1; 1; 1; 1; 1; 1; 1; 1; 1; 1; 1; 1; 1; 1; 1; 1; 1; 1; 1; 1;
   1; 1; 1; 1; 1; 1; 1; 1; 1; 1; 1; 1; 1; 1; 1; 1; 1; 1; 1; 1; 1; 1; 1; 1; 1; 1; 1; 1; 1; 1; 1; 1; 1; 1; 1; 1;
   1; 1; 1; 1; 1; 1; 1; 1; 1; 1; 1; 1; 1; 1; 1; 1; 1; 1; 1; 1; 1; 1; 1; 1; 1; 1; 1; 1; 1; 1; 1; 1; 1; 1; 1; 1;
   1; 1; 1; 1; 1; 1; 1; 1; 1; 1; 1; 1; 1; 1; 1; 1; 1; 1; 1; 1; 1; 1; 1; 1; 1; 1; 1; 1; 1; 1; 1; 1; 1; 1; 1; 1;
   1; 1; 1; 1; 1; 1; 1; 1; 1; 1; 1; 1; 1; 1; 1; 1; 1; 1; 1; 1; 1; 1; 1; 1; 1; 1; 1; 1; 1; 1; 1; 1; 1; 1; 1; 1;
   1; 1; 1; 1; 1; 1; 1; 1; 1; 1; 1; 1; 1; 1; 1; 1; 1; 1; 1; 1; 1; 1; 1; 1; 1; 1; 1; 1; 1; 1; 1; 1; 1; 1; 1; 1;
   1; 1; 1; 1; 1; 1; 1; 1; 1; 1; 1; 1; 1; 1; 1; 1; 1; 1; 1; 1; 1; 1; 1; 1; 1; 1; 1; 1; 1; 1; 1; 1; 1; 1; 1; 1;
   1; 1; 1; 1; 1; 1; 1; 1; 1; 1; 1; 1; 1; 1; 1; 1; 1; 1; 1; 1; 1; 1; 1; 1; 1; 1; 1; 1; 1; 1; 1; 1; 1; 1; 1; 1;
   1; 1; 1; 1; 1; 1; 1; 1; 1; 1; 1; 1; 1; 1; 1; 1; 1; 1; 1; 1; 1; 1; 1; 1; 1; 1; 1; 1; 1; 1; 1; 1; 1; 1; 1; 1;
   1; 1; 1; 1; 1; 1; 1; 1; 1; 1; 1; 1; 1; 1; 1; 1; 1; 1; 1; 1; 1; 1; 1; 1; 1; 1; 1; 1; 1; 1; 1; 1; 1; 1; 1; 1;
   1; 1; 1; 1; 1; 1; 1; 1; 1; 1; 1; 1; 1; 1; 1; 1; 1; 1; 1; 1; 1; 1; 1; 1; 1; 1; 1; 1; 1; 1; 1; 1; 1; 1; 1; 20;
   1; 1; 1; 1; 1; 1; 1; 1; 1; 1; 1; 1; 1; 1; 1; 1; 1; 1; 9; 1; 1; 1; 1; 21; 22; 23; 1; 24; 25; 26; 27; 1; 1; 1;
   1; 1; 1; 1; 28; 1; 25; 1; 29; 1; 30; 1; 1; 1; 1; 1; 1; 1; 1; 1; 1; 1; 1; 1; 1; 1; 1; 1; 1; 1; 1; 1; 1; 1; 1;
   1; 1; 1; 1; 1; 1; 1; 1; 1; 1; 1; 1; 1; 1; 1; 1; 1; 1; 1; 1; 1; 1; 1; 1; 1; 1; 1; 1; 1; 1; 1; 1; 1; 1; 1; 1;
   1; 1; 1; 1; 1; 1; 1; 1; 1; 1; 1; 1; 1; 1; 1; 1; 1; 1; 1; 1; 1; 1; 1; 1; 1; 1; 1; 1; 1; 1; 1; 1; 1; 1; 1; 1;
   1; 1; 1; 1; 1; 1; 1; 1; 1; 1; 1; 1; 1; 1; 1; 1; 1; 1; 1; 1; 1; 1; 1; 1; 1; 1; 1; 1; 1; 1; 1; 1; 1; 1; 1; 1;
   1; 1; 1; 1; 1; 1; 1; 1; 1; 1; 1; 1; 1; 1; 1; 1; 1; 1; 1; 1; 1; 1; 1; 1; 1; 1; 1; 1; 1; 1; 1; 1; 1; 1; 1; 1;
   1; 1; 1; 1; 1; 1; 1; 1; 1; 1; 1; 1; 1; 1; 1; 1; 1; 1; 1; 1; 1; 1; 1; 1; 1; 1; 1; 1; 1; 1; 1; 1; 1; 1; 1; 1;
   1; 1; 1; 1; 1; 1; 1; 1; 1; 1; 1; 1; 1; 1; 1; 1; 1; 1; 1; 1; 1; 1; 1; 1; 1; 1; 1; 1; 1; 1; 1; 1; 1; 1; 1; 1;
   1; 1; 1; 1; 1; 1; 1; 1; 1; 1; 1; 1; 1; 1; 1; 1; 1; 1; 1; 1; 1; 1; 1; 1; 1; 1; 1; 1; 1; 1; 1; 1; 1; 1; 1; 1;
   1; 1; 1; 1; 1; 1; 1; 1; 1; 1; 1; 1; 1; 1; 1; 1; 1; 1; 1; 1; 1; 1; 1; 1; 1; 1; 1; 1; 1; 1; 1; 1; 1; 1; 1; 1;
   1; 1; 1; 1; 1; 1; 1; 1; 1; 1; 1; 1; 1; 1; 1; 1; 1; 1; 1; 1; 1; 1; 1; 25; 31; 1]
  [0x0000011004000000; 0x0000000000000000; 0x0000000000000200; 0x0002000000000000; 0x0000000000000040;
   0x1000000000000000; 0x0000000000800000; 0x0000000000000008; 0x0000008000000000; 0x3f00000000000000;
   0xfffff00000000000; 0x010007ffffffffff; 0xfffffffff8000000; 0x8002000000000000; 0x000000001fff0000;
   0x3000000000000000; 0x0000800000000000; 0x083e000000000020; 0x0000000060000000; 0x7000000000000000;
   0x0000000000200000; 0x0000000000001000; 0x8000000000000000; 0x0000000030000000; 0x00000000ff800000;
   0x0001000000000000; 0x0000000000000100; 0x031c000000000000; 0x0000004000008000; 0x0018000020000000;
   0x00000200f0000000; 0x00000000c0000000]
  [1; 1; 1; 1; 1; 2; 1; 1; 1; 3; 1; 1; 1; 4; 1; 1; 1; 1; 1; 1; 1; 1; 1; 1; 1; 1; 1; 1; 1; 1; 1; 1; 1; 1; 1; 1;
   1; 1; 1; 1; 1; 1; 1; 1; 1; 1; 1; 1; 1; 1; 1; 1; 1; 1; 1; 1; 1; 1; 1; 1; 1; 1; 1; 1; 1; 1; 1; 1; 1; 1; 1; 1;
   1; 1; 1; 1; 1; 1; 1; 1; 1; 1; 1; 1; 1; 1; 1; 1; 1; 1; 1; 1; 1; 1; 1; 1; 1; 1; 1; 1; 1; 1; 1; 1; 1; 1; 1; 1;
   1; 1; 1; 1; 1; 1; 1; 1; 1; 1; 1; 1; 1; 1; 1; 1; 1; 1; 1; 1; 1; 1; 1; 1; 1; 1; 1; 1; 1; 1; 1; 1; 1; 1; 1; 1;
   1; 1; 1; 1; 1; 1; 1; 1; 1; 1; 1; 1; 1; 1; 1; 1; 1; 1; 1; 1; 1; 1; 1; 1; 1; 1; 1; 1; 1; 1; 1; 1; 1; 1; 1; 1;
   1; 1; 1; 1; 1; 1; 1; 1; 1; 1; 1; 1; 1; 1; 1; 1; 1; 1; 1; 1; 1; 1; 1; 1; 1; 1; 1; 1; 1; 1; 1; 1; 1; 1; 1; 1;
   1; 1; 1; 1; 1; 1; 1; 1; 1; 1; 1; 1; 1; 1; 1; 1; 1; 1; 1; 1; 1; 1; 1; 1; 1; 1; 1; 1; 1; 1; 1; 1; 1; 1; 1; 1;
   1; 1; 1]
  [1; 0; 0; 0; 0; 0; 0; 0; 0; 0; 0; 0; 0; 0; 0; 0; 0; 0; 0; 0; 0; 0; 0; 0; 0; 0; 0; 0; 0; 0; 0; 0; 0; 0; 0; 0;
   0; 0; 0; 0; 0; 0; 0; 0; 0; 0; 0; 0; 0; 0; 0; 0; 0; 0; 0; 0; 0; 0; 0; 0; 0; 0; 0; 0; 0; 0; 0; 0; 0; 0; 0; 0;
   0; 0; 0; 0; 0; 0; 0; 0; 0; 0; 0; 0; 0; 0; 0; 0; 0; 0; 0; 0; 0; 0; 0; 0; 0; 0; 0; 0; 0; 0; 0; 0; 0; 0; 0; 0;
   0; 0; 0; 0; 0; 0; 0; 0; 0; 0; 0; 0; 0; 0; 0; 0; 0; 0; 0; 0; 0; 0; 0; 0; 0; 0; 0; 0; 0; 0; 0; 0; 0; 0; 0; 2;
   0; 0; 0; 0; 0; 0; 0; 0; 0; 0; 0; 0; 0; 0; 0; 0; 3; 4; 0; 0; 0; 0; 0; 0; 0; 0; 0; 0; 0; 0; 0; 0; 0; 0; 0; 0;
   0; 0; 0; 0; 0; 0; 0; 0; 0; 0; 0; 0; 0; 0; 0; 0; 0; 0; 0; 0; 0; 0; 0; 0; 0; 0; 0; 0; 0; 0; 0; 0; 0; 0; 0; 0;
   0; 0; 0; 0; 0; 0; 0; 0; 0; 5; 0; 0; 0; 0; 6; 0; 0; 0; 0; 0; 0; 0; 0; 0; 0; 0; 0; 0; 0; 0; 0; 0; 0; 0; 0; 0;
   0; 0; 0; 0; 0; 0; 0; 0; 0; 0; 0; 7]
  [0x0000000000000000; 0x07fdffffffffffbf; 0x000000000000000f; 0x00000000fff80000; 0x0000000b00000000;
   0x6fef000000000000; 0x3f80000000000000; 0x0000000000000800].
(** unicode-db.hpp lines 2734-2854. *)
Definition cat_mn : bool_trie := mkTrie 32 991 1 75 255 1 513 7 66
  [0x0000000000000000; 0x0000000000000000; 0x0000000000000000; 0x0000000000000000; 0x0000000000000000;
   0x0000000000000000; 0x0000000000000000; 0x0000000000000000; 0x0000000000000000; 0x0000000000000000;
   0x0000000000000000; 0x0000000000000000; 0xffffffffffffffff; 0x0000ffffffffffff; 0x0000000000000000;
   0x0000000000000000; 0x0000000000000000; 0x0000000000000000; 0x00000000000000f8; 0x0000000000000000;
   0x0000000000000000; 0x0000000000000000; 0xbffffffffffe0000; 0x00000000000000b6; 0x0000000007ff0000;
   0x00010000fffff800; 0x0000000000000000; 0x00003d9f9fc00000; 0xffff000000020000; 0x00000000000007ff;
   0x0001ffc000000000; 0x200ff80000000000]
  [1; 2; 3; 4; 5; 6; 7; 8; 9; 8; 10; 11; 12; 13; 14; 15; 16; 11; 17; 18; 19; 20; 21; 22; 23; 24; 25; 26; 27;
   28; 29; 30; 31; 32; 33; 33; 33; 33; 33; 33; 33; 33; 33; 33; 34; 33; 33; 33; 33; 33; 33; 33; 33; 33; 33; 33;
   33; 33; 33; 35; 36; 37; 38; 39; 33; 40; 33; 41; 33; 33; 33; 42; 43; 44; 45; 46; 47; 48; 49; 50; 33; 33; 51;
   33; 33; 33; 52; 33; 33; 33; 33; 33; 33; 33; 33; 33; 33; 33; 53; 33; 33; 33; 33; 33; 33; 33; 33; 33; 33; 33;
   33; 33; 33; 33; 33; 33; 33; 33; 33; 33; 33; 33; 33; 33; 33; 33; 33; 33; 33; 33; 33; 33; 33; 33; 33; 33; 33;
   33; 33; 33; 33; 33; 33; 33; 33; 33; 54; 33; 55; 33; 56; 33; 33; 33; 33; 33; 33; 33; 33; 57; 33; 58; 33; 33;
   33; 33; 33; 33; 33; 33; 33; 33; 33; 33; 33; 33; 33; 33; 33; 33; 33; 33; 33; 33; 33; 33; 33; 33; 33; 33; 33;
   33; 33; 33; 33; 33; 33; 33; 33; 33; 33; 33; 33; 33; 33; 33; 33; 33; 33; 33; 33; 33; 33; 33; 33; 33; 33; 33;
   33; 33; 33; 33; 33; 33; 33; 33; 33; 33; 33; 33; 33; 33; 33; 33; 33; 33; 33; 33; 33; 33; 33; 33; 33; 33; 33;
   33; 33; 33; 33; 33; 33; 33; 33; 33; 33; 33; 33; 33; 33; 33; 33; 33; 33; 33; 33; 33; 33; 33; 33; 33; 33; 33;
   33; 33; 33; 33; 33; 33; 33; 33; 33; 33; 33; 33; 33; 33; 33; 33; 33; 33; 33; 33; 33; 33; 33; 33; 33; 33; 33;
   33; 33; 33; 33; 33; 33; 33; 33; 33; 33; 33; 33; 33; 33; 33; 33; 33; 33; 33; 33; 33; 33; 33; 33; 33; 33; 33;
   33; 33; 33; 33; 33; 33; 33; 33; 33; 33; 33; 33; 33; 33; 33; 33; 33; 33; 33; 33; 33; 33; 33; 33; 33; 33; 33;
   33; 33; 33; 33; 33; 33; 33; 33; 33; 33; 33; 33; 33; 33; 33; 33; 33; 33; 33; 33; 33; 33; 33; 33; 33; 33; 33;
   33; 33; 33; 33; 33; 33; 33; 33; 33; 33; 33; 33; 33; 33; 33; 33; 33; 33; 33; 33; 33; 33; 33; 33; 33; 33; 33;
   33; 33; 33; 33; 33; 33; 33; 33; 33; 33; 33; 33; 33; 33; 33; 33; 33; 33; 33; 33; 33; 33; 33; 33; 33; 33; 33;
   33; 33; 33; 33; 33; 33; 33; 33; 33; 33; 33; 33; 33; 33; 33; 33; 33; 33; 33; 33; 33; 33; 33; 33; 33; 33; 33;
   33; 33; 33; 33; 33; 33; 33; 33; 33; 33; 33; 33; 33; 33; 33; 33; 33; 33; 33; 33; 33; 33; 33; 33; 33; 33; 33;
   33; 33; 33; 33; 33; 33; 33; 33; 33; 33; 33; 33; 33; 33; 33; 33; 33; 33; 33; 33; 33; 33; 33; 33; 33; 33; 33;
   33; 33; 33; 33; 33; 33; 33; 33; 33; 33; 33; 33; 33; 33; 33; 33; 33; 33; 33; 33; 33; 33; 33; 33; 33; 33; 33;
   33; 33; 33; 33; 33; 33; 33; 33; 33; 33; 33; 33; 33; 33; 33; 33; 33; 33; 33; 33; 33; 33; 33; 33; 33; 33; 33;
   33; 33; 33; 33; 33; 33; 33; 33; 33; 33; 33; 33; 33; 33; 33; 33; 33; 33; 33; 33; 33; 33; 33; 33; 33; 33; 33;
   33; 33; 33; 33; 33; 33; 33; 33; 33; 33; 33; 33; 33; 33; 33; 33; 33; 33; 33; 33; 33; 33; 33; 33; 33; 33; 33;
   33; 33; 33; 33; 33; 33; 33; 33; 33; 59; 60; 61; 33; 33; 33; 33; 62; 33; 33; 63; 64; 65; 66; 67; 68; 69; 70;
   71; 33; 33; 33; 72; 33; 33; 33; 33; 33; 33; 33; 33; 33; 33; 33; 33; 33; 33; 33; 33; 33; 33; 33; 33; 33; 33;
   33; 33; 33; 33; 33; 33; 33; 33; 33; 33; 33; 33; 33; 33; 33; 33; 33; 33; 33; 33; 33; 33; 33; 33; 33; 33; 33;
   33; 33; 33; 33; 33; 33; 33; 33; 33; 33; 33; 33; 33; 33; 33; 33; 33; 33; 33; 33; 33; 33; 33; 33; 33; 33; 33;
   33; 33; 33; 33; 33; 33; 33; 33; 33; 33; 33; 33; 33; 33; 33; 33; 33; 33; 33; 33; 33; 33; 33; 33; 33; 33; 33;
   33; 33; 33; 33; 33; 33; 33; 33; 33; 33; 33; 33; 33; 33; 33; 33; 33; 33; 33; 33; 33; 33; 33; 33; 33; 33; 33;
   33; 33; 33; 33; 33; 33; 33; 33; 33; 33; 33; 33; 33; 33; 33; 33; 33; 33; 33; 33; 33; 33; 33; 33; 33; 33; 33;
   33; 33; 33; 33; 33; 33; 33; 33; 33; 33; 33; 33; 33; 33; 33; 33; 33; 33; 33; 33; 33; 33; 33; 33; 33; 33; 33;
   33; 33; 33; 33; 33; 33; 33; 33; 33; 33; 33; 33; 33; 33; 33; 33; 33; 33; 33; 33; 33; 33; 33; 33; 33; 33; 33;
   33; 33; 33; 33; 33; 33; 33; 33; 33; 33; 33; 33; 33; 33; 33; 33; 33; 33; 33; 33; 33; 33; 33; 33; 33; 33; 33;
   33; 33; 33; 33; 33; 33; 33; 33; 33; 33; 33; 33; 33; 33; 33; 33; 33; 33; 33; 33; 33; 33; 33; 33; 33; 33; 33;
   33; 33; 33; 33; 33; 33; 33; 33; 33; 33; 33; 33; 33; 33; 33; 33; 33; 33; 33; 33; 33; 33; 33; 33; 33; 33; 33;
   33; 33; 33; 33; 33; 33; 33; 33; 33; 33; 33; 33; 33; 33; 33; 33; 33; 33; 33; 33; 33; 33; 33; 33; 73; 33; 33;
   33; 33; 33; 33; 33; 33; 33; 33; 33; 74; 33; 33; 33; 33; 33; 33; 33]
  [0x00003eeffbc00000; 0x000000000e000000; 0x00000000ff000000; 0xfffffffbfffffc00; 0x1400000000000007;
   0x0000000c00fe21fe; 0x1000000000000002; 0x4000000c0000201e; 0x1000000000000006; 0x0023000000023986;
   0xfc00000c000021be; 0x9000000000000002; 0x0000000c0060201e; 0x0000000000000004; 0x0000000000002001;
   0xd000000000000011; 0x0000000c00603dc1; 0x0000000c00003040; 0x1800000000000003; 0x0000000c0000201e;
   0x0000000000000002; 0x00000000005c0400; 0x07f2000000000000; 0x0000000000007f80; 0x1ff2000000000000;
   0x0000000000003f00; 0x02a0000003000000; 0x7ffe000000000000; 0x1ffffffffeffe0df; 0x0000000000000040;
   0x66fde00000000000; 0x001e0001c3000000; 0x0000000020002064; 0x0000000000000000; 0x00000000e0000000;
   0x000c0000001c0000; 0x000c0000000c0000; 0x3fb0000000000000; 0x00000000200ffe40; 0x000000000000b800;
   0x0000020000000060; 0x0e04018700000000; 0x0000000009800000; 0x9ff81fe57f400000; 0xbfff000000000000;
   0x0000000000007fff; 0x17d000000000000f; 0x000ff80000000004; 0x00003b3c00000003; 0x0003a34000000000;
   0x00cff00000000000; 0x031021fdfff70000; 0xffffffffffffffff; 0x0001ffe21fff0000; 0x0003800000000000;
   0x8000000000000000; 0xffffffff00000000; 0x00003c0000000000; 0x0000000006000000; 0x3ff0800000000000;
   0x00000000c0000000; 0x0003000000000000; 0x0000106000000844; 0x8003ffff00000030; 0x00003fc000000000;
   0x000000000003ff80; 0x33c8000000000007; 0x0000002000000000; 0x00667e0000000000; 0x1000000000001008;
   0xc19d000000000000; 0x0040300000000002; 0x0000212000000000; 0x0000000040000000; 0x0000ffff0000ffff]
  [1; 2; 2; 2; 2; 3; 2; 2; 2; 2; 4; 5; 6; 7; 2; 2; 2; 2; 2; 2; 2; 2; 2; 2; 2; 2; 2; 2; 2; 2; 2; 2; 2; 2; 2; 2;
   2; 2; 2; 2; 2; 2; 2; 2; 2; 2; 2; 2; 2; 2; 2; 2; 2; 2; 2; 2; 2; 2; 2; 2; 2; 2; 2; 2; 2; 2; 2; 2; 2; 2; 2; 2;
   2; 2; 2; 2; 2; 2; 2; 2; 2; 2; 2; 2; 2; 2; 2; 2; 2; 2; 2; 2; 2; 2; 2; 2; 2; 2; 2; 2; 2; 2; 2; 2; 2; 2; 2; 2;
   2; 2; 2; 2; 2; 2; 2; 2; 2; 2; 2; 2; 2; 2; 2; 2; 2; 2; 2; 2; 2; 2; 2; 2; 2; 2; 2; 2; 2; 2; 2; 2; 2; 2; 2; 2;
   2; 2; 2; 2; 2; 2; 2; 2; 2; 2; 2; 2; 2; 2; 2; 2; 2; 2; 2; 2; 2; 2; 2; 2; 2; 2; 2; 2; 2; 2; 2; 2; 2; 2; 2; 2;
   2; 2; 2; 2; 2; 2; 2; 2; 2; 2; 2; 2; 2; 2; 2; 2; 2; 2; 2; 2; 2; 2; 2; 2; 2; 2; 2; 8; 2; 2; 2; 2; 2; 2; 2; 2;
   2; 2; 2; 2; 2; 2; 2; 2; 2; 2; 2; 2; 2; 2; 2; 2; 2; 2; 2; 2; 2; 2; 2; 2; 2; 2; 2; 2; 2; 2; 2; 2; 2; 2; 2; 2;
   2; 2; 2]
  [1; 0; 0; 0; 2; 0; 3; 0; 0; 0; 0; 0; 0; 0; 0; 0; 0; 0; 0; 0; 0; 0; 0; 0; 0; 0; 0; 0; 0; 0; 0; 0; 0; 4; 0; 0;
   5; 0; 0; 0; 0; 0; 0; 0; 0; 6; 0; 0; 0; 0; 0; 7; 0; 0; 8; 9; 0; 10; 11; 12; 13; 14; 15; 16; 17; 18; 0; 0; 19;
   20; 21; 0; 0; 22; 23; 24; 25; 0; 0; 26; 27; 28; 29; 30; 0; 31; 0; 0; 0; 32; 0; 0; 0; 33; 34; 0; 35; 36; 37;
   38; 0; 0; 0; 0; 0; 39; 0; 40; 0; 41; 42; 43; 0; 0; 0; 0; 44; 0; 0; 0; 0; 0; 0; 0; 0; 0; 0; 0; 0; 0; 0; 0; 0;
   0; 0; 0; 0; 0; 0; 0; 0; 0; 0; 0; 0; 0; 0; 0; 0; 0; 0; 0; 0; 0; 0; 0; 0; 0; 0; 0; 0; 0; 0; 0; 0; 0; 0; 0; 0;
   0; 0; 0; 0; 0; 0; 0; 0; 0; 0; 0; 0; 0; 0; 0; 0; 0; 0; 0; 0; 0; 0; 0; 0; 0; 0; 0; 0; 0; 0; 0; 0; 0; 0; 0; 0;
   0; 0; 0; 0; 0; 0; 0; 0; 0; 0; 0; 0; 0; 0; 0; 0; 0; 0; 0; 0; 0; 0; 0; 45; 46; 0; 0; 0; 0; 0; 0; 0; 0; 0; 0;
   0; 0; 0; 0; 0; 0; 47; 48; 49; 0; 0; 0; 0; 0; 0; 0; 0; 0; 0; 0; 0; 0; 0; 0; 0; 0; 0; 0; 0; 0; 0; 0; 0; 0; 0;
   0; 0; 0; 0; 0; 0; 0; 0; 0; 0; 0; 0; 0; 0; 0; 0; 0; 0; 0; 0; 0; 0; 0; 0; 50; 0; 0; 0; 0; 0; 0; 0; 0; 0; 0; 0;
   0; 0; 0; 0; 0; 0; 0; 0; 0; 0; 0; 0; 0; 0; 0; 0; 0; 0; 0; 0; 0; 0; 0; 0; 0; 0; 0; 0; 0; 0; 0; 0; 0; 0; 0; 0;
   0; 0; 0; 0; 0; 0; 0; 0; 0; 0; 0; 0; 0; 0; 0; 0; 0; 0; 0; 0; 0; 0; 0; 0; 0; 0; 51; 52; 0; 0; 0; 0; 0; 0; 0;
   53; 54; 0; 0; 55; 0; 0; 0; 0; 0; 0; 0; 0; 0; 0; 0; 0; 0; 0; 0; 0; 0; 0; 0; 0; 0; 0; 0; 0; 0; 0; 0; 0; 0; 0;
   56; 57; 58; 0; 0; 0; 0; 0; 0; 0; 0; 0; 0; 0; 0; 0; 0; 0; 0; 0; 0; 0; 0; 0; 59; 0; 0; 0; 46; 0; 0; 0; 0; 0;
   60; 61; 0; 0; 0; 0; 0; 0; 0; 0; 0; 0; 0; 0; 0; 0; 0; 0; 0; 0; 0; 0; 0; 0; 0; 62; 0; 63; 0; 0; 0; 0; 0; 0; 0;
   0; 0; 0; 0; 0; 0; 0; 0; 0; 0; 0; 0; 0; 0; 0; 0; 0; 0; 0; 0; 0; 0; 0; 64; 64; 64; 65]
  [0x0000000000000000; 0x2000000000000000; 0x0000000100000000; 0x07c0000000000000; 0x870000000000f06e;
   0x0000006000000000; 0x000000f000000000; 0x0000180000000000; 0x000000000001ffc0; 0x000000000000003c;
   0xff00000000000002; 0x801900000000007f; 0x0678000000000003; 0x0000000000000004; 0x001fef8000000007;
   0x0008000000000000; 0x7fc0000000000003; 0x0000000000009e00; 0x40d3800000000000; 0x000007f880000000;
   0x1800000000000003; 0x001f1fc000000001; 0xff00000000000000; 0x000000004000005c; 0x85f8000000000000;
   0x000000000000000d; 0xb03c000000000000; 0x0000000030000001; 0xa7f8000000000000; 0x0000000000000001;
   0x00bf280000000000; 0x00000fbce0000000; 0x06ff800000000000; 0x5800000000000000; 0x0000000000000008;
   0x000000010cf00000; 0x79f80000000007fe; 0x000000000e7e0080; 0x00000000037ffc00; 0xbf7f000000000000;
   0x006dfcfffffc0000; 0xb47e000000000000; 0x00000000000000bf; 0x0000000000a30000; 0x0018000000000000;
   0x001f000000000000; 0x007f000000000000; 0x0000000000008000; 0x0000000000078000; 0x0000001000000000;
   0x0000000060000000; 0xffff3fffffffffff; 0x000000000000007f; 0xf800038000000000; 0x00003c0000000fe7;
   0x000000000000001c; 0xf87fffffffffffff; 0x00201fffffffffff; 0x0000fffef8000010; 0x000007dbf9ffff7f;
   0x0000400000000000; 0x0000f00000000000; 0x00000000007f0000; 0x00000000000007f0; 0xffffffffffffffff;
   0x0000ffffffffffff].
(** unicode-db.hpp lines 2855-2857. *)
Definition cat_me : list Z :=
  [0x00000000; 0x00048801; 0x00048a00; 0x001abe01; 0x001abf00; 0x0020dd01; 0x0020e100; 0x0020e201; 0x0020e500;
   0x00a67001; 0x00a67300].
(** unicode-db.hpp lines 2858-2915. *)
Definition cat_mc : bool_trie := mkTrie 0 652 4 43 13 1 134 64 33
  []
  [1; 2; 3; 4; 5; 6; 5; 7; 8; 4; 9; 10; 11; 12; 8; 13; 3; 14; 15; 16; 0; 0; 0; 0; 9; 17; 0; 0; 18; 19; 20; 0;
   0; 0; 0; 0; 0; 0; 0; 0; 0; 0; 0; 0; 0; 0; 0; 0; 0; 0; 0; 0; 0; 0; 0; 0; 21; 0; 22; 23; 0; 0; 0; 0; 24; 0; 0;
   0; 25; 26; 0; 0; 27; 28; 29; 30; 31; 0; 0; 32; 0; 0; 0; 0; 0; 0; 0; 0; 0; 0; 0; 0; 0; 0; 0; 0; 0; 0; 0; 0;
   0; 0; 0; 0; 0; 0; 0; 0; 0; 0; 0; 0; 0; 0; 0; 0; 0; 0; 0; 0; 0; 0; 0; 0; 0; 0; 0; 0; 0; 0; 0; 0; 0; 0; 0; 0;
   0; 0; 0; 0; 0; 0; 0; 0; 0; 0; 0; 0; 0; 0; 0; 0; 0; 0; 0; 0; 33; 0; 0; 0; 0; 0; 0; 0; 0; 0; 0; 0; 0; 0; 0; 0;
   0; 0; 0; 0; 0; 0; 0; 0; 0; 0; 0; 0; 0; 0; 0; 0; 0; 0; 0; 0; 0; 0; 0; 0; 0; 0; 0; 0; 0; 0; 0; 0; 0; 0; 0; 0;
   0; 0; 0; 0; 0; 0; 0; 0; 0; 0; 0; 0; 0; 0; 0; 0; 0; 0; 0; 0; 0; 0; 0; 0; 0; 0; 0; 0; 0; 0; 0; 0; 0; 0; 0; 0;
   0; 0; 0; 0; 0; 0; 0; 0; 0; 0; 0; 0; 0; 0; 0; 0; 0; 0; 0; 0; 0; 0; 0; 0; 0; 0; 0; 0; 0; 0; 0; 0; 0; 0; 0; 0;
   0; 0; 0; 0; 0; 0; 0; 0; 0; 0; 0; 0; 0; 0; 0; 0; 0; 0; 0; 0; 0; 0; 0; 0; 0; 0; 0; 0; 0; 0; 0; 0; 0; 0; 0; 0;
   0; 0; 0; 0; 0; 0; 0; 0; 0; 0; 0; 0; 0; 0; 0; 0; 0; 0; 0; 0; 0; 0; 0; 0; 0; 0; 0; 0; 0; 0; 0; 0; 0; 0; 0; 0;
   0; 0; 0; 0; 0; 0; 0; 0; 0; 0; 0; 0; 0; 0; 0; 0; 0; 0; 0; 0; 0; 0; 0; 0; 0; 0; 0; 0; 0; 0; 0; 0; 0; 0; 0; 0;
   0; 0; 0; 0; 0; 0; 0; 0; 0; 0; 0; 0; 0; 0; 0; 0; 0; 0; 0; 0; 0; 0; 0; 0; 0; 0; 0; 0; 0; 0; 0; 0; 0; 0; 0; 0;
   0; 0; 0; 0; 0; 0; 0; 0; 0; 0; 0; 0; 0; 0; 0; 0; 0; 0; 0; 0; 0; 0; 0; 0; 0; 0; 0; 0; 0; 0; 0; 0; 0; 0; 0; 0;
   0; 0; 0; 0; 0; 0; 0; 0; 0; 0; 0; 0; 0; 0; 0; 0; 0; 0; 0; 0; 0; 0; 0; 0; 0; 0; 0; 0; 0; 0; 0; 0; 0; 0; 0; 0;
   0; 0; 0; 0; 0; 0; 0; 0; 0; 0; 0; 0; 0; 0; 0; 0; 0; 0; 0; 0; 0; 0; 0; 0; 0; 0; 0; 0; 0; 0; 0; 0; 0; 0; 0; 0;
   0; 0; 0; 0; 0; 0; 0; 0; 0; 0; 0; 0; 0; 0; 0; 0; 0; 0; 0; 0; 0; 0; 0; 0; 0; 0; 0; 0; 0; 0; 0; 0; 0; 0; 0; 0;
   0; 0; 0; 0; 0; 0; 0; 0; 0; 0; 0; 0; 0; 0; 0; 0; 0; 0; 0; 0; 0; 0; 0; 0; 0; 0; 0; 0; 0; 0; 0; 0; 0; 0; 0; 0;
   0; 0; 0; 0; 0; 0; 0; 0; 0; 0; 0; 0; 0; 0; 0; 0; 0; 0; 0; 0; 0; 0; 0; 0; 0; 0; 0; 0; 0; 0; 0; 0; 34; 0; 35;
   36; 0; 37; 38; 6; 39; 40; 0; 41; 0; 0; 0; 42]
  [0x0000000000000000; 0xc800000000000008; 0x000000000000de01; 0xc00000000000000c; 0x0000000000801981;
   0xc000000000000008; 0x0000000000000001; 0x0000000000001a01; 0x400000000000000c; 0xc000000000000000;
   0x0000000000801dc6; 0x000000000000000e; 0x000000000000001e; 0x0000000000600d9f; 0x0000000000801dc1;
   0x000000000000000c; 0x000c0000ff038000; 0x8000000000000000; 0x1902180000000000; 0x00003f9c00c00000;
   0x000000001c009f98; 0x0010000000200000; 0xc040000000000000; 0x00000000000001bf; 0x01fb0e7800000000;
   0x0000000006000000; 0x0007e01a00a00000; 0xe820000000000010; 0x000000000000001b; 0x000004c200000004;
   0x000c5c8000000000; 0x00300ff000000000; 0x0080000200000000; 0x0000c00000000000; 0x0000009800000000;
   0xfff0000000000003; 0x000000000000000f; 0x00000000000c0000; 0xcc30000000000008; 0x0019800000000000;
   0x2800000000002000; 0x0020c80000000000; 0x000016d800000000]
  [1; 0; 0; 0; 0; 2; 0; 0; 0; 0; 0; 0; 3]
  [1; 0; 2; 0; 3; 4; 5; 6; 7; 0; 0; 8; 9; 10; 0; 0; 11; 12; 13; 14; 0; 0; 15; 0; 16; 0; 17; 0; 18; 0; 0; 0; 19;
   0; 0; 0; 20; 1; 0; 21; 22; 23; 24; 0; 0; 0; 0; 0; 25; 0; 26; 0; 0; 0; 27; 0; 0; 0; 0; 28; 0; 0; 0; 0; 0; 0;
   0; 0; 0; 0; 0; 0; 0; 0; 0; 0; 0; 0; 0; 0; 0; 0; 0; 0; 0; 0; 0; 0; 0; 0; 0; 0; 0; 0; 0; 0; 0; 0; 0; 0; 0; 0;
   0; 0; 0; 0; 0; 0; 0; 0; 0; 0; 0; 0; 0; 0; 0; 0; 0; 0; 0; 0; 0; 0; 0; 29; 30; 31; 0; 0; 0; 0; 0; 32]
  [0x0000000000000000; 0x0000000000000005; 0x0187000000000004; 0x0000100000000000; 0x0000000000000060;
   0x8038000000000004; 0x0000000000004001; 0x002c700000000000; 0x0000000700000000; 0xc00000000000000c;
   0x0000000c0080399e; 0x00e0000000000000; 0x0000000000000023; 0x7a07000000000000; 0x0000000000000002;
   0x4f03800000000000; 0x5807000000000000; 0x0040d00000000000; 0x0000004300000000; 0x0100700000000000;
   0x21bf000000000000; 0x00000010f00e0000; 0x0200000000000000; 0x0000000001800000; 0x0000000000800000;
   0x4000800000000000; 0x0012020000000000; 0x0000000000587c00; 0x0060000000000000; 0xfffffffffffe0000;
   0x00000000000000ff; 0x0003000000000000; 0x0007e06000000000].
(** unicode-db.hpp lines 2916-2920. *)
Definition cat_nl : list Z :=
  [0x00000000; 0x0016ee01; 0x0016f100; 0x00216001; 0x00218300; 0x00218501; 0x00218900; 0x00300701; 0x00300800;
   0x00302101; 0x00302a00; 0x00303801; 0x00303b00; 0x00a6e601; 0x00a6f000; 0x01014001; 0x01017500; 0x01034101;
   0x01034200; 0x01034a01; 0x01034b00; 0x0103d101; 0x0103d600; 0x01240001; 0x01246f00].
(** unicode-db.hpp lines 2921-2921. *)
Definition cat_zl : list Z :=
  [0x2028].
(** unicode-db.hpp lines 2922-2922. *)
Definition cat_zp : list Z :=
  [0x2029].
(** unicode-db.hpp lines 2923-2923. *)
Definition cat_cs : list Z :=
  [0x00000000; 0x00d80001; 0x00e00000].
(** unicode-db.hpp lines 2924-2925. *)
Definition cat_co : list Z :=
  [0x00000000; 0x00e00001; 0x00f90000; 0x0f000001; 0x0ffffe00; 0x10000001; 0x10fffe00].
(** unicode-db.hpp lines 3658-3712. *)
Definition block_data : list Z :=
  [0x00000001; 0x00008001; 0x00010001; 0x00018001; 0x00025001; 0x0002b001; 0x00030001; 0x00037001; 0x00040001;
   0x00050001; 0x00053001; 0x00059001; 0x00060001; 0x00070001; 0x00075001; 0x00078001; 0x0007c001; 0x00080001;
   0x00084001; 0x00086001; 0x00087001; 0x0008a001; 0x00090001; 0x00098001; 0x000a0001; 0x000a8001; 0x000b0001;
   0x000b8001; 0x000c0001; 0x000c8001; 0x000d0001; 0x000d8001; 0x000e0001; 0x000e8001; 0x000f0001; 0x00100001;
   0x0010a001; 0x00110001; 0x00120001; 0x00138001; 0x0013a001; 0x00140001; 0x00168001; 0x0016a001; 0x00170001;
   0x00172001; 0x00174001; 0x00176001; 0x00178001; 0x00180001; 0x0018b001; 0x00190001; 0x00195001; 0x00198001;
   0x0019e001; 0x001a0001; 0x001a2001; 0x001ab001; 0x001b0001; 0x001b8001; 0x001bc001; 0x001c0001; 0x001c5001;
   0x001c8001; 0x001c9001; 0x001cc001; 0x001cd001; 0x001d0001; 0x001d8001; 0x001dc001; 0x001e0001; 0x001f0001;
   0x00200001; 0x00207001; 0x0020a001; 0x0020d001; 0x00210001; 0x00215001; 0x00219001; 0x00220001; 0x00230001;
   0x00240001; 0x00244001; 0x00246001; 0x00250001; 0x00258001; 0x0025a001; 0x00260001; 0x00270001; 0x0027c001;
   0x0027f001; 0x00280001; 0x00290001; 0x00298001; 0x002a0001; 0x002b0001; 0x002c0001; 0x002c6001; 0x002c8001;
   0x002d0001; 0x002d3001; 0x002d8001; 0x002de001; 0x002e0001; 0x002e8001; 0x002f0001; 0x002fe000; 0x002ff002;
   0x00300002; 0x00304002; 0x0030a002; 0x00310002; 0x00313002; 0x00319002; 0x0031a002; 0x0031c002; 0x0031f002;
   0x00320002; 0x00330002; 0x00340002; 0x004dc002; 0x004e0002; 0x00a00002; 0x00a49002; 0x00a4d002; 0x00a50002;
   0x00a64002; 0x00a6a002; 0x00a70002; 0x00a72002; 0x00a80002; 0x00a83002; 0x00a84002; 0x00a88002; 0x00a8e002;
   0x00a90002; 0x00a93002; 0x00a96002; 0x00a98002; 0x00a9e002; 0x00aa0002; 0x00aa6002; 0x00aa8002; 0x00aae002;
   0x00ab0002; 0x00ab3002; 0x00ab7002; 0x00abc002; 0x00ac0002; 0x00d7b002; 0x00d80002; 0x00db8002; 0x00dc0002;
   0x00e00002; 0x00f90002; 0x00fb0002; 0x00fb5002; 0x00fe0002; 0x00fe1002; 0x00fe2002; 0x00fe3002; 0x00fe5002;
   0x00fe7002; 0x00ff0002; 0x00fff002; 0x01000002; 0x01008002; 0x01010002; 0x01014002; 0x01019002; 0x0101d002;
   0x01020000; 0x01028003; 0x0102a003; 0x0102e003; 0x01030003; 0x01033003; 0x01035003; 0x01038003; 0x0103a003;
   0x0103e000; 0x01040004; 0x01045004; 0x01048004; 0x0104b004; 0x01050004; 0x01053004; 0x01057004; 0x0105c000;
   0x01060005; 0x01078005; 0x0107c000; 0x01080006; 0x01084006; 0x01086006; 0x01088006; 0x0108b000; 0x0108e007;
   0x01090007; 0x01092007; 0x01094000; 0x01098008; 0x0109a008; 0x010a0008; 0x010a6008; 0x010a8008; 0x010aa000;
   0x010ac009; 0x010b0009; 0x010b4009; 0x010b6009; 0x010b8009; 0x010bb000; 0x010c000a; 0x010c5000; 0x010c800b;
   0x010d000b; 0x010d4000; 0x010e600c; 0x010e800c; 0x010ec000; 0x010f000d; 0x010f300d; 0x010f700d; 0x010fb00d;
   0x010fe00d; 0x0110000d; 0x0110800d; 0x0110d00d; 0x0111000d; 0x0111500d; 0x0111800d; 0x0111e00d; 0x0112000d;
   0x01125000; 0x0112800e; 0x0112b00e; 0x0113000e; 0x01138000; 0x0114000f; 0x0114800f; 0x0114e000; 0x01158010;
   0x01160010; 0x01166010; 0x01168010; 0x0116d000; 0x01170011; 0x01175000; 0x01180012; 0x01185000; 0x0118a013;
   0x01190013; 0x01196000; 0x0119a014; 0x011a0014; 0x011a5014; 0x011ab014; 0x011ac014; 0x011b0000; 0x011c0015;
   0x011c7015; 0x011cc000; 0x011d0016; 0x011d6016; 0x011db000; 0x011ee017; 0x011f0000; 0x011fb018; 0x011fc018;
   0x01200018; 0x01240018; 0x01248018; 0x01255000; 0x012f9019; 0x01300019; 0x01343019; 0x01344000; 0x0144001a;
   0x01468000; 0x0168001b; 0x016a401b; 0x016a701b; 0x016ad01b; 0x016b001b; 0x016b9000; 0x016e401c; 0x016ea000;
   0x016f001d; 0x016fa000; 0x016fe01e; 0x0170001e; 0x0188001e; 0x018b001e; 0x018d001e; 0x018d8000; 0x01aff01f;
   0x01b0001f; 0x01b1001f; 0x01b1301f; 0x01b1701f; 0x01b30000; 0x01bc0020; 0x01bca020; 0x01bcb000; 0x01cf0021;
   0x01cfd000; 0x01d00022; 0x01d10022; 0x01d20022; 0x01d25000; 0x01d2e023; 0x01d30023; 0x01d36023; 0x01d38000;
   0x01d40024; 0x01d80024; 0x01dab000; 0x01df0025; 0x01e00025; 0x01e03000; 0x01e10026; 0x01e15000; 0x01e29027;
   0x01e2c027; 0x01e30000; 0x01e7e028; 0x01e80028; 0x01e8e000; 0x01e90029; 0x01e96000; 0x01ec702a; 0x01ecc000;
   0x01ed002b; 0x01ed5000; 0x01ee002c; 0x01ef0000; 0x01f0002d; 0x01f0302d; 0x01f0a02d; 0x01f1002d; 0x01f2002d;
   0x01f3002d; 0x01f6002d; 0x01f6502d; 0x01f6802d; 0x01f7002d; 0x01f7802d; 0x01f8002d; 0x01f9002d; 0x01fa002d;
   0x01fa702d; 0x01fb002d; 0x01fc0000; 0x0200002e; 0x02a6e000; 0x02a7002f; 0x02b7402f; 0x02b8202f; 0x02ceb02f;
   0x02ebf000; 0x02f80030; 0x02fa2000; 0x03000031; 0x03135000; 0x0e000032; 0x0e008000; 0x0e010033; 0x0e01f000;
   0x0f000034; 0x10000034; 0xffffffff].
(** unicode-db.hpp lines 4037-4272. *)
Definition scripts_data_0 : list Z :=
  [0x000000a1; 0x00004145; 0x00005ba1; 0x00006145; 0x00007ba1; 0x0000aa45; 0x0000aba1; 0x0000ba45; 0x0000bba1;
   0x0000c045; 0x0000d7a1; 0x0000d845; 0x0000f7a1; 0x0000f845; 0x0002b9a1; 0x0002e045; 0x0002e5a1; 0x0002ea0d;
   0x0002eca1; 0x000300a0; 0x0003702b; 0x000374a1; 0x0003752b; 0x000378a2; 0x00037a2b; 0x00037ea1; 0x00037f2b;
   0x000380a2; 0x0003842b; 0x000385a1; 0x0003862b; 0x000387a1; 0x0003882b; 0x00038ba2; 0x00038c2b; 0x00038da2;
   0x00038e2b; 0x0003a2a2; 0x0003a32b; 0x0003e218; 0x0003f02b; 0x0004001b; 0x000485a0; 0x0004871b; 0x000530a2;
   0x00053105; 0x000557a2; 0x00055905; 0x00058ba2; 0x00058d05; 0x000590a2; 0x00059132; 0x0005c8a2; 0x0005d032;
   0x0005eba2; 0x0005ef32; 0x0005f5a2; 0x00060003; 0x000605a1; 0x00060603; 0x00060ca1; 0x00060d03; 0x00061ba1;
   0x00061c03; 0x00061fa1; 0x00062003; 0x000640a1; 0x00064103; 0x00064ba0; 0x00065603; 0x000670a0; 0x00067103;
   0x0006dda1; 0x0006de03; 0x00070085; 0x00070ea2; 0x00070f85; 0x00074ba2; 0x00074d85; 0x00075003; 0x00078090;
   0x0007b2a2; 0x0007c061; 0x0007fba2; 0x0007fd61; 0x00080076; 0x00082ea2; 0x00083076; 0x00083fa2; 0x0008404f;
   0x00085ca2; 0x00085e4f; 0x00085fa2; 0x00086085; 0x00086ba2; 0x00087003; 0x00088fa2; 0x00089003; 0x000892a2;
   0x00089803; 0x0008e2a1; 0x0008e303; 0x0009001c; 0x000951a0; 0x0009551c; 0x000964a1; 0x0009661c; 0x0009800b;
   0x000984a2; 0x0009850b; 0x00098da2; 0x00098f0b; 0x000991a2; 0x0009930b; 0x0009a9a2; 0x0009aa0b; 0x0009b1a2;
   0x0009b20b; 0x0009b3a2; 0x0009b60b; 0x0009baa2; 0x0009bc0b; 0x0009c5a2; 0x0009c70b; 0x0009c9a2; 0x0009cb0b;
   0x0009cfa2; 0x0009d70b; 0x0009d8a2; 0x0009dc0b; 0x0009dea2; 0x0009df0b; 0x0009e4a2; 0x0009e60b; 0x0009ffa2;
   0x000a012d; 0x000a04a2; 0x000a052d; 0x000a0ba2; 0x000a0f2d; 0x000a11a2; 0x000a132d; 0x000a29a2; 0x000a2a2d;
   0x000a31a2; 0x000a322d; 0x000a34a2; 0x000a352d; 0x000a37a2; 0x000a382d; 0x000a3aa2; 0x000a3c2d; 0x000a3da2;
   0x000a3e2d; 0x000a43a2; 0x000a472d; 0x000a49a2; 0x000a4b2d; 0x000a4ea2; 0x000a512d; 0x000a52a2; 0x000a592d;
   0x000a5da2; 0x000a5e2d; 0x000a5fa2; 0x000a662d; 0x000a77a2; 0x000a812c; 0x000a84a2; 0x000a852c; 0x000a8ea2;
   0x000a8f2c; 0x000a92a2; 0x000a932c; 0x000aa9a2; 0x000aaa2c; 0x000ab1a2; 0x000ab22c; 0x000ab4a2; 0x000ab52c;
   0x000abaa2; 0x000abc2c; 0x000ac6a2; 0x000ac72c; 0x000acaa2; 0x000acb2c; 0x000acea2; 0x000ad02c; 0x000ad1a2;
   0x000ae02c; 0x000ae4a2; 0x000ae62c; 0x000af2a2; 0x000af92c; 0x000b00a2; 0x000b0166; 0x000b04a2; 0x000b0566;
   0x000b0da2; 0x000b0f66; 0x000b11a2; 0x000b1366; 0x000b29a2; 0x000b2a66; 0x000b31a2; 0x000b3266; 0x000b34a2;
   0x000b3566; 0x000b3aa2; 0x000b3c66; 0x000b45a2; 0x000b4766; 0x000b49a2; 0x000b4b66; 0x000b4ea2; 0x000b5566;
   0x000b58a2; 0x000b5c66; 0x000b5ea2; 0x000b5f66; 0x000b64a2; 0x000b6666; 0x000b78a2; 0x000b828a; 0x000b84a2;
   0x000b858a; 0x000b8ba2; 0x000b8e8a; 0x000b91a2; 0x000b928a; 0x000b96a2; 0x000b998a; 0x000b9ba2; 0x000b9c8a;
   0x000b9da2; 0x000b9e8a; 0x000ba0a2; 0x000ba38a; 0x000ba5a2; 0x000ba88a; 0x000baba2; 0x000bae8a; 0x000bbaa2;
   0x000bbe8a; 0x000bc3a2; 0x000bc68a; 0x000bc9a2; 0x000bca8a; 0x000bcea2; 0x000bd08a; 0x000bd1a2; 0x000bd78a;
   0x000bd8a2; 0x000be68a; 0x000bfba2; 0x000c008d; 0x000c0da2; 0x000c0e8d; 0x000c11a2; 0x000c128d; 0x000c29a2;
   0x000c2a8d; 0x000c3aa2; 0x000c3c8d; 0x000c45a2; 0x000c468d; 0x000c49a2; 0x000c4a8d; 0x000c4ea2; 0x000c558d;
   0x000c57a2; 0x000c588d; 0x000c5ba2; 0x000c5d8d; 0x000c5ea2; 0x000c608d; 0x000c64a2; 0x000c668d; 0x000c70a2;
   0x000c778d; 0x000c8041; 0x000c8da2; 0x000c8e41; 0x000c91a2; 0x000c9241; 0x000ca9a2; 0x000caa41; 0x000cb4a2;
   0x000cb541; 0x000cbaa2; 0x000cbc41; 0x000cc5a2; 0x000cc641; 0x000cc9a2; 0x000cca41; 0x000ccea2; 0x000cd541;
   0x000cd7a2; 0x000cdd41; 0x000cdfa2; 0x000ce041; 0x000ce4a2; 0x000ce641; 0x000cf0a2; 0x000cf141; 0x000cf3a2;
   0x000d0056; 0x000d0da2; 0x000d0e56; 0x000d11a2; 0x000d1256; 0x000d45a2; 0x000d4656; 0x000d49a2; 0x000d4a56;
   0x000d50a2; 0x000d5456; 0x000d64a2; 0x000d6656; 0x000d80a2; 0x000d817e; 0x000d84a2; 0x000d857e; 0x000d97a2;
   0x000d9a7e; 0x000db2a2; 0x000db37e; 0x000dbca2; 0x000dbd7e; 0x000dbea2; 0x000dc07e; 0x000dc7a2; 0x000dca7e;
   0x000dcba2; 0x000dcf7e; 0x000dd5a2; 0x000dd67e; 0x000dd7a2; 0x000dd87e; 0x000de0a2; 0x000de67e; 0x000df0a2;
   0x000df27e; 0x000df5a2; 0x000e0191; 0x000e3ba2; 0x000e3fa1; 0x000e4091; 0x000e5ca2; 0x000e8144; 0x000e83a2;
   0x000e8444; 0x000e85a2; 0x000e8644; 0x000e8ba2; 0x000e8c44; 0x000ea4a2; 0x000ea544; 0x000ea6a2; 0x000ea744;
   0x000ebea2; 0x000ec044; 0x000ec5a2; 0x000ec644; 0x000ec7a2; 0x000ec844; 0x000ecea2; 0x000ed044; 0x000edaa2;
   0x000edc44; 0x000ee0a2; 0x000f0092; 0x000f48a2; 0x000f4992; 0x000f6da2; 0x000f7192; 0x000f98a2; 0x000f9992;
   0x000fbda2; 0x000fbe92; 0x000fcda2; 0x000fce92; 0x000fd5a1; 0x000fd992; 0x000fdba2; 0x0010005c; 0x0010a025;
   0x0010c6a2; 0x0010c725; 0x0010c8a2; 0x0010cd25; 0x0010cea2; 0x0010d025; 0x0010fba1; 0x0010fc25; 0x0011002e;
   0x00120024; 0x001249a2; 0x00124a24; 0x00124ea2; 0x00125024; 0x001257a2; 0x00125824; 0x001259a2; 0x00125a24;
   0x00125ea2; 0x00126024; 0x001289a2; 0x00128a24; 0x00128ea2; 0x00129024; 0x0012b1a2; 0x0012b224; 0x0012b6a2;
   0x0012b824; 0x0012bfa2; 0x0012c024; 0x0012c1a2; 0x0012c224; 0x0012c6a2; 0x0012c824; 0x0012d7a2; 0x0012d824;
   0x001311a2; 0x00131224; 0x001316a2; 0x00131824; 0x00135ba2; 0x00135d24; 0x00137da2; 0x00138024; 0x00139aa2;
   0x0013a016; 0x0013f6a2; 0x0013f816; 0x0013fea2; 0x00140013; 0x00168063; 0x00169da2; 0x0016a075; 0x0016eba1;
   0x0016ee75; 0x0016f9a2; 0x0017008f; 0x001716a2; 0x00171f8f; 0x00172030; 0x001735a1; 0x001737a2; 0x00174011;
   0x001754a2; 0x00176086; 0x00176da2; 0x00176e86; 0x001771a2; 0x00177286; 0x001774a2; 0x0017803e; 0x0017dea2;
   0x0017e03e; 0x0017eaa2; 0x0017f03e; 0x0017faa2; 0x00180058; 0x001802a1; 0x00180458; 0x001805a1; 0x00180658;
   0x00181aa2; 0x00182058; 0x001879a2; 0x00188058; 0x0018aba2; 0x0018b013; 0x0018f6a2; 0x00190047; 0x00191fa2;
   0x00192047; 0x00192ca2; 0x00193047; 0x00193ca2; 0x00194047; 0x001941a2; 0x00194447; 0x00195088; 0x00196ea2;
   0x00197088; 0x001975a2; 0x00198089; 0x0019aca2; 0x0019b089; 0x0019caa2; 0x0019d089; 0x0019dba2; 0x0019de89;
   0x0019e03e; 0x001a0010; 0x001a1ca2; 0x001a1e10; 0x001a2043; 0x001a5fa2; 0x001a6043; 0x001a7da2; 0x001a7f43;
   0x001a8aa2; 0x001a9043; 0x001a9aa2; 0x001aa043; 0x001aaea2; 0x001ab0a0; 0x001acfa2; 0x001b0007; 0x001b4da2;
   0x001b5007; 0x001b7fa2; 0x001b8083; 0x001bc00a; 0x001bf4a2; 0x001bfc0a; 0x001c0046; 0x001c38a2; 0x001c3b46;
   0x001c4aa2; 0x001c4d46; 0x001c5064; 0x001c801b; 0x001c89a2; 0x001c9025; 0x001cbba2; 0x001cbd25; 0x001cc083;
   0x001cc8a2; 0x001cd0a0; 0x001cd3a1; 0x001cd4a0; 0x001ce1a1; 0x001ce2a0; 0x001ce9a1; 0x001ceda0; 0x001ceea1;
   0x001cf4a0; 0x001cf5a1; 0x001cf8a0; 0x001cfaa1; 0x001cfba2; 0x001d0045; 0x001d262b; 0x001d2b1b; 0x001d2c45;
   0x001d5d2b; 0x001d6245; 0x001d662b; 0x001d6b45; 0x001d781b; 0x001d7945; 0x001dbf2b; 0x001dc0a0; 0x001e0045;
   0x001f002b; 0x001f16a2; 0x001f182b; 0x001f1ea2; 0x001f202b; 0x001f46a2; 0x001f482b; 0x001f4ea2; 0x001f502b;
   0x001f58a2; 0x001f592b; 0x001f5aa2; 0x001f5b2b; 0x001f5ca2; 0x001f5d2b; 0x001f5ea2; 0x001f5f2b; 0x001f7ea2;
   0x001f802b; 0x001fb5a2; 0x001fb62b; 0x001fc5a2; 0x001fc62b; 0x001fd4a2; 0x001fd62b; 0x001fdca2; 0x001fdd2b;
   0x001ff0a2; 0x001ff22b; 0x001ff5a2; 0x001ff62b; 0x001fffa2; 0x002000a1; 0x00200ca0; 0x00200ea1; 0x002065a2;
   0x002066a1; 0x00207145; 0x002072a2; 0x002074a1; 0x00207f45; 0x002080a1; 0x00208fa2; 0x00209045; 0x00209da2;
   0x0020a0a1; 0x0020c1a2; 0x0020d0a0; 0x0020f1a2; 0x002100a1; 0x0021262b; 0x002127a1; 0x00212a45; 0x00212ca1;
   0x00213245; 0x002133a1; 0x00214e45; 0x00214fa1; 0x00216045; 0x002189a1; 0x00218ca2; 0x002190a1; 0x002427a2;
   0x002440a1; 0x00244ba2; 0x002460a1; 0x0028000f; 0x002900a1; 0x002b74a2; 0x002b76a1; 0x002b96a2; 0x002b97a1;
   0x002c0026; 0x002c6045; 0x002c8018; 0x002cf4a2; 0x002cf918; 0x002d0025; 0x002d26a2; 0x002d2725; 0x002d28a2;
   0x002d2d25; 0x002d2ea2; 0x002d308e; 0x002d68a2; 0x002d6f8e; 0x002d71a2; 0x002d7f8e; 0x002d8024; 0x002d97a2;
   0x002da024; 0x002da7a2; 0x002da824; 0x002dafa2; 0x002db024; 0x002db7a2; 0x002db824; 0x002dbfa2; 0x002dc024;
   0x002dc7a2; 0x002dc824; 0x002dcfa2; 0x002dd024; 0x002dd7a2; 0x002dd824; 0x002ddfa2; 0x002de01b; 0x002e00a1;
   0x002e5ea2; 0x002e802f; 0x002e9aa2; 0x002e9b2f; 0x002ef4a2; 0x002f002f; 0x002fd6a2; 0x002ff0a1; 0x002ffca2;
   0x003000a1; 0x0030052f; 0x003006a1; 0x0030072f; 0x003008a1; 0x0030212f; 0x00302aa0; 0x00302e2e; 0x003030a1;
   0x0030382f; 0x00303ca1; 0x003040a2; 0x00304133; 0x003097a2; 0x003099a0; 0x00309ba1; 0x00309d33; 0x0030a0a1;
   0x0030a13c; 0x0030fba1; 0x0030fd3c; 0x003100a2; 0x0031050d; 0x003130a2; 0x0031312e; 0x00318fa2; 0x003190a1;
   0x0031a00d; 0x0031c0a1; 0x0031e4a2; 0x0031f03c; 0x0032002e; 0x00321fa2; 0x003220a1; 0x0032602e; 0x00327fa1;
   0x0032d03c; 0x0032ffa1; 0x0033003c; 0x003358a1; 0x0034002f; 0x004dc0a1; 0x004e002f; 0x00a0009e; 0x00a48da2;
   0x00a4909e; 0x00a4c7a2; 0x00a4d04a; 0x00a50097; 0x00a62ca2; 0x00a6401b; 0x00a6a008; 0x00a6f8a2; 0x00a700a1;
   0x00a72245; 0x00a788a1; 0x00a78b45; 0x00a7cba2; 0x00a7d045; 0x00a7d2a2; 0x00a7d345; 0x00a7d4a2; 0x00a7d545;
   0x00a7daa2; 0x00a7f245; 0x00a80084; 0x00a82da2; 0x00a830a1; 0x00a83aa2; 0x00a8406d; 0x00a878a2; 0x00a88078;
   0x00a8c6a2; 0x00a8ce78; 0x00a8daa2; 0x00a8e01c; 0x00a9003b; 0x00a92ea1; 0x00a92f3b; 0x00a93073; 0x00a954a2;
   0x00a95f73; 0x00a9602e; 0x00a97da2; 0x00a9803a; 0x00a9cea2; 0x00a9cfa1; 0x00a9d03a; 0x00a9daa2; 0x00a9de3a;
   0x00a9e05c; 0x00a9ffa2; 0x00aa0015; 0x00aa37a2; 0x00aa4015; 0x00aa4ea2; 0x00aa5015; 0x00aa5aa2; 0x00aa5c15;
   0x00aa605c; 0x00aa808c; 0x00aac3a2; 0x00aadb8c; 0x00aae05a; 0x00aaf7a2; 0x00ab0124; 0x00ab07a2; 0x00ab0924;
   0x00ab0fa2; 0x00ab1124; 0x00ab17a2; 0x00ab2024; 0x00ab27a2; 0x00ab2824; 0x00ab2fa2; 0x00ab3045; 0x00ab5ba1;
   0x00ab5c45; 0x00ab652b; 0x00ab6645; 0x00ab6aa1; 0x00ab6ca2; 0x00ab7016; 0x00abc05a; 0x00abeea2; 0x00abf05a;
   0x00abfaa2; 0x00ac002e; 0x00d7a4a2; 0x00d7b02e; 0x00d7c7a2; 0x00d7cb2e; 0x00d7fca2; 0x00f9002f; 0x00fa6ea2;
   0x00fa702f; 0x00fadaa2; 0x00fb0045; 0x00fb07a2; 0x00fb1305; 0x00fb18a2; 0x00fb1d32; 0x00fb37a2; 0x00fb3832;
   0x00fb3da2; 0x00fb3e32; 0x00fb3fa2; 0x00fb4032; 0x00fb42a2; 0x00fb4332; 0x00fb45a2; 0x00fb4632; 0x00fb5003;
   0x00fbc3a2; 0x00fbd303; 0x00fd3ea1; 0x00fd4003; 0x00fd90a2; 0x00fd9203; 0x00fdc8a2; 0x00fdcf03; 0x00fdd0a2;
   0x00fdf003; 0x00fe00a0; 0x00fe10a1; 0x00fe1aa2; 0x00fe20a0; 0x00fe2e1b; 0x00fe30a1; 0x00fe53a2; 0x00fe54a1;
   0x00fe67a2; 0x00fe68a1; 0x00fe6ca2; 0x00fe7003; 0x00fe75a2; 0x00fe7603; 0x00fefda2; 0x00feffa1; 0x00ff00a2;
   0x00ff01a1; 0x00ff2145; 0x00ff3ba1; 0x00ff4145; 0x00ff5ba1; 0x00ff663c; 0x00ff70a1; 0x00ff713c; 0x00ff9ea1;
   0x00ffa02e; 0x00ffbfa2; 0x00ffc22e; 0x00ffc8a2; 0x00ffca2e; 0x00ffd0a2; 0x00ffd22e; 0x00ffd8a2; 0x00ffda2e;
   0x00ffdda2; 0x00ffe0a1; 0x00ffe7a2; 0x00ffe8a1; 0x00ffefa2; 0x00fff9a1; 0x00fffea2; 0x01000049; 0x01000ca2;
   0x01000d49; 0x010027a2; 0x01002849; 0x01003ba2; 0x01003c49; 0x01003ea2; 0x01003f49; 0x01004ea2; 0x01005049;
   0x01005ea2; 0x01008049; 0x0100fba2; 0x010100a1; 0x010103a2; 0x010107a1; 0x010134a2; 0x010137a1; 0x0101402b;
   0x01018fa2; 0x010190a1; 0x01019da2; 0x0101a02b; 0x0101a1a2; 0x0101d0a1; 0x0101fda0; 0x0101fea2; 0x0102804b;
   0x01029da2; 0x0102a014; 0x0102d1a2; 0x0102e0a0; 0x0102e1a1; 0x0102fca2; 0x01030039; 0x010324a2; 0x01032d39;
   0x01033029; 0x01034ba2; 0x0103506c; 0x01037ba2; 0x01038096; 0x01039ea2; 0x01039f96; 0x0103a09b; 0x0103c4a2;
   0x0103c89b; 0x0103d6a2; 0x0104001f; 0x0104507a; 0x01048068; 0x01049ea2; 0x0104a068; 0x0104aaa2; 0x0104b067;
   0x0104d4a2; 0x0104d867; 0x0104fca2; 0x01050022; 0x010528a2; 0x01053001; 0x010564a2; 0x01056f01; 0x01057098;
   0x01057ba2; 0x01057c98; 0x01058ba2; 0x01058c98; 0x010593a2; 0x01059498; 0x010596a2; 0x01059798; 0x0105a2a2;
   0x0105a398; 0x0105b2a2; 0x0105b398; 0x0105baa2; 0x0105bb98; 0x0105bda2; 0x01060048; 0x010737a2; 0x01074048;
   0x010756a2; 0x01076048; 0x010768a2; 0x01078045; 0x010786a2; 0x01078745; 0x0107b1a2; 0x0107b245; 0x0107bba2;
   0x0108001a; 0x010806a2; 0x0108081a; 0x010809a2; 0x01080a1a; 0x010836a2; 0x0108371a; 0x010839a2; 0x01083c1a;
   0x01083da2; 0x01083f1a; 0x01084004; 0x010856a2; 0x01085704; 0x0108606a; 0x0108805f; 0x01089fa2; 0x0108a75f;
   0x0108b0a2; 0x0108e031; 0x0108f3a2; 0x0108f431; 0x0108f6a2; 0x0108fb31; 0x01090070; 0x01091ca2; 0x01091f70;
   0x0109204c; 0x01093aa2; 0x01093f4c; 0x010940a2; 0x01098055; 0x0109a054; 0x0109b8a2; 0x0109bc54; 0x0109d0a2;
   0x0109d254; 0x010a003d; 0x010a04a2; 0x010a053d; 0x010a07a2; 0x010a0c3d; 0x010a14a2; 0x010a153d; 0x010a18a2;
   0x010a193d; 0x010a36a2; 0x010a383d; 0x010a3ba2; 0x010a3f3d; 0x010a49a2; 0x010a503d; 0x010a59a2; 0x010a6077;
   0x010a805e; 0x010aa0a2; 0x010ac050; 0x010ae7a2; 0x010aeb50; 0x010af7a2; 0x010b0006; 0x010b36a2; 0x010b3906;
   0x010b4072; 0x010b56a2; 0x010b5872; 0x010b606e; 0x010b73a2; 0x010b786e; 0x010b806f; 0x010b92a2; 0x010b996f;
   0x010b9da2; 0x010ba96f; 0x010bb0a2; 0x010c0065; 0x010c49a2; 0x010c8038; 0x010cb3a2; 0x010cc038; 0x010cf3a2;
   0x010cfa38; 0x010d0074; 0x010d28a2; 0x010d3074; 0x010d3aa2; 0x010e6003; 0x010e7fa2; 0x010e809d; 0x010eaaa2;
   0x010eab9d; 0x010eaea2; 0x010eb09d; 0x010eb2a2; 0x010f0080; 0x010f28a2; 0x010f307f; 0x010f5aa2; 0x010f7069;
   0x010f8aa2; 0x010fb017; 0x010fcca2; 0x010fe023; 0x010ff7a2; 0x0110000e; 0x01104ea2; 0x0110520e; 0x011076a2;
   0x01107f0e; 0x01108042; 0x0110c3a2; 0x0110cd42; 0x0110cea2; 0x0110d081; 0x0110e9a2; 0x0110f081; 0x0110faa2;
   0x01110012; 0x011135a2; 0x01113612; 0x011148a2; 0x0111504d; 0x011177a2; 0x0111807b; 0x0111e0a2; 0x0111e17e;
   0x0111f5a2; 0x0112003f; 0x011212a2; 0x0112133f; 0x01123fa2; 0x0112805b; 0x011287a2; 0x0112885b; 0x011289a2;
   0x01128a5b; 0x01128ea2; 0x01128f5b; 0x01129ea2; 0x01129f5b; 0x0112aaa2; 0x0112b07d; 0x0112eba2; 0x0112f07d;
   0x0112faa2; 0x0113002a; 0x011304a2; 0x0113052a; 0x01130da2; 0x01130f2a; 0x011311a2; 0x0113132a; 0x011329a2;
   0x01132a2a; 0x011331a2; 0x0113322a; 0x011334a2; 0x0113352a; 0x01133aa2; 0x01133ba0; 0x01133c2a; 0x011345a2;
   0x0113472a; 0x011349a2; 0x01134b2a; 0x01134ea2; 0x0113502a; 0x011351a2; 0x0113572a; 0x011358a2; 0x01135d2a;
   0x011364a2; 0x0113662a; 0x01136da2; 0x0113702a; 0x011375a2; 0x01140060; 0x01145ca2; 0x01145d60; 0x011462a2;
   0x01148093; 0x0114c8a2; 0x0114d093; 0x0114daa2; 0x0115807c; 0x0115b6a2; 0x0115b87c; 0x0115dea2; 0x01160057;
   0x011645a2; 0x01165057; 0x01165aa2; 0x01166058; 0x01166da2; 0x01168087; 0x0116baa2; 0x0116c087; 0x0116caa2;
   0x01170002; 0x01171ba2; 0x01171d02; 0x01172ca2; 0x01173002; 0x011747a2; 0x0118001e; 0x01183ca2; 0x0118a099;
   0x0118f3a2; 0x0118ff99; 0x0119001d; 0x011907a2; 0x0119091d; 0x01190aa2; 0x01190c1d; 0x011914a2; 0x0119151d;
   0x011917a2; 0x0119181d; 0x011936a2; 0x0119371d; 0x011939a2; 0x01193b1d; 0x011947a2; 0x0119501d; 0x01195aa2;
   0x0119a05d; 0x0119a8a2; 0x0119aa5d; 0x0119d8a2; 0x0119da5d; 0x0119e5a2; 0x011a009f; 0x011a48a2; 0x011a5082;
   0x011aa3a2; 0x011ab013; 0x011ac06b; 0x011af9a2; 0x011c000c; 0x011c09a2; 0x011c0a0c; 0x011c37a2; 0x011c380c;
   0x011c46a2; 0x011c500c; 0x011c6da2; 0x011c7051; 0x011c90a2; 0x011c9251; 0x011ca8a2; 0x011ca951; 0x011cb7a2;
   0x011d0028; 0x011d07a2; 0x011d0828; 0x011d0aa2; 0x011d0b28; 0x011d37a2; 0x011d3a28; 0x011d3ba2; 0x011d3c28;
   0x011d3ea2; 0x011d3f28; 0x011d48a2; 0x011d5028; 0x011d5aa2; 0x011d6027; 0x011d66a2; 0x011d6727; 0x011d69a2;
   0x011d6a27; 0x011d8fa2; 0x011d9027; 0x011d92a2; 0x011d9327; 0x011d99a2; 0x011da027; 0x011daaa2; 0x011ee04e;
   0x011ef9a2; 0x011fb04a; 0x011fb1a2; 0x011fc08a; 0x011ff2a2; 0x011fff8a; 0x0120009c; 0x01239aa2; 0x0124009c;
   0x01246fa2; 0x0124709c; 0x012475a2; 0x0124809c; 0x012544a2; 0x012f9019; 0x012ff3a2; 0x01300021; 0x01342fa2;
   0x01343021; 0x013439a2; 0x01440034; 0x014647a2; 0x01680008; 0x016a39a2; 0x016a4059; 0x016a5fa2; 0x016a6059;
   0x016a6aa2; 0x016a6e59; 0x016a7094; 0x016abfa2; 0x016ac094; 0x016acaa2; 0x016ad009; 0x016aeea2; 0x016af009;
   0x016af6a2; 0x016b0035; 0x016b46a2; 0x016b5035; 0x016b5aa2; 0x016b5b35; 0x016b62a2; 0x016b6335; 0x016b78a2;
   0x016b7d35; 0x016b90a2; 0x016e4052; 0x016e9ba2; 0x016f0071; 0x016f4ba2; 0x016f4f71; 0x016f88a2; 0x016f8f71;
   0x016fa0a2; 0x016fe08b; 0x016fe162; 0x016fe22f; 0x016fe440; 0x016fe5a2; 0x016ff02f; 0x016ff2a2; 0x0170008b;
   0x0187f8a2; 0x0188008b; 0x018b0040; 0x018cd6a2; 0x018d008b; 0x018d09a2; 0x01aff03c; 0x01aff4a2; 0x01aff53c;
   0x01affca2; 0x01affd3c; 0x01afffa2; 0x01b0003c; 0x01b00133; 0x01b1203c; 0x01b123a2; 0x01b15033; 0x01b153a2;
   0x01b1643c; 0x01b168a2; 0x01b17062; 0x01b2fca2; 0x01bc0020; 0x01bc6ba2; 0x01bc7020; 0x01bc7da2; 0x01bc8020;
   0x01bc89a2; 0x01bc9020; 0x01bc9aa2; 0x01bc9c20; 0x01bca0a1; 0x01bca4a2; 0x01cf00a0; 0x01cf2ea2; 0x01cf30a0;
   0x01cf47a2; 0x01cf50a1; 0x01cfc4a2; 0x01d000a1; 0x01d0f6a2; 0x01d100a1; 0x01d127a2; 0x01d129a1; 0x01d167a0;
   0x01d16aa1; 0x01d17ba0; 0x01d183a1; 0x01d185a0; 0x01d18ca1; 0x01d1aaa0; 0x01d1aea1; 0x01d1eba2; 0x01d2002b;
   0x01d246a2; 0x01d2e0a1; 0x01d2f4a2; 0x01d300a1; 0x01d357a2; 0x01d360a1; 0x01d379a2; 0x01d400a1; 0x01d455a2;
   0x01d456a1; 0x01d49da2; 0x01d49ea1; 0x01d4a0a2; 0x01d4a2a1; 0x01d4a3a2; 0x01d4a5a1; 0x01d4a7a2; 0x01d4a9a1;
   0x01d4ada2; 0x01d4aea1; 0x01d4baa2; 0x01d4bba1; 0x01d4bca2; 0x01d4bda1; 0x01d4c4a2; 0x01d4c5a1; 0x01d506a2;
   0x01d507a1; 0x01d50ba2; 0x01d50da1; 0x01d515a2; 0x01d516a1; 0x01d51da2; 0x01d51ea1; 0x01d53aa2; 0x01d53ba1;
   0x01d53fa2; 0x01d540a1; 0x01d545a2; 0x01d546a1; 0x01d547a2; 0x01d54aa1; 0x01d551a2; 0x01d552a1; 0x01d6a6a2;
   0x01d6a8a1; 0x01d7cca2; 0x01d7cea1; 0x01d80079; 0x01da8ca2; 0x01da9b79; 0x01daa0a2; 0x01daa179; 0x01dab0a2;
   0x01df0045; 0x01df1fa2; 0x01e00026; 0x01e007a2; 0x01e00826; 0x01e019a2; 0x01e01b26; 0x01e022a2; 0x01e02326;
   0x01e025a2; 0x01e02626; 0x01e02ba2; 0x01e10036; 0x01e12da2; 0x01e13036; 0x01e13ea2; 0x01e14036; 0x01e14aa2;
   0x01e14e36; 0x01e150a2; 0x01e29095; 0x01e2afa2; 0x01e2c09a; 0x01e2faa2; 0x01e2ff9a; 0x01e300a2; 0x01e7e024;
   0x01e7e7a2; 0x01e7e824; 0x01e7eca2; 0x01e7ed24; 0x01e7efa2; 0x01e7f024; 0x01e7ffa2; 0x01e80053; 0x01e8c5a2;
   0x01e8c753; 0x01e8d7a2; 0x01e90000; 0x01e94ca2; 0x01e95000; 0x01e95aa2; 0x01e95e00; 0x01e960a2; 0x01ec71a1;
   0x01ecb5a2; 0x01ed01a1; 0x01ed3ea2; 0x01ee0003; 0x01ee04a2; 0x01ee0503; 0x01ee20a2; 0x01ee2103; 0x01ee23a2;
   0x01ee2403; 0x01ee25a2; 0x01ee2703; 0x01ee28a2; 0x01ee2903; 0x01ee33a2; 0x01ee3403; 0x01ee38a2; 0x01ee3903;
   0x01ee3aa2; 0x01ee3b03; 0x01ee3ca2; 0x01ee4203; 0x01ee43a2; 0x01ee4703; 0x01ee48a2; 0x01ee4903; 0x01ee4aa2;
   0x01ee4b03; 0x01ee4ca2; 0x01ee4d03; 0x01ee50a2; 0x01ee5103; 0x01ee53a2; 0x01ee5403; 0x01ee55a2; 0x01ee5703;
   0x01ee58a2; 0x01ee5903; 0x01ee5aa2; 0x01ee5b03; 0x01ee5ca2; 0x01ee5d03; 0x01ee5ea2; 0x01ee5f03; 0x01ee60a2;
   0x01ee6103; 0x01ee63a2; 0x01ee6403; 0x01ee65a2; 0x01ee6703; 0x01ee6ba2; 0x01ee6c03; 0x01ee73a2; 0x01ee7403;
   0x01ee78a2; 0x01ee7903; 0x01ee7da2; 0x01ee7e03; 0x01ee7fa2; 0x01ee8003; 0x01ee8aa2; 0x01ee8b03; 0x01ee9ca2;
   0x01eea103; 0x01eea4a2; 0x01eea503; 0x01eeaaa2; 0x01eeab03; 0x01eebca2; 0x01eef003; 0x01eef2a2; 0x01f000a1;
   0x01f02ca2; 0x01f030a1; 0x01f094a2; 0x01f0a0a1; 0x01f0afa2; 0x01f0b1a1; 0x01f0c0a2; 0x01f0c1a1; 0x01f0d0a2;
   0x01f0d1a1; 0x01f0f6a2; 0x01f100a1; 0x01f1aea2; 0x01f1e6a1; 0x01f20033; 0x01f201a1; 0x01f203a2; 0x01f210a1;
   0x01f23ca2; 0x01f240a1; 0x01f249a2; 0x01f250a1; 0x01f252a2; 0x01f260a1; 0x01f266a2; 0x01f300a1; 0x01f6d8a2;
   0x01f6dda1; 0x01f6eda2; 0x01f6f0a1; 0x01f6fda2; 0x01f700a1; 0x01f774a2; 0x01f780a1; 0x01f7d9a2; 0x01f7e0a1;
   0x01f7eca2; 0x01f7f0a1; 0x01f7f1a2; 0x01f800a1; 0x01f80ca2; 0x01f810a1; 0x01f848a2; 0x01f850a1; 0x01f85aa2;
   0x01f860a1; 0x01f888a2; 0x01f890a1; 0x01f8aea2; 0x01f8b0a1; 0x01f8b2a2; 0x01f900a1; 0x01fa54a2; 0x01fa60a1;
   0x01fa6ea2; 0x01fa70a1; 0x01fa75a2; 0x01fa78a1; 0x01fa7da2; 0x01fa80a1; 0x01fa87a2; 0x01fa90a1; 0x01faada2;
   0x01fab0a1; 0x01fabba2; 0x01fac0a1; 0x01fac6a2; 0x01fad0a1; 0x01fadaa2; 0x01fae0a1; 0x01fae8a2; 0x01faf0a1;
   0x01faf7a2; 0x01fb00a1; 0x01fb93a2; 0x01fb94a1; 0x01fbcba2; 0x01fbf0a1; 0x01fbfaa2; 0x0200002f; 0x02a6e0a2;
   0x02a7002f; 0x02b739a2; 0x02b7402f; 0x02b81ea2; 0x02b8202f; 0x02cea2a2; 0x02ceb02f; 0x02ebe1a2; 0x02f8002f;
   0x02fa1ea2; 0x0300002f; 0x03134ba2; 0x0e0001a1; 0x0e0002a2; 0x0e0020a1; 0x0e0080a2; 0x0e0100a0; 0x0e01f0a2;
   0xffffffff].
(** unicode-db.hpp lines 4276-4302. *)
Definition scripts_data_1 : list Z :=
  [0x000000a2; 0x0003422b; 0x000343a2; 0x0003452b; 0x000346a2; 0x00036345; 0x000370a2; 0x0004831b; 0x000488a2;
   0x00060c03; 0x00060da2; 0x00061b03; 0x00061da2; 0x00061f00; 0x000620a2; 0x00064000; 0x000641a2; 0x00064b03;
   0x000656a2; 0x00066003; 0x00066aa2; 0x00067003; 0x000671a2; 0x0006d403; 0x0006d5a2; 0x0009510b; 0x000953a2;
   0x0009640b; 0x0009661c; 0x000970a2; 0x0009e60b; 0x0009f0a2; 0x000a662d; 0x000a70a2; 0x000ae62c; 0x000af0a2;
   0x000be62a; 0x000bf4a2; 0x000ce641; 0x000cf0a2; 0x00104012; 0x00104aa2; 0x0010fb25; 0x0010fca2; 0x00173511;
   0x001737a2; 0x00180258; 0x001804a2; 0x00180558; 0x001806a2; 0x001cd00b; 0x001cd11c; 0x001cd20b; 0x001cd31c;
   0x001cd50b; 0x001cd71c; 0x001cd80b; 0x001cd91c; 0x001ce10b; 0x001ce21c; 0x001cea0b; 0x001ceb1c; 0x001ced0b;
   0x001cee1c; 0x001cf20b; 0x001cf31c; 0x001cf50b; 0x001cf81c; 0x001cfa5d; 0x001cfba2; 0x001dc02b; 0x001dc2a2;
   0x001df81b; 0x001df9a2; 0x001dfa85; 0x001dfba2; 0x00202f45; 0x002030a2; 0x0020f01c; 0x0020f1a2; 0x002e431b;
   0x002e44a2; 0x0030010d; 0x003004a2; 0x0030062f; 0x003007a2; 0x0030080d; 0x003012a2; 0x0030130d; 0x003020a2;
   0x00302a0d; 0x00302ea2; 0x0030300d; 0x00303133; 0x003036a2; 0x0030370d; 0x003038a2; 0x00303c2f; 0x003040a2;
   0x00309933; 0x00309da2; 0x0030a033; 0x0030a1a2; 0x0030fb0d; 0x0030fc33; 0x0030fda2; 0x0031902f; 0x0031a0a2;
   0x0031c02f; 0x0031e4a2; 0x0032202f; 0x003248a2; 0x0032802f; 0x0032b1a2; 0x0032c02f; 0x0032cca2; 0x0032ff2f;
   0x003300a2; 0x0033582f; 0x003371a2; 0x00337b2f; 0x003380a2; 0x0033e02f; 0x0033ffa2; 0x00a66f1b; 0x00a670a2;
   0x00a7002f; 0x00a708a2; 0x00a8301c; 0x00a83aa2; 0x00a8f10b; 0x00a8f2a2; 0x00a8f31c; 0x00a8f4a2; 0x00a92e3b;
   0x00a92fa2; 0x00a9cf10; 0x00a9d0a2; 0x00fd3e03; 0x00fd40a2; 0x00fdf203; 0x00fdf3a2; 0x00fdfd03; 0x00fdfea2;
   0x00fe450d; 0x00fe47a2; 0x00ff610d; 0x00ff66a2; 0x00ff7033; 0x00ff71a2; 0x00ff9e33; 0x00ffa0a2; 0x01010019;
   0x0101021a; 0x010103a2; 0x0101071a; 0x010134a2; 0x0101371a; 0x010140a2; 0x0102e003; 0x0102fca2; 0x010af250;
   0x010af3a2; 0x0113012a; 0x011302a2; 0x0113032a; 0x011304a2; 0x01133b2a; 0x01133da2; 0x011fd02a; 0x011fd2a2;
   0x011fd32a; 0x011fd4a2; 0x01bca020; 0x01bca4a2; 0x01d3602f; 0x01d372a2; 0x01f2502f; 0x01f252a2; 0xffffffff].
(** unicode-db.hpp lines 4306-4329. *)
Definition scripts_data_2 : list Z :=
  [0x000000a2; 0x0004836c; 0x00048426; 0x00048545; 0x00048726; 0x000488a2; 0x00060c61; 0x00060da2; 0x00061b61;
   0x00061c85; 0x00061da2; 0x00061f03; 0x000620a2; 0x00064003; 0x000641a2; 0x00064b85; 0x000656a2; 0x00066090;
   0x00066aa2; 0x00067085; 0x000671a2; 0x0006d474; 0x0006d5a2; 0x0009511c; 0x000953a2; 0x0009641c; 0x0009661e;
   0x000970a2; 0x0009e612; 0x0009f0a2; 0x000a665b; 0x000a70a2; 0x000ae63f; 0x000af0a2; 0x000be68a; 0x000bf4a2;
   0x000ce65d; 0x000cf0a2; 0x0010405c; 0x00104aa2; 0x0010fb45; 0x0010fca2; 0x00173530; 0x001737a2; 0x0018026d;
   0x001804a2; 0x0018056d; 0x001806a2; 0x001cd01c; 0x001cd1a2; 0x001cd21c; 0x001cd32a; 0x001cd4a2; 0x001cd51c;
   0x001cd77b; 0x001cd81c; 0x001cd97b; 0x001cda41; 0x001cdba2; 0x001cdc7b; 0x001cdea2; 0x001ce07b; 0x001ce11c;
   0x001ce2a2; 0x001ce95d; 0x001cea1c; 0x001ceba2; 0x001ced1c; 0x001ceea2; 0x001cf21c; 0x001cf32a; 0x001cf51c;
   0x001cf7a2; 0x001cf82a; 0x001cfaa2; 0x001df885; 0x001df9a2; 0x00202f58; 0x002030a2; 0x0020f02a; 0x0020f1a2;
   0x002e4326; 0x002e44a2; 0x0030012e; 0x003004a2; 0x0030082e; 0x003012a2; 0x0030132e; 0x003020a2; 0x00302a2f;
   0x00302ea2; 0x0030302e; 0x0030313c; 0x003036a2; 0x0030372e; 0x003038a2; 0x00303c33; 0x00303ea2; 0x0030993c;
   0x00309da2; 0x0030a03c; 0x0030a1a2; 0x0030fb2e; 0x0030fc3c; 0x0030fda2; 0x00a66f26; 0x00a670a2; 0x00a70045;
   0x00a708a2; 0x00a8301e; 0x00a83aa2; 0x00a8f11c; 0x00a8f2a2; 0x00a8f38a; 0x00a8f4a2; 0x00a92e45; 0x00a92fa2;
   0x00a9cf3a; 0x00a9d0a2; 0x00fd3e61; 0x00fd40a2; 0x00fdf290; 0x00fdf3a2; 0x00fdfd90; 0x00fdfea2; 0x00fe452e;
   0x00fe47a2; 0x00ff612e; 0x00ff66a2; 0x00ff703c; 0x00ff71a2; 0x00ff9e3c; 0x00ffa0a2; 0x0101001a; 0x01010249;
   0x010103a2; 0x01010748; 0x010134a2; 0x01013749; 0x010140a2; 0x0102e018; 0x0102fca2; 0x010af269; 0x010af3a2;
   0x0113018a; 0x011302a2; 0x0113038a; 0x011304a2; 0x01133b8a; 0x01133da2; 0x011fd08a; 0x011fd2a2; 0x011fd38a;
   0x011fd4a2; 0xffffffff].
(** unicode-db.hpp lines 4333-4342. *)
Definition scripts_data_3 : list Z :=
  [0x000000a2; 0x00060c74; 0x00060da2; 0x00061b74; 0x00061c90; 0x00061da2; 0x00061f61; 0x000620a2; 0x0006404f;
   0x000641a2; 0x0006609d; 0x00066aa2; 0x0009512a; 0x000953a2; 0x0009641e; 0x00096642; 0x000970a2; 0x0009e684;
   0x0009f0a2; 0x00104088; 0x00104aa2; 0x00173586; 0x001737a2; 0x001cd02a; 0x001cd1a2; 0x001cd22a; 0x001cd3a2;
   0x001cda56; 0x001cdba2; 0x001cf22a; 0x001cf3a2; 0x001cf441; 0x001cf5a2; 0x0020f045; 0x0020f1a2; 0x0030012f;
   0x003004a2; 0x0030082f; 0x003012a2; 0x0030132f; 0x003020a2; 0x0030302f; 0x003031a2; 0x0030372f; 0x003038a2;
   0x00303c3c; 0x00303ea2; 0x0030fb2f; 0x0030fca2; 0x00a8302c; 0x00a83aa2; 0x00a92e5c; 0x00a92fa2; 0x00fe452f;
   0x00fe47a2; 0x00ff612f; 0x00ff66a2; 0x01010049; 0x010102a2; 0x01010749; 0x010134a2; 0xffffffff].
(** unicode-db.hpp lines 4346-4353. *)
Definition scripts_data_4 : list Z :=
  [0x000000a2; 0x00060c85; 0x00060da2; 0x00061b85; 0x00061ca2; 0x00061f74; 0x000620a2; 0x00064050; 0x000641a2;
   0x0009512c; 0x000953a2; 0x00096427; 0x0009664d; 0x000970a2; 0x0017358f; 0x001737a2; 0x001cd041; 0x001cd1a2;
   0x001cd241; 0x001cd3a2; 0x001cda66; 0x001cdba2; 0x001cf241; 0x001cf3a2; 0x00300133; 0x003004a2; 0x00300833;
   0x003012a2; 0x00301333; 0x003020a2; 0x00303033; 0x003031a2; 0x00303733; 0x003038a2; 0x0030fb33; 0x0030fca2;
   0x00a8302d; 0x00a83aa2; 0x00fe4533; 0x00fe47a2; 0x00ff6133; 0x00ff66a2; 0xffffffff].
(** unicode-db.hpp lines 4357-4363. *)
Definition scripts_data_5 : list Z :=
  [0x000000a2; 0x00060c90; 0x00060da2; 0x00061b90; 0x00061ca2; 0x00061f85; 0x000620a2; 0x00064069; 0x000641a2;
   0x0009512d; 0x000953a2; 0x00096428; 0x000966a2; 0x001cda8a; 0x001cdba2; 0x001cf25d; 0x001cf3a2; 0x0030013c;
   0x003004a2; 0x0030083c; 0x003012a2; 0x0030133c; 0x003020a2; 0x0030303c; 0x003031a2; 0x0030373c; 0x003038a2;
   0x0030fb3c; 0x0030fca2; 0x00a8303f; 0x00a83aa2; 0x00fe453c; 0x00fe47a2; 0x00ff613c; 0x00ff66a2; 0xffffffff].
(** unicode-db.hpp lines 4367-4372. *)
Definition scripts_data_6 : list Z :=
  [0x000000a2; 0x00060c9d; 0x00060da2; 0x00061b9d; 0x00061ca2; 0x00061f90; 0x000620a2; 0x0006406f; 0x000641a2;
   0x00095141; 0x000953a2; 0x0009642a; 0x000966a2; 0x001cda8d; 0x001cdba2; 0x001cf266; 0x001cf3a2; 0x0030019e;
   0x003003a2; 0x0030089e; 0x003012a2; 0x0030149e; 0x00301ca2; 0x0030fb9e; 0x0030fca2; 0x00a83041; 0x00a83642;
   0x00a83aa2; 0x00ff619e; 0x00ff66a2; 0xffffffff].
(** unicode-db.hpp lines 4376-4379. *)
Definition scripts_data_7 : list Z :=
  [0x000000a2; 0x00061f9d; 0x000620a2; 0x00064074; 0x000641a2; 0x00095145; 0x000953a2; 0x0009642c; 0x000966a2;
   0x001cf28d; 0x001cf3a2; 0x00a83042; 0x00a8364d; 0x00a83aa2; 0xffffffff].
(** unicode-db.hpp lines 4383-4385. *)
Definition scripts_data_8 : list Z :=
  [0x000000a2; 0x0006407f; 0x000641a2; 0x00095156; 0x000953a2; 0x0009642d; 0x000966a2; 0x001cf293; 0x001cf3a2;
   0x00a8304d; 0x00a83657; 0x00a83aa2; 0xffffffff].
(** unicode-db.hpp lines 4389-4391. *)
Definition scripts_data_9 : list Z :=
  [0x000000a2; 0x00064085; 0x000641a2; 0x00095166; 0x000953a2; 0x00096441; 0x000966a2; 0x00a83056; 0x00a83357;
   0x00a8367d; 0x00a83aa2; 0xffffffff].
(** unicode-db.hpp lines 4395-4397. *)
Definition scripts_data_10 : list Z :=
  [0x000000a2; 0x0009517b; 0x0009528a; 0x000953a2; 0x0009644d; 0x00096547; 0x000966a2; 0x00a83057; 0x00a8335d;
   0x00a83687; 0x00a83aa2; 0xffffffff].
(** unicode-db.hpp lines 4401-4403. *)
Definition scripts_data_11 : list Z :=
  [0x000000a2; 0x0009518a; 0x0009528d; 0x000953a2; 0x00096456; 0x0009654d; 0x000966a2; 0x00a8305d; 0x00a8337d;
   0x00a83693; 0x00a83aa2; 0xffffffff].
(** unicode-db.hpp lines 4407-4409. *)
Definition scripts_data_12 : list Z :=
  [0x000000a2; 0x0009518d; 0x00095293; 0x000953a2; 0x0009645d; 0x00096556; 0x000966a2; 0x00a8307d; 0x00a83387;
   0x00a836a2; 0xffffffff].
(** unicode-db.hpp lines 4413-4415. *)
Definition scripts_data_13 : list Z :=
  [0x000000a2; 0x00095193; 0x000952a2; 0x00096466; 0x0009655d; 0x000966a2; 0x00a83087; 0x00a83393; 0x00a836a2;
   0xffffffff].
(** unicode-db.hpp lines 4419-4420. *)
Definition scripts_data_14 : list Z :=
  [0x000000a2; 0x0009647d; 0x00096566; 0x000966a2; 0x00a83093; 0x00a833a2; 0xffffffff].
(** unicode-db.hpp lines 4424-4425. *)
Definition scripts_data_15 : list Z :=
  [0x000000a2; 0x0009647e; 0x0009657d; 0x000966a2; 0xffffffff].
(** unicode-db.hpp lines 4429-4430. *)
Definition scripts_data_16 : list Z :=
  [0x000000a2; 0x00096484; 0x0009657e; 0x000966a2; 0xffffffff].
(** unicode-db.hpp lines 4434-4435. *)
Definition scripts_data_17 : list Z :=
  [0x000000a2; 0x00096487; 0x00096584; 0x000966a2; 0xffffffff].
(** unicode-db.hpp lines 4439-4440. *)
Definition scripts_data_18 : list Z :=
  [0x000000a2; 0x0009648a; 0x00096587; 0x000966a2; 0xffffffff].
(** unicode-db.hpp lines 4444-4445. *)
Definition scripts_data_19 : list Z :=
  [0x000000a2; 0x0009648d; 0x0009658a; 0x000966a2; 0xffffffff].
(** unicode-db.hpp lines 4449-4450. *)
Definition scripts_data_20 : list Z :=
  [0x000000a2; 0x00096493; 0x0009658d; 0x000966a2; 0xffffffff].
(** unicode-db.hpp lines 4454-4455. *)
Definition scripts_data_21 : list Z :=
  [0x000000a2; 0x00096593; 0x000966a2; 0xffffffff].
(** unicode-db.hpp lines 4493-4733. *)
Definition numeric_data8 : list Z :=
  [0x00003000; 0x00003101; 0x00003202; 0x00003303; 0x00003404; 0x00003505; 0x00003606; 0x00003707; 0x00003808;
   0x00003909; 0x0000b202; 0x0000b303; 0x0000b901; 0x0000bc01; 0x0000bd01; 0x0000be03; 0x00066000; 0x00066101;
   0x00066202; 0x00066303; 0x00066404; 0x00066505; 0x00066606; 0x00066707; 0x00066808; 0x00066909; 0x0006f000;
   0x0006f101; 0x0006f202; 0x0006f303; 0x0006f404; 0x0006f505; 0x0006f606; 0x0006f707; 0x0006f808; 0x0006f909;
   0x0007c000; 0x0007c101; 0x0007c202; 0x0007c303; 0x0007c404; 0x0007c505; 0x0007c606; 0x0007c707; 0x0007c808;
   0x0007c909; 0x00096600; 0x00096701; 0x00096802; 0x00096903; 0x00096a04; 0x00096b05; 0x00096c06; 0x00096d07;
   0x00096e08; 0x00096f09; 0x0009e600; 0x0009e701; 0x0009e802; 0x0009e903; 0x0009ea04; 0x0009eb05; 0x0009ec06;
   0x0009ed07; 0x0009ee08; 0x0009ef09; 0x0009f401; 0x0009f501; 0x0009f603; 0x0009f701; 0x0009f803; 0x0009f910;
   0x000a6600; 0x000a6701; 0x000a6802; 0x000a6903; 0x000a6a04; 0x000a6b05; 0x000a6c06; 0x000a6d07; 0x000a6e08;
   0x000a6f09; 0x000ae600; 0x000ae701; 0x000ae802; 0x000ae903; 0x000aea04; 0x000aeb05; 0x000aec06; 0x000aed07;
   0x000aee08; 0x000aef09; 0x000b6600; 0x000b6701; 0x000b6802; 0x000b6903; 0x000b6a04; 0x000b6b05; 0x000b6c06;
   0x000b6d07; 0x000b6e08; 0x000b6f09; 0x000b7201; 0x000b7301; 0x000b7403; 0x000b7501; 0x000b7601; 0x000b7703;
   0x000be600; 0x000be701; 0x000be802; 0x000be903; 0x000bea04; 0x000beb05; 0x000bec06; 0x000bed07; 0x000bee08;
   0x000bef09; 0x000bf00a; 0x000bf164; 0x000c6600; 0x000c6701; 0x000c6802; 0x000c6903; 0x000c6a04; 0x000c6b05;
   0x000c6c06; 0x000c6d07; 0x000c6e08; 0x000c6f09; 0x000c7800; 0x000c7901; 0x000c7a02; 0x000c7b03; 0x000c7c01;
   0x000c7d02; 0x000c7e03; 0x000ce600; 0x000ce701; 0x000ce802; 0x000ce903; 0x000cea04; 0x000ceb05; 0x000cec06;
   0x000ced07; 0x000cee08; 0x000cef09; 0x000d5801; 0x000d5901; 0x000d5a03; 0x000d5b01; 0x000d5c01; 0x000d5d03;
   0x000d5e01; 0x000d6600; 0x000d6701; 0x000d6802; 0x000d6903; 0x000d6a04; 0x000d6b05; 0x000d6c06; 0x000d6d07;
   0x000d6e08; 0x000d6f09; 0x000d700a; 0x000d7164; 0x000d7301; 0x000d7401; 0x000d7503; 0x000d7601; 0x000d7701;
   0x000d7803; 0x000de600; 0x000de701; 0x000de802; 0x000de903; 0x000dea04; 0x000deb05; 0x000dec06; 0x000ded07;
   0x000dee08; 0x000def09; 0x000e5000; 0x000e5101; 0x000e5202; 0x000e5303; 0x000e5404; 0x000e5505; 0x000e5606;
   0x000e5707; 0x000e5808; 0x000e5909; 0x000ed000; 0x000ed101; 0x000ed202; 0x000ed303; 0x000ed404; 0x000ed505;
   0x000ed606; 0x000ed707; 0x000ed808; 0x000ed909; 0x000f2000; 0x000f2101; 0x000f2202; 0x000f2303; 0x000f2404;
   0x000f2505; 0x000f2606; 0x000f2707; 0x000f2808; 0x000f2909; 0x000f2a01; 0x000f2b03; 0x000f2c05; 0x000f2d07;
   0x000f2e09; 0x000f2f0b; 0x000f300d; 0x000f310f; 0x000f3211; 0x00104000; 0x00104101; 0x00104202; 0x00104303;
   0x00104404; 0x00104505; 0x00104606; 0x00104707; 0x00104808; 0x00104909; 0x00109000; 0x00109101; 0x00109202;
   0x00109303; 0x00109404; 0x00109505; 0x00109606; 0x00109707; 0x00109808; 0x00109909; 0x00136901; 0x00136a02;
   0x00136b03; 0x00136c04; 0x00136d05; 0x00136e06; 0x00136f07; 0x00137008; 0x00137109; 0x0013720a; 0x00137314;
   0x0013741e; 0x00137528; 0x00137632; 0x0013773c; 0x00137846; 0x00137950; 0x00137a5a; 0x00137b64; 0x0016ee11;
   0x0016ef12; 0x0016f013; 0x0017e000; 0x0017e101; 0x0017e202; 0x0017e303; 0x0017e404; 0x0017e505; 0x0017e606;
   0x0017e707; 0x0017e808; 0x0017e909; 0x0017f000; 0x0017f101; 0x0017f202; 0x0017f303; 0x0017f404; 0x0017f505;
   0x0017f606; 0x0017f707; 0x0017f808; 0x0017f909; 0x00181000; 0x00181101; 0x00181202; 0x00181303; 0x00181404;
   0x00181505; 0x00181606; 0x00181707; 0x00181808; 0x00181909; 0x00194600; 0x00194701; 0x00194802; 0x00194903;
   0x00194a04; 0x00194b05; 0x00194c06; 0x00194d07; 0x00194e08; 0x00194f09; 0x0019d000; 0x0019d101; 0x0019d202;
   0x0019d303; 0x0019d404; 0x0019d505; 0x0019d606; 0x0019d707; 0x0019d808; 0x0019d909; 0x0019da01; 0x001a8000;
   0x001a8101; 0x001a8202; 0x001a8303; 0x001a8404; 0x001a8505; 0x001a8606; 0x001a8707; 0x001a8808; 0x001a8909;
   0x001a9000; 0x001a9101; 0x001a9202; 0x001a9303; 0x001a9404; 0x001a9505; 0x001a9606; 0x001a9707; 0x001a9808;
   0x001a9909; 0x001b5000; 0x001b5101; 0x001b5202; 0x001b5303; 0x001b5404; 0x001b5505; 0x001b5606; 0x001b5707;
   0x001b5808; 0x001b5909; 0x001bb000; 0x001bb101; 0x001bb202; 0x001bb303; 0x001bb404; 0x001bb505; 0x001bb606;
   0x001bb707; 0x001bb808; 0x001bb909; 0x001c4000; 0x001c4101; 0x001c4202; 0x001c4303; 0x001c4404; 0x001c4505;
   0x001c4606; 0x001c4707; 0x001c4808; 0x001c4909; 0x001c5000; 0x001c5101; 0x001c5202; 0x001c5303; 0x001c5404;
   0x001c5505; 0x001c5606; 0x001c5707; 0x001c5808; 0x001c5909; 0x00207000; 0x00207404; 0x00207505; 0x00207606;
   0x00207707; 0x00207808; 0x00207909; 0x00208000; 0x00208101; 0x00208202; 0x00208303; 0x00208404; 0x00208505;
   0x00208606; 0x00208707; 0x00208808; 0x00208909; 0x00215001; 0x00215101; 0x00215201; 0x00215301; 0x00215402;
   0x00215501; 0x00215602; 0x00215703; 0x00215804; 0x00215901; 0x00215a05; 0x00215b01; 0x00215c03; 0x00215d05;
   0x00215e07; 0x00215f01; 0x00216001; 0x00216102; 0x00216203; 0x00216304; 0x00216405; 0x00216506; 0x00216607;
   0x00216708; 0x00216809; 0x0021690a; 0x00216a0b; 0x00216b0c; 0x00216c32; 0x00216d64; 0x00217001; 0x00217102;
   0x00217203; 0x00217304; 0x00217405; 0x00217506; 0x00217607; 0x00217708; 0x00217809; 0x0021790a; 0x00217a0b;
   0x00217b0c; 0x00217c32; 0x00217d64; 0x00218506; 0x00218632; 0x00218900; 0x00246001; 0x00246102; 0x00246203;
   0x00246304; 0x00246405; 0x00246506; 0x00246607; 0x00246708; 0x00246809; 0x0024690a; 0x00246a0b; 0x00246b0c;
   0x00246c0d; 0x00246d0e; 0x00246e0f; 0x00246f10; 0x00247011; 0x00247112; 0x00247213; 0x00247314; 0x00247401;
   0x00247502; 0x00247603; 0x00247704; 0x00247805; 0x00247906; 0x00247a07; 0x00247b08; 0x00247c09; 0x00247d0a;
   0x00247e0b; 0x00247f0c; 0x0024800d; 0x0024810e; 0x0024820f; 0x00248310; 0x00248411; 0x00248512; 0x00248613;
   0x00248714; 0x00248801; 0x00248902; 0x00248a03; 0x00248b04; 0x00248c05; 0x00248d06; 0x00248e07; 0x00248f08;
   0x00249009; 0x0024910a; 0x0024920b; 0x0024930c; 0x0024940d; 0x0024950e; 0x0024960f; 0x00249710; 0x00249811;
   0x00249912; 0x00249a13; 0x00249b14; 0x0024ea00; 0x0024eb0b; 0x0024ec0c; 0x0024ed0d; 0x0024ee0e; 0x0024ef0f;
   0x0024f010; 0x0024f111; 0x0024f212; 0x0024f313; 0x0024f414; 0x0024f501; 0x0024f602; 0x0024f703; 0x0024f804;
   0x0024f905; 0x0024fa06; 0x0024fb07; 0x0024fc08; 0x0024fd09; 0x0024fe0a; 0x0024ff00; 0x00277601; 0x00277702;
   0x00277803; 0x00277904; 0x00277a05; 0x00277b06; 0x00277c07; 0x00277d08; 0x00277e09; 0x00277f0a; 0x00278001;
   0x00278102; 0x00278203; 0x00278304; 0x00278405; 0x00278506; 0x00278607; 0x00278708; 0x00278809; 0x0027890a;
   0x00278a01; 0x00278b02; 0x00278c03; 0x00278d04; 0x00278e05; 0x00278f06; 0x00279007; 0x00279108; 0x00279209;
   0x0027930a; 0x002cfd01; 0x00300700; 0x00302101; 0x00302202; 0x00302303; 0x00302404; 0x00302505; 0x00302606;
   0x00302707; 0x00302808; 0x00302909; 0x0030380a; 0x00303914; 0x00303a1e; 0x00319201; 0x00319302; 0x00319403;
   0x00319504; 0x00322001; 0x00322102; 0x00322203; 0x00322304; 0x00322405; 0x00322506; 0x00322607; 0x00322708;
   0x00322809; 0x0032290a; 0x0032480a; 0x00324914; 0x00324a1e; 0x00324b28; 0x00324c32; 0x00324d3c; 0x00324e46;
   0x00324f50; 0x00325115; 0x00325216; 0x00325317; 0x00325418; 0x00325519; 0x0032561a; 0x0032571b; 0x0032581c;
   0x0032591d; 0x00325a1e; 0x00325b1f; 0x00325c20; 0x00325d21; 0x00325e22; 0x00325f23; 0x00328001; 0x00328102;
   0x00328203; 0x00328304; 0x00328405; 0x00328506; 0x00328607; 0x00328708; 0x00328809; 0x0032890a; 0x0032b124;
   0x0032b225; 0x0032b326; 0x0032b427; 0x0032b528; 0x0032b629; 0x0032b72a; 0x0032b82b; 0x0032b92c; 0x0032ba2d;
   0x0032bb2e; 0x0032bc2f; 0x0032bd30; 0x0032be31; 0x0032bf32; 0x00340505; 0x00348302; 0x00382a05; 0x003b4d07;
   0x004e0001; 0x004e0307; 0x004e0903; 0x004e5d09; 0x004e8c02; 0x004e9405; 0x004e9604; 0x004ec00a; 0x004ee803;
   0x004f0d05; 0x004f7064; 0x00516902; 0x00516b08; 0x00516d06; 0x0053410a; 0x00534414; 0x0053451e; 0x00534c28;
   0x0053c103; 0x0053c203; 0x0053c303; 0x0053c403; 0x0056db04; 0x0058f101; 0x0058f901; 0x005e7a01; 0x005efe09;
   0x005eff14; 0x005f0c01; 0x005f0d02; 0x005f0e03; 0x005f1002; 0x0062fe0a; 0x00634c08; 0x0067d207; 0x006f0607;
   0x00739609; 0x00767e64; 0x00808604; 0x008cae02; 0x008cb302; 0x008d3002; 0x00964606; 0x00964c64; 0x00967806;
   0x0096f600; 0x00a62000; 0x00a62101; 0x00a62202; 0x00a62303; 0x00a62404; 0x00a62505; 0x00a62606; 0x00a62707;
   0x00a62808; 0x00a62909; 0x00a6e601; 0x00a6e702; 0x00a6e803; 0x00a6e904; 0x00a6ea05; 0x00a6eb06; 0x00a6ec07;
   0x00a6ed08; 0x00a6ee09; 0x00a6ef00; 0x00a83001; 0x00a83101; 0x00a83203; 0x00a83301; 0x00a83401; 0x00a83503;
   0x00a8d000; 0x00a8d101; 0x00a8d202; 0x00a8d303; 0x00a8d404; 0x00a8d505; 0x00a8d606; 0x00a8d707; 0x00a8d808;
   0x00a8d909; 0x00a90000; 0x00a90101; 0x00a90202; 0x00a90303; 0x00a90404; 0x00a90505; 0x00a90606; 0x00a90707;
   0x00a90808; 0x00a90909; 0x00a9d000; 0x00a9d101; 0x00a9d202; 0x00a9d303; 0x00a9d404; 0x00a9d505; 0x00a9d606;
   0x00a9d707; 0x00a9d808; 0x00a9d909; 0x00a9f000; 0x00a9f101; 0x00a9f202; 0x00a9f303; 0x00a9f404; 0x00a9f505;
   0x00a9f606; 0x00a9f707; 0x00a9f808; 0x00a9f909; 0x00aa5000; 0x00aa5101; 0x00aa5202; 0x00aa5303; 0x00aa5404;
   0x00aa5505; 0x00aa5606; 0x00aa5707; 0x00aa5808; 0x00aa5909; 0x00abf000; 0x00abf101; 0x00abf202; 0x00abf303;
   0x00abf404; 0x00abf505; 0x00abf606; 0x00abf707; 0x00abf808; 0x00abf909; 0x00f96b03; 0x00f9730a; 0x00f97802;
   0x00f9b200; 0x00f9d106; 0x00f9d306; 0x00f9fd0a; 0x00ff1000; 0x00ff1101; 0x00ff1202; 0x00ff1303; 0x00ff1404;
   0x00ff1505; 0x00ff1606; 0x00ff1707; 0x00ff1808; 0x00ff1909; 0x01010701; 0x01010802; 0x01010903; 0x01010a04;
   0x01010b05; 0x01010c06; 0x01010d07; 0x01010e08; 0x01010f09; 0x0101100a; 0x01011114; 0x0101121e; 0x01011328;
   0x01011432; 0x0101153c; 0x01011646; 0x01011750; 0x0101185a; 0x01011964; 0x01014001; 0x01014101; 0x01014201;
   0x01014305; 0x01014432; 0x01014805; 0x0101490a; 0x01014a32; 0x01014b64; 0x01014f05; 0x0101500a; 0x01015132;
   0x01015264; 0x0101570a; 0x01015801; 0x01015901; 0x01015a01; 0x01015b02; 0x01015c02; 0x01015d02; 0x01015e02;
   0x01015f05; 0x0101600a; 0x0101610a; 0x0101620a; 0x0101630a; 0x0101640a; 0x0101651e; 0x01016632; 0x01016732;
   0x01016832; 0x01016932; 0x01016a64; 0x01017305; 0x01017432; 0x01017501; 0x01017601; 0x01017702; 0x01017803;
   0x01018a00; 0x01018b01; 0x0102e101; 0x0102e202; 0x0102e303; 0x0102e404; 0x0102e505; 0x0102e606; 0x0102e707;
   0x0102e808; 0x0102e909; 0x0102ea0a; 0x0102eb14; 0x0102ec1e; 0x0102ed28; 0x0102ee32; 0x0102ef3c; 0x0102f046;
   0x0102f150; 0x0102f25a; 0x0102f364; 0x01032001; 0x01032105; 0x0103220a; 0x01032332; 0x0103415a; 0x0103d101;
   0x0103d202; 0x0103d30a; 0x0103d414; 0x0103d564; 0x0104a000; 0x0104a101; 0x0104a202; 0x0104a303; 0x0104a404;
   0x0104a505; 0x0104a606; 0x0104a707; 0x0104a808; 0x0104a909; 0x01085801; 0x01085902; 0x01085a03; 0x01085b0a;
   0x01085c14; 0x01085d64; 0x01087901; 0x01087a02; 0x01087b03; 0x01087c04; 0x01087d05; 0x01087e0a; 0x01087f14;
   0x0108a701; 0x0108a802; 0x0108a903; 0x0108aa04; 0x0108ab04; 0x0108ac05; 0x0108ad0a; 0x0108ae14; 0x0108af64;
   0x0108fb01; 0x0108fc05; 0x0108fd0a; 0x0108fe14; 0x0108ff64; 0x01091601; 0x0109170a; 0x01091814; 0x01091964;
   0x01091a02; 0x01091b03; 0x0109bc0b; 0x0109bd01; 0x0109c001; 0x0109c102; 0x0109c203; 0x0109c304; 0x0109c405;
   0x0109c506; 0x0109c607; 0x0109c708; 0x0109c809; 0x0109c90a; 0x0109ca14; 0x0109cb1e; 0x0109cc28; 0x0109cd32;
   0x0109ce3c; 0x0109cf46; 0x0109d264; 0x0109f601; 0x0109f702; 0x0109f803; 0x0109f904; 0x0109fa05; 0x0109fb06;
   0x0109fc07; 0x0109fd08; 0x0109fe09; 0x0109ff0a; 0x010a4001; 0x010a4102; 0x010a4203; 0x010a4304; 0x010a440a;
   0x010a4514; 0x010a4664; 0x010a4801; 0x010a7d01; 0x010a7e32; 0x010a9d01; 0x010a9e0a; 0x010a9f14; 0x010aeb01;
   0x010aec05; 0x010aed0a; 0x010aee14; 0x010aef64; 0x010b5801; 0x010b5902; 0x010b5a03; 0x010b5b04; 0x010b5c0a;
   0x010b5d14; 0x010b5e64; 0x010b7801; 0x010b7902; 0x010b7a03; 0x010b7b04; 0x010b7c0a; 0x010b7d14; 0x010b7e64;
   0x010ba901; 0x010baa02; 0x010bab03; 0x010bac04; 0x010bad0a; 0x010bae14; 0x010baf64; 0x010cfa01; 0x010cfb05;
   0x010cfc0a; 0x010cfd32; 0x010cfe64; 0x010d3000; 0x010d3101; 0x010d3202; 0x010d3303; 0x010d3404; 0x010d3505;
   0x010d3606; 0x010d3707; 0x010d3808; 0x010d3909; 0x010e6001; 0x010e6102; 0x010e6203; 0x010e6304; 0x010e6405;
   0x010e6506; 0x010e6607; 0x010e6708; 0x010e6809; 0x010e690a; 0x010e6a14; 0x010e6b1e; 0x010e6c28; 0x010e6d32;
   0x010e6e3c; 0x010e6f46; 0x010e7050; 0x010e715a; 0x010e7264; 0x010e7b01; 0x010e7c01; 0x010e7d01; 0x010e7e02;
   0x010f1d01; 0x010f1e02; 0x010f1f03; 0x010f2004; 0x010f2105; 0x010f220a; 0x010f2314; 0x010f241e; 0x010f2564;
   0x010f2601; 0x010f5101; 0x010f520a; 0x010f5314; 0x010f5464; 0x010fc501; 0x010fc602; 0x010fc703; 0x010fc804;
   0x010fc90a; 0x010fca14; 0x010fcb64; 0x01105201; 0x01105302; 0x01105403; 0x01105504; 0x01105605; 0x01105706;
   0x01105807; 0x01105908; 0x01105a09; 0x01105b0a; 0x01105c14; 0x01105d1e; 0x01105e28; 0x01105f32; 0x0110603c;
   0x01106146; 0x01106250; 0x0110635a; 0x01106464; 0x01106600; 0x01106701; 0x01106802; 0x01106903; 0x01106a04;
   0x01106b05; 0x01106c06; 0x01106d07; 0x01106e08; 0x01106f09; 0x0110f000; 0x0110f101; 0x0110f202; 0x0110f303;
   0x0110f404; 0x0110f505; 0x0110f606; 0x0110f707; 0x0110f808; 0x0110f909; 0x01113600; 0x01113701; 0x01113802;
   0x01113903; 0x01113a04; 0x01113b05; 0x01113c06; 0x01113d07; 0x01113e08; 0x01113f09; 0x0111d000; 0x0111d101;
   0x0111d202; 0x0111d303; 0x0111d404; 0x0111d505; 0x0111d606; 0x0111d707; 0x0111d808; 0x0111d909; 0x0111e101;
   0x0111e202; 0x0111e303; 0x0111e404; 0x0111e505; 0x0111e606; 0x0111e707; 0x0111e808; 0x0111e909; 0x0111ea0a;
   0x0111eb14; 0x0111ec1e; 0x0111ed28; 0x0111ee32; 0x0111ef3c; 0x0111f046; 0x0111f150; 0x0111f25a; 0x0111f364;
   0x0112f000; 0x0112f101; 0x0112f202; 0x0112f303; 0x0112f404; 0x0112f505; 0x0112f606; 0x0112f707; 0x0112f808;
   0x0112f909; 0x01145000; 0x01145101; 0x01145202; 0x01145303; 0x01145404; 0x01145505; 0x01145606; 0x01145707;
   0x01145808; 0x01145909; 0x0114d000; 0x0114d101; 0x0114d202; 0x0114d303; 0x0114d404; 0x0114d505; 0x0114d606;
   0x0114d707; 0x0114d808; 0x0114d909; 0x01165000; 0x01165101; 0x01165202; 0x01165303; 0x01165404; 0x01165505;
   0x01165606; 0x01165707; 0x01165808; 0x01165909; 0x0116c000; 0x0116c101; 0x0116c202; 0x0116c303; 0x0116c404;
   0x0116c505; 0x0116c606; 0x0116c707; 0x0116c808; 0x0116c909; 0x01173000; 0x01173101; 0x01173202; 0x01173303;
   0x01173404; 0x01173505; 0x01173606; 0x01173707; 0x01173808; 0x01173909; 0x01173a0a; 0x01173b14; 0x0118e000;
   0x0118e101; 0x0118e202; 0x0118e303; 0x0118e404; 0x0118e505; 0x0118e606; 0x0118e707; 0x0118e808; 0x0118e909;
   0x0118ea0a; 0x0118eb14; 0x0118ec1e; 0x0118ed28; 0x0118ee32; 0x0118ef3c; 0x0118f046; 0x0118f150; 0x0118f25a;
   0x01195000; 0x01195101; 0x01195202; 0x01195303; 0x01195404; 0x01195505; 0x01195606; 0x01195707; 0x01195808;
   0x01195909; 0x011c5000; 0x011c5101; 0x011c5202; 0x011c5303; 0x011c5404; 0x011c5505; 0x011c5606; 0x011c5707;
   0x011c5808; 0x011c5909; 0x011c5a01; 0x011c5b02; 0x011c5c03; 0x011c5d04; 0x011c5e05; 0x011c5f06; 0x011c6007;
   0x011c6108; 0x011c6209; 0x011c630a; 0x011c6414; 0x011c651e; 0x011c6628; 0x011c6732; 0x011c683c; 0x011c6946;
   0x011c6a50; 0x011c6b5a; 0x011c6c64; 0x011d5000; 0x011d5101; 0x011d5202; 0x011d5303; 0x011d5404; 0x011d5505;
   0x011d5606; 0x011d5707; 0x011d5808; 0x011d5909; 0x011da000; 0x011da101; 0x011da202; 0x011da303; 0x011da404;
   0x011da505; 0x011da606; 0x011da707; 0x011da808; 0x011da909; 0x011fc001; 0x011fc101; 0x011fc201; 0x011fc301;
   0x011fc401; 0x011fc501; 0x011fc603; 0x011fc703; 0x011fc801; 0x011fc901; 0x011fca01; 0x011fcb01; 0x011fcc01;
   0x011fcd03; 0x011fce03; 0x011fcf01; 0x011fd001; 0x011fd101; 0x011fd201; 0x011fd303; 0x011fd401; 0x01240002;
   0x01240103; 0x01240204; 0x01240305; 0x01240406; 0x01240507; 0x01240608; 0x01240709; 0x01240803; 0x01240904;
   0x01240a05; 0x01240b06; 0x01240c07; 0x01240d08; 0x01240e09; 0x01240f04; 0x01241005; 0x01241106; 0x01241207;
   0x01241308; 0x01241409; 0x01241501; 0x01241602; 0x01241703; 0x01241804; 0x01241905; 0x01241a06; 0x01241b07;
   0x01241c08; 0x01241d09; 0x01241e01; 0x01241f02; 0x01242003; 0x01242104; 0x01242205; 0x01242302; 0x01242403;
   0x01242503; 0x01242604; 0x01242705; 0x01242806; 0x01242907; 0x01242a08; 0x01242b09; 0x01242c01; 0x01242d02;
   0x01242e03; 0x01242f03; 0x01243004; 0x01243105; 0x01243401; 0x01243502; 0x01243603; 0x01243703; 0x01243804;
   0x01243905; 0x01243a03; 0x01243b03; 0x01243c04; 0x01243d04; 0x01243e04; 0x01243f04; 0x01244006; 0x01244107;
   0x01244207; 0x01244307; 0x01244408; 0x01244508; 0x01244609; 0x01244709; 0x01244809; 0x01244909; 0x01244a02;
   0x01244b03; 0x01244c04; 0x01244d05; 0x01244e06; 0x01244f01; 0x01245002; 0x01245103; 0x01245204; 0x01245304;
   0x01245405; 0x01245505; 0x01245602; 0x01245703; 0x01245801; 0x01245902; 0x01245a01; 0x01245b02; 0x01245c05;
   0x01245d01; 0x01245e02; 0x01245f01; 0x01246001; 0x01246101; 0x01246201; 0x01246301; 0x01246401; 0x01246501;
   0x01246602; 0x01246728; 0x01246832; 0x01246904; 0x01246a05; 0x01246b06; 0x01246c07; 0x01246d08; 0x01246e09;
   0x016a6000; 0x016a6101; 0x016a6202; 0x016a6303; 0x016a6404; 0x016a6505; 0x016a6606; 0x016a6707; 0x016a6808;
   0x016a6909; 0x016ac000; 0x016ac101; 0x016ac202; 0x016ac303; 0x016ac404; 0x016ac505; 0x016ac606; 0x016ac707;
   0x016ac808; 0x016ac909; 0x016b5000; 0x016b5101; 0x016b5202; 0x016b5303; 0x016b5404; 0x016b5505; 0x016b5606;
   0x016b5707; 0x016b5808; 0x016b5909; 0x016b5b0a; 0x016b5c64; 0x016e8000; 0x016e8101; 0x016e8202; 0x016e8303;
   0x016e8404; 0x016e8505; 0x016e8606; 0x016e8707; 0x016e8808; 0x016e8909; 0x016e8a0a; 0x016e8b0b; 0x016e8c0c;
   0x016e8d0d; 0x016e8e0e; 0x016e8f0f; 0x016e9010; 0x016e9111; 0x016e9212; 0x016e9313; 0x016e9401; 0x016e9502;
   0x016e9603; 0x01d2e000; 0x01d2e101; 0x01d2e202; 0x01d2e303; 0x01d2e404; 0x01d2e505; 0x01d2e606; 0x01d2e707;
   0x01d2e808; 0x01d2e909; 0x01d2ea0a; 0x01d2eb0b; 0x01d2ec0c; 0x01d2ed0d; 0x01d2ee0e; 0x01d2ef0f; 0x01d2f010;
   0x01d2f111; 0x01d2f212; 0x01d2f313; 0x01d36001; 0x01d36102; 0x01d36203; 0x01d36304; 0x01d36405; 0x01d36506;
   0x01d36607; 0x01d36708; 0x01d36809; 0x01d3690a; 0x01d36a14; 0x01d36b1e; 0x01d36c28; 0x01d36d32; 0x01d36e3c;
   0x01d36f46; 0x01d37050; 0x01d3715a; 0x01d37201; 0x01d37302; 0x01d37403; 0x01d37504; 0x01d37605; 0x01d37701;
   0x01d37805; 0x01d7ce00; 0x01d7cf01; 0x01d7d002; 0x01d7d103; 0x01d7d204; 0x01d7d305; 0x01d7d406; 0x01d7d507;
   0x01d7d608; 0x01d7d709; 0x01d7d800; 0x01d7d901; 0x01d7da02; 0x01d7db03; 0x01d7dc04; 0x01d7dd05; 0x01d7de06;
   0x01d7df07; 0x01d7e008; 0x01d7e109; 0x01d7e200; 0x01d7e301; 0x01d7e402; 0x01d7e503; 0x01d7e604; 0x01d7e705;
   0x01d7e806; 0x01d7e907; 0x01d7ea08; 0x01d7eb09; 0x01d7ec00; 0x01d7ed01; 0x01d7ee02; 0x01d7ef03; 0x01d7f004;
   0x01d7f105; 0x01d7f206; 0x01d7f307; 0x01d7f408; 0x01d7f509; 0x01d7f600; 0x01d7f701; 0x01d7f802; 0x01d7f903;
   0x01d7fa04; 0x01d7fb05; 0x01d7fc06; 0x01d7fd07; 0x01d7fe08; 0x01d7ff09; 0x01e14000; 0x01e14101; 0x01e14202;
   0x01e14303; 0x01e14404; 0x01e14505; 0x01e14606; 0x01e14707; 0x01e14808; 0x01e14909; 0x01e2f000; 0x01e2f101;
   0x01e2f202; 0x01e2f303; 0x01e2f404; 0x01e2f505; 0x01e2f606; 0x01e2f707; 0x01e2f808; 0x01e2f909; 0x01e8c701;
   0x01e8c802; 0x01e8c903; 0x01e8ca04; 0x01e8cb05; 0x01e8cc06; 0x01e8cd07; 0x01e8ce08; 0x01e8cf09; 0x01e95000;
   0x01e95101; 0x01e95202; 0x01e95303; 0x01e95404; 0x01e95505; 0x01e95606; 0x01e95707; 0x01e95808; 0x01e95909;
   0x01ec7101; 0x01ec7202; 0x01ec7303; 0x01ec7404; 0x01ec7505; 0x01ec7606; 0x01ec7707; 0x01ec7808; 0x01ec7909;
   0x01ec7a0a; 0x01ec7b14; 0x01ec7c1e; 0x01ec7d28; 0x01ec7e32; 0x01ec7f3c; 0x01ec8046; 0x01ec8150; 0x01ec825a;
   0x01ec8364; 0x01eca301; 0x01eca402; 0x01eca503; 0x01eca604; 0x01eca705; 0x01eca806; 0x01eca907; 0x01ecaa08;
   0x01ecab09; 0x01ecad01; 0x01ecae01; 0x01ecaf03; 0x01ecb101; 0x01ecb202; 0x01ed0101; 0x01ed0202; 0x01ed0303;
   0x01ed0404; 0x01ed0505; 0x01ed0606; 0x01ed0707; 0x01ed0808; 0x01ed0909; 0x01ed0a0a; 0x01ed0b14; 0x01ed0c1e;
   0x01ed0d28; 0x01ed0e32; 0x01ed0f3c; 0x01ed1046; 0x01ed1150; 0x01ed125a; 0x01ed1364; 0x01ed2f02; 0x01ed3003;
   0x01ed3104; 0x01ed3205; 0x01ed3306; 0x01ed3407; 0x01ed3508; 0x01ed3609; 0x01ed370a; 0x01ed3c01; 0x01ed3d01;
   0x01f10000; 0x01f10100; 0x01f10201; 0x01f10302; 0x01f10403; 0x01f10504; 0x01f10605; 0x01f10706; 0x01f10807;
   0x01f10908; 0x01f10a09; 0x01f10b00; 0x01f10c00; 0x01fbf000; 0x01fbf101; 0x01fbf202; 0x01fbf303; 0x01fbf404;
   0x01fbf505; 0x01fbf606; 0x01fbf707; 0x01fbf808; 0x01fbf909; 0x02000107; 0x02006404; 0x0200e204; 0x02012105;
   0x02092a01; 0x0209831e; 0x02098c28; 0x02099c28; 0x020aea06; 0x020afd03; 0x020b1903; 0x02239002; 0x02299803;
   0x023b1b03; 0x02626d04; 0x02f89009].
(** unicode-db.hpp lines 4734-4878. *)
Definition numeric_data16 : list (Z * Z) :=
  [(0xbf2, 1000); (0xd72, 1000); (0xf33, (-1)); (0x137c, 10000); (0x216e, 500); (0x216f, 1000); (0x217e, 500);
   (0x217f, 1000); (0x2180, 1000); (0x2181, 5000); (0x2182, 10000); (0x4e07, 10000); (0x4edf, 1000); (0x5343,
   1000); (0x842c, 10000); (0x9621, 1000); (0x1011a, 200); (0x1011b, 300); (0x1011c, 400); (0x1011d, 500);
   (0x1011e, 600); (0x1011f, 700); (0x10120, 800); (0x10121, 900); (0x10122, 1000); (0x10123, 2000); (0x10124,
   3000); (0x10125, 4000); (0x10126, 5000); (0x10127, 6000); (0x10128, 7000); (0x10129, 8000); (0x1012a, 9000);
   (0x1012b, 10000); (0x1012c, 20000); (0x1012d, 30000); (0x10145, 500); (0x10146, 5000); (0x1014c, 500);
   (0x1014d, 1000); (0x1014e, 5000); (0x10153, 500); (0x10154, 1000); (0x10155, 10000); (0x1016b, 300);
   (0x1016c, 500); (0x1016d, 500); (0x1016e, 500); (0x1016f, 500); (0x10170, 500); (0x10171, 1000); (0x10172,
   5000); (0x102f4, 200); (0x102f5, 300); (0x102f6, 400); (0x102f7, 500); (0x102f8, 600); (0x102f9, 700);
   (0x102fa, 800); (0x102fb, 900); (0x1034a, 900); (0x1085e, 1000); (0x1085f, 10000); (0x109d3, 200); (0x109d4,
   300); (0x109d5, 400); (0x109d6, 500); (0x109d7, 600); (0x109d8, 700); (0x109d9, 800); (0x109da, 900);
   (0x109db, 1000); (0x109dc, 2000); (0x109dd, 3000); (0x109de, 4000); (0x109df, 5000); (0x109e0, 6000);
   (0x109e1, 7000); (0x109e2, 8000); (0x109e3, 9000); (0x109e4, 10000); (0x109e5, 20000); (0x109e6, 30000);
   (0x10a47, 1000); (0x10b5f, 1000); (0x10b7f, 1000); (0x10cff, 1000); (0x10e73, 200); (0x10e74, 300);
   (0x10e75, 400); (0x10e76, 500); (0x10e77, 600); (0x10e78, 700); (0x10e79, 800); (0x10e7a, 900); (0x11065,
   1000); (0x111f4, 1000); (0x16b5d, 10000); (0x1ec84, 200); (0x1ec85, 300); (0x1ec86, 400); (0x1ec87, 500);
   (0x1ec88, 600); (0x1ec89, 700); (0x1ec8a, 800); (0x1ec8b, 900); (0x1ec8c, 1000); (0x1ec8d, 2000); (0x1ec8e,
   3000); (0x1ec8f, 4000); (0x1ec90, 5000); (0x1ec91, 6000); (0x1ec92, 7000); (0x1ec93, 8000); (0x1ec94, 9000);
   (0x1ec95, 10000); (0x1ec96, 20000); (0x1ec97, 30000); (0x1ecb3, 10000); (0x1ed14, 200); (0x1ed15, 300);
   (0x1ed16, 400); (0x1ed17, 500); (0x1ed18, 600); (0x1ed19, 700); (0x1ed1a, 800); (0x1ed1b, 900); (0x1ed1c,
   1000); (0x1ed1d, 2000); (0x1ed1e, 3000); (0x1ed1f, 4000); (0x1ed20, 5000); (0x1ed21, 6000); (0x1ed22, 7000);
   (0x1ed23, 8000); (0x1ed24, 9000); (0x1ed25, 10000); (0x1ed26, 20000); (0x1ed27, 30000); (0x1ed38, 400);
   (0x1ed39, 600); (0x1ed3a, 2000); (0x1ed3b, 10000)].
(** unicode-db.hpp lines 4879-4929. *)
Definition numeric_data32 : list (Z * Z) :=
  [(0x2187, 50000); (0x2188, 100000); (0x4ebf, 100000000); (0x5104, 100000000); (0x1012e, 40000); (0x1012f,
   50000); (0x10130, 60000); (0x10131, 70000); (0x10132, 80000); (0x10133, 90000); (0x10147, 50000); (0x10156,
   50000); (0x109e7, 40000); (0x109e8, 50000); (0x109e9, 60000); (0x109ea, 70000); (0x109eb, 80000); (0x109ec,
   90000); (0x109ed, 100000); (0x109ee, 200000); (0x109ef, 300000); (0x109f0, 400000); (0x109f1, 500000);
   (0x109f2, 600000); (0x109f3, 700000); (0x109f4, 800000); (0x109f5, 900000); (0x12432, 216000); (0x12433,
   432000); (0x16b5e, 1000000); (0x16b5f, 100000000); (0x1ec98, 40000); (0x1ec99, 50000); (0x1ec9a, 60000);
   (0x1ec9b, 70000); (0x1ec9c, 80000); (0x1ec9d, 90000); (0x1ec9e, 100000); (0x1ec9f, 200000); (0x1eca0,
   100000); (0x1eca1, 10000000); (0x1eca2, 20000000); (0x1ecb4, 100000); (0x1ed28, 40000); (0x1ed29, 50000);
   (0x1ed2a, 60000); (0x1ed2b, 70000); (0x1ed2c, 80000); (0x1ed2d, 90000)].
(** unicode-db.hpp lines 4930-4934. *)
Definition numeric_data64 : list (Z * Z) :=
  [(0x5146, 1000000000000); (0x16b60, 10000000000); (0x16b61, 1000000000000)].
(** unicode-db.hpp lines 4935-5059. *)
Definition numeric_data_d : list (Z * Z) :=
  [(0xbc, 4); (0xbd, 2); (0xbe, 4); (0x9f4, 16); (0x9f5, 8); (0x9f6, 16); (0x9f7, 4); (0x9f8, 4); (0xb72, 4);
   (0xb73, 2); (0xb74, 4); (0xb75, 16); (0xb76, 8); (0xb77, 16); (0xd58, 160); (0xd59, 40); (0xd5a, 80);
   (0xd5b, 20); (0xd5c, 10); (0xd5d, 20); (0xd5e, 5); (0xd73, 4); (0xd74, 2); (0xd75, 4); (0xd76, 16); (0xd77,
   8); (0xd78, 16); (0xf2a, 2); (0xf2b, 2); (0xf2c, 2); (0xf2d, 2); (0xf2e, 2); (0xf2f, 2); (0xf30, 2); (0xf31,
   2); (0xf32, 2); (0xf33, 2); (0x2150, 7); (0x2151, 9); (0x2152, 10); (0x2153, 3); (0x2154, 3); (0x2155, 5);
   (0x2156, 5); (0x2157, 5); (0x2158, 5); (0x2159, 6); (0x215a, 6); (0x215b, 8); (0x215c, 8); (0x215d, 8);
   (0x215e, 8); (0x2cfd, 2); (0xa830, 4); (0xa831, 2); (0xa832, 4); (0xa833, 16); (0xa834, 8); (0xa835, 16);
   (0x10140, 4); (0x10141, 2); (0x10175, 2); (0x10176, 2); (0x10177, 3); (0x10178, 4); (0x1018b, 4); (0x109bc,
   12); (0x109bd, 2); (0x109f6, 12); (0x109f7, 12); (0x109f8, 12); (0x109f9, 12); (0x109fa, 12); (0x109fb, 12);
   (0x109fc, 12); (0x109fd, 12); (0x109fe, 12); (0x109ff, 12); (0x10a48, 2); (0x10e7b, 2); (0x10e7c, 4);
   (0x10e7d, 3); (0x10e7e, 3); (0x10f26, 2); (0x11fc0, 320); (0x11fc1, 160); (0x11fc2, 80); (0x11fc3, 64);
   (0x11fc4, 40); (0x11fc5, 32); (0x11fc6, 80); (0x11fc7, 64); (0x11fc8, 20); (0x11fc9, 16); (0x11fca, 16);
   (0x11fcb, 10); (0x11fcc, 8); (0x11fcd, 20); (0x11fce, 16); (0x11fcf, 5); (0x11fd0, 4); (0x11fd1, 2);
   (0x11fd2, 2); (0x11fd3, 4); (0x11fd4, 320); (0x1245a, 3); (0x1245b, 3); (0x1245c, 6); (0x1245d, 3);
   (0x1245e, 3); (0x1245f, 8); (0x12460, 4); (0x12461, 6); (0x12462, 4); (0x12463, 4); (0x12464, 2); (0x12465,
   3); (0x12466, 3); (0x1ecad, 4); (0x1ecae, 2); (0x1ecaf, 4); (0x1ed3c, 2); (0x1ed3d, 6); (0x110000, 0)].
(** unicode-db.hpp lines 5060-5281. *)
Definition prop_assigned : bool_trie := mkTrie 32 991 1 112 255 1 1407 1 160
  [0xffffffffffffffff; 0xffffffffffffffff; 0xffffffffffffffff; 0xffffffffffffffff; 0xffffffffffffffff;
   0xffffffffffffffff; 0xffffffffffffffff; 0xffffffffffffffff; 0xffffffffffffffff; 0xffffffffffffffff;
   0xffffffffffffffff; 0xffffffffffffffff; 0xffffffffffffffff; 0xfcffffffffffffff; 0xfffffffbffffd7f0;
   0xffffffffffffffff; 0xffffffffffffffff; 0xffffffffffffffff; 0xffffffffffffffff; 0xffffffffffffffff;
   0xfffeffffffffffff; 0xfffffffffe7fffff; 0xfffffffffffee7ff; 0x001f87ffffff00ff; 0xffffffffffffffff;
   0xffffffffffffffff; 0xffffffffffffffff; 0xffffffffffffffff; 0xffffffffffffbfff; 0xffffffffffffe7ff;
   0x0003ffffffffffff; 0xe7ffffffffffffff]
  [1; 2; 3; 3; 3; 4; 5; 6; 7; 8; 9; 10; 11; 12; 13; 14; 15; 16; 17; 18; 19; 20; 21; 22; 23; 24; 25; 3; 26; 27;
   28; 3; 3; 3; 29; 3; 3; 3; 3; 3; 30; 31; 32; 33; 34; 35; 36; 3; 3; 3; 3; 3; 3; 3; 3; 3; 3; 37; 38; 39; 40; 3;
   41; 35; 38; 42; 43; 44; 45; 46; 47; 48; 49; 50; 51; 3; 52; 3; 53; 54; 55; 56; 57; 3; 3; 3; 3; 3; 3; 3; 3;
   58; 59; 60; 61; 3; 62; 63; 64; 3; 3; 65; 3; 3; 3; 3; 3; 3; 3; 3; 3; 66; 67; 3; 3; 3; 3; 3; 3; 3; 3; 3; 3; 3;
   3; 3; 3; 3; 3; 3; 3; 3; 3; 3; 3; 3; 3; 3; 3; 3; 68; 69; 3; 3; 3; 3; 70; 71; 72; 73; 74; 3; 75; 76; 77; 3; 3;
   3; 78; 3; 79; 80; 3; 81; 3; 82; 83; 84; 3; 3; 3; 3; 3; 3; 3; 3; 3; 3; 3; 3; 3; 3; 3; 3; 3; 3; 3; 3; 3; 3; 3;
   3; 3; 3; 3; 3; 3; 3; 3; 3; 3; 3; 3; 3; 3; 3; 3; 3; 3; 3; 3; 3; 3; 3; 3; 3; 3; 3; 3; 3; 3; 3; 3; 3; 3; 3; 3;
   3; 3; 3; 3; 3; 3; 3; 3; 3; 3; 3; 3; 3; 3; 3; 3; 3; 3; 3; 3; 3; 3; 3; 3; 3; 3; 3; 3; 3; 3; 3; 3; 3; 3; 3; 3;
   3; 3; 3; 3; 3; 3; 3; 3; 3; 3; 3; 3; 3; 3; 3; 3; 3; 3; 3; 3; 3; 3; 3; 3; 3; 3; 3; 3; 3; 3; 3; 3; 3; 3; 3; 3;
   3; 3; 3; 3; 3; 3; 3; 3; 3; 3; 3; 3; 3; 3; 3; 3; 3; 3; 3; 3; 3; 3; 3; 3; 3; 3; 3; 3; 3; 3; 3; 3; 3; 3; 3; 3;
   3; 3; 3; 3; 3; 3; 3; 3; 3; 3; 3; 3; 3; 3; 3; 3; 3; 3; 3; 3; 3; 3; 3; 3; 3; 3; 3; 3; 3; 3; 3; 3; 3; 3; 3; 3;
   3; 3; 3; 3; 3; 3; 3; 3; 3; 3; 3; 3; 3; 3; 3; 3; 3; 3; 3; 3; 3; 3; 3; 3; 3; 3; 3; 3; 3; 3; 3; 3; 3; 3; 3; 3;
   3; 3; 3; 3; 3; 3; 3; 3; 3; 3; 3; 3; 3; 3; 3; 3; 3; 3; 3; 3; 3; 3; 3; 3; 3; 3; 3; 3; 3; 3; 3; 3; 3; 3; 3; 3;
   3; 3; 3; 3; 3; 3; 3; 3; 3; 3; 3; 3; 3; 3; 3; 3; 3; 3; 3; 3; 3; 3; 3; 3; 3; 3; 3; 3; 3; 3; 3; 3; 3; 3; 3; 3;
   3; 3; 3; 3; 3; 3; 3; 3; 3; 3; 3; 3; 3; 3; 3; 3; 3; 3; 3; 3; 3; 3; 3; 3; 3; 3; 3; 3; 3; 3; 3; 3; 3; 3; 3; 3;
   3; 3; 3; 3; 3; 3; 3; 3; 3; 3; 3; 3; 3; 3; 3; 3; 3; 3; 3; 3; 3; 3; 3; 3; 3; 3; 3; 3; 3; 3; 3; 3; 3; 3; 3; 3;
   3; 3; 3; 3; 3; 3; 3; 3; 3; 3; 3; 3; 3; 3; 3; 3; 3; 3; 3; 3; 3; 3; 3; 3; 3; 3; 3; 3; 3; 3; 3; 3; 3; 3; 3; 3;
   3; 3; 3; 3; 3; 3; 3; 3; 3; 3; 3; 3; 3; 3; 3; 3; 3; 3; 3; 3; 3; 3; 3; 3; 3; 3; 3; 3; 3; 3; 3; 3; 3; 3; 3; 3;
   3; 3; 85; 86; 3; 3; 3; 3; 87; 3; 3; 88; 3; 3; 3; 89; 90; 88; 3; 91; 3; 92; 3; 93; 94; 95; 3; 96; 97; 46; 3;
   98; 3; 3; 3; 3; 3; 3; 3; 3; 3; 3; 3; 3; 3; 3; 3; 3; 3; 3; 3; 3; 3; 3; 3; 3; 3; 3; 3; 3; 3; 3; 3; 3; 3; 3; 3;
   3; 3; 3; 3; 3; 3; 3; 3; 3; 3; 3; 3; 3; 3; 3; 3; 3; 3; 3; 3; 3; 3; 3; 3; 3; 3; 3; 3; 3; 3; 3; 3; 3; 3; 3; 3;
   3; 3; 3; 3; 3; 3; 3; 3; 3; 3; 3; 3; 3; 3; 3; 3; 3; 3; 3; 3; 3; 3; 3; 3; 3; 3; 3; 3; 3; 3; 3; 3; 3; 3; 3; 3;
   3; 3; 3; 3; 3; 3; 3; 3; 3; 3; 3; 3; 3; 3; 3; 3; 3; 3; 3; 3; 3; 3; 3; 3; 3; 3; 3; 3; 3; 3; 3; 3; 3; 3; 3; 3;
   3; 3; 3; 3; 3; 3; 3; 3; 3; 3; 3; 3; 3; 3; 3; 3; 3; 3; 3; 3; 3; 3; 3; 3; 3; 3; 3; 3; 3; 3; 3; 83; 99; 100;
   100; 100; 100; 100; 100; 100; 100; 100; 100; 100; 100; 100; 100; 100; 100; 100; 100; 100; 100; 100; 100;
   100; 100; 100; 100; 100; 100; 100; 100; 100; 100; 100; 100; 100; 100; 100; 100; 100; 100; 100; 100; 100;
   100; 100; 100; 100; 100; 100; 100; 100; 100; 100; 100; 100; 100; 100; 100; 100; 100; 100; 100; 100; 100;
   100; 100; 100; 100; 100; 100; 100; 100; 100; 100; 100; 100; 100; 100; 100; 100; 100; 100; 100; 100; 100;
   100; 100; 100; 100; 100; 100; 100; 100; 100; 100; 100; 100; 100; 100; 100; 100; 100; 100; 100; 100; 100;
   100; 100; 100; 100; 100; 100; 100; 100; 100; 100; 100; 100; 100; 100; 100; 100; 100; 100; 100; 100; 100;
   100; 100; 100; 100; 100; 3; 3; 3; 3; 3; 101; 3; 102; 103; 104; 3; 105; 3; 3; 3; 3; 3; 3; 106; 107; 35; 108;
   3; 109; 79; 3; 110; 111]
  [0x7fff3fffffffffff; 0xffff07ff4fffffff; 0xffffffffff037fff; 0xffffffffffffffff; 0xf3c5fdfffff99fef;
   0x7fffffcfb080799f; 0xd36dfdfffff987ee; 0x007fffc05e023987; 0xf3edfdfffffbbfee; 0xfe03ffcf00013bbf;
   0xf3edfdfffff99fee; 0x00ffffcfb0e0399f; 0xc3ffc718d63dc7ec; 0x07ffffc000813dc7; 0xf3fffdfffffddfff;
   0xff80ffcf27603ddf; 0xf3effdfffffddfff; 0x0006ffcf60603ddf; 0xfffffffffffddfff; 0xffffffcffff0fddf;
   0x2ffbfffffc7fffee; 0x001cffc0ff5f847f; 0x87fffffffffffffe; 0x000000000fffffff; 0x3fffffaffffff7d6;
   0x00000000f3ff3f5f; 0xfffe1ffffffffeff; 0xdffffffffeffffff; 0x0000000007ffdfff; 0xffffffffffff20bf;
   0xffffffff3d7f3dff; 0x7f3dffffffff3dff; 0xffffffffff7fff3d; 0xffffffffff3dffff; 0x1fffffffe7ffffff;
   0xffffffff03ffffff; 0x3f3fffffffffffff; 0xffffffff1fffffff; 0x01ffffffffffffff; 0x007fffff803fffff;
   0x000ddfff000fffff; 0x03ff03ff3fffffff; 0xffff07ffffffffff; 0x003fffffffffffff; 0x0fff0fff7fffffff;
   0x001f3ffffffffff1; 0xffff0fffffffffff; 0xffffffffc7ff03ff; 0xffffffffcfffffff; 0x9fffffff7fffffff;
   0xffff3fff03ff03ff; 0x0000000000007fff; 0x7fffffffffff1fff; 0xf00fffffffffffff; 0xf8ffffffffffffff;
   0xffffffffffffe3ff; 0xe7ffffffffff01ff; 0x07ffffffffff00ff; 0xffffffff3f3fffff; 0x3fffffffaaff3f3f;
   0xffdfffffffffffff; 0x7fdcffffefcfffdf; 0xfff3ffdfffffffff; 0xffffffff1fff7fff; 0x0001ffffffff0001;
   0xffffffffffff0fff; 0x0000007fffffffff; 0xffffffff000007ff; 0xffcfffffffffffff; 0xffffffffffbfffff;
   0xfe0fffffffffffff; 0xffff20bfffffffff; 0x800180ffffffffff; 0x7f7f7f7f007fffff; 0xffffffff7f7f7f7f;
   0x000000003fffffff; 0xfffffffffbffffff; 0x000fffffffffffff; 0x0fff0000003fffff; 0xfffffffffffffffe;
   0xfffffffffe7fffff; 0xfffeffffffffffe0; 0xffffffffffff7fff; 0xffff000fffffffff; 0xffffffff7fffffff;
   0xffffffffffff1fff; 0xffffffffffff007f; 0x00000fffffffffff; 0x00ffffffffffffff; 0xfffc000003eb07ff;
   0x03ff1fffffffffff; 0xffffffff03ffc03f; 0x1fffffff800fffff; 0x7fffffffc3ffbfff; 0x007fffffffffffff;
   0xfffffffff3ff3fff; 0x007ffffff8000007; 0xffff7f7f007e7e7e; 0x03ff3fffffffffff; 0x0ffffffffffff87f;
   0x0000000000000000; 0xffff3fffffffffff; 0x0000000003ffffff; 0x5f7fffffe0f8007f; 0xffffffffffffffdb;
   0xfffffffffff80007; 0xfffffffffffcffff; 0xffff0000000080ff; 0xffdf0f7ffff7ffff; 0x9fffffffffffffff;
   0x7fffffffffffffff; 0x3e007f7f1cfcfcfc]
  [1; 2; 3; 4; 5; 6; 7; 8; 5; 9; 10; 11; 12; 13; 14; 7; 7; 7; 7; 7; 7; 7; 7; 7; 7; 15; 16; 17; 7; 18; 19; 7;
   20; 5; 5; 5; 5; 5; 5; 5; 5; 5; 5; 5; 5; 5; 5; 5; 5; 5; 5; 5; 5; 5; 5; 5; 5; 5; 5; 5; 5; 5; 5; 5; 5; 5; 5; 5;
   5; 5; 5; 5; 5; 5; 5; 5; 5; 5; 5; 5; 5; 5; 5; 5; 5; 5; 5; 5; 5; 5; 5; 5; 5; 5; 5; 5; 5; 5; 5; 5; 5; 5; 5; 5;
   5; 5; 5; 5; 5; 5; 5; 5; 5; 5; 5; 5; 5; 5; 5; 5; 5; 5; 5; 5; 5; 5; 5; 5; 5; 5; 5; 5; 5; 5; 5; 5; 5; 5; 5; 5;
   5; 5; 5; 5; 5; 5; 5; 5; 5; 5; 5; 5; 5; 5; 5; 5; 5; 5; 5; 5; 5; 5; 5; 5; 5; 5; 5; 5; 5; 5; 5; 5; 5; 5; 5; 5;
   5; 5; 5; 5; 5; 5; 5; 5; 5; 5; 5; 5; 5; 5; 5; 5; 5; 5; 5; 5; 5; 5; 5; 5; 5; 5; 5; 5; 5; 5; 5; 21; 5; 5; 5; 5;
   5; 5; 5; 5; 5; 5; 5; 5; 5; 5; 5; 5; 5; 5; 5; 5; 5; 5; 5; 5; 5; 5; 5; 5; 5; 5; 5; 5; 5; 5; 5; 5; 5; 5; 5; 5;
   5; 5; 5; 5; 5; 5; 5]
  [1; 2; 3; 4; 2; 5; 6; 7; 7; 8; 9; 10; 11; 12; 13; 2; 2; 14; 15; 16; 17; 18; 7; 2; 2; 2; 2; 19; 20; 21; 7; 22;
   23; 24; 25; 26; 7; 27; 28; 29; 30; 31; 32; 33; 34; 35; 7; 2; 36; 37; 38; 39; 7; 7; 7; 7; 40; 41; 7; 16; 42;
   43; 44; 2; 45; 2; 46; 47; 48; 2; 49; 50; 7; 51; 52; 53; 54; 7; 7; 2; 55; 2; 56; 7; 7; 57; 58; 2; 59; 60; 61;
   62; 63; 7; 7; 64; 7; 65; 66; 67; 68; 69; 70; 2; 71; 72; 73; 7; 7; 7; 7; 74; 75; 76; 7; 77; 78; 79; 7; 7; 7;
   7; 80; 7; 7; 81; 82; 2; 2; 2; 2; 2; 2; 2; 2; 2; 2; 2; 2; 2; 2; 83; 7; 2; 84; 2; 2; 2; 85; 7; 7; 7; 7; 7; 7;
   7; 7; 7; 7; 7; 7; 7; 7; 7; 7; 7; 7; 7; 7; 7; 7; 7; 7; 7; 7; 7; 7; 7; 7; 7; 7; 7; 7; 7; 7; 7; 7; 7; 7; 86;
   37; 2; 2; 2; 2; 2; 2; 2; 2; 2; 2; 2; 2; 2; 2; 2; 2; 87; 7; 7; 7; 7; 7; 7; 7; 7; 7; 7; 7; 7; 7; 7; 7; 7; 7;
   7; 7; 7; 7; 7; 7; 7; 7; 7; 7; 7; 7; 7; 7; 7; 7; 7; 7; 7; 7; 7; 7; 7; 7; 7; 7; 7; 7; 7; 7; 7; 7; 7; 7; 7; 7;
   7; 7; 7; 7; 7; 7; 7; 7; 7; 7; 2; 2; 2; 2; 2; 2; 2; 2; 2; 63; 7; 7; 7; 7; 7; 7; 7; 7; 7; 7; 7; 7; 7; 7; 7; 7;
   7; 7; 7; 7; 7; 7; 7; 7; 7; 7; 7; 7; 7; 7; 7; 7; 7; 7; 7; 7; 7; 7; 7; 7; 7; 7; 7; 7; 7; 7; 7; 7; 7; 7; 7; 7;
   7; 7; 7; 7; 7; 7; 7; 7; 7; 7; 7; 7; 7; 7; 7; 7; 7; 7; 7; 7; 7; 7; 7; 7; 7; 7; 7; 7; 7; 7; 7; 7; 7; 7; 7; 7;
   7; 7; 7; 7; 7; 7; 7; 7; 7; 7; 7; 7; 7; 7; 7; 7; 7; 7; 7; 7; 7; 7; 7; 7; 7; 7; 7; 7; 7; 7; 7; 7; 7; 7; 7; 7;
   7; 7; 7; 7; 7; 7; 7; 7; 7; 7; 2; 2; 2; 2; 2; 2; 2; 2; 73; 88; 89; 90; 2; 91; 92; 7; 7; 7; 7; 7; 7; 7; 7; 7;
   7; 2; 93; 7; 2; 94; 95; 96; 2; 2; 2; 2; 2; 2; 2; 2; 2; 2; 2; 2; 2; 2; 2; 2; 2; 2; 2; 2; 2; 2; 2; 2; 2; 2; 2;
   2; 2; 2; 2; 2; 2; 2; 2; 2; 2; 2; 2; 2; 2; 2; 2; 2; 2; 2; 2; 2; 2; 2; 2; 2; 2; 2; 2; 2; 2; 2; 2; 2; 2; 2; 2;
   2; 2; 2; 2; 2; 2; 2; 2; 2; 2; 2; 2; 2; 2; 2; 2; 2; 2; 2; 2; 2; 2; 2; 2; 2; 2; 2; 2; 2; 2; 2; 2; 97; 2; 2; 2;
   2; 2; 2; 2; 2; 2; 2; 2; 2; 2; 2; 2; 2; 2; 2; 2; 98; 36; 7; 7; 7; 7; 7; 7; 7; 7; 7; 7; 7; 7; 7; 7; 7; 7; 7;
   7; 7; 7; 7; 7; 7; 7; 7; 7; 7; 7; 7; 7; 7; 7; 7; 7; 7; 7; 7; 7; 7; 7; 7; 7; 7; 7; 7; 7; 7; 7; 7; 7; 7; 7; 7;
   7; 7; 7; 7; 7; 7; 7; 7; 7; 7; 7; 7; 7; 7; 7; 7; 7; 7; 7; 7; 7; 99; 2; 2; 2; 2; 100; 101; 2; 2; 2; 2; 2; 64;
   7; 7; 7; 7; 7; 7; 7; 7; 7; 7; 7; 7; 7; 7; 7; 7; 7; 7; 7; 7; 7; 7; 7; 7; 7; 7; 7; 7; 7; 7; 7; 7; 7; 7; 7; 7;
   2; 102; 103; 7; 7; 7; 7; 7; 7; 7; 7; 7; 7; 7; 7; 7; 7; 7; 7; 7; 7; 7; 7; 7; 7; 7; 7; 7; 7; 7; 7; 7; 7; 7; 7;
   7; 7; 7; 7; 7; 7; 7; 7; 7; 7; 7; 7; 7; 7; 7; 7; 7; 7; 7; 7; 7; 7; 7; 7; 7; 7; 7; 7; 7; 7; 7; 7; 7; 7; 7; 7;
   7; 7; 7; 7; 7; 104; 105; 2; 85; 2; 2; 2; 106; 107; 2; 2; 108; 2; 109; 7; 110; 2; 111; 7; 7; 2; 112; 113;
   114; 115; 116; 2; 2; 2; 2; 117; 2; 2; 2; 2; 118; 2; 2; 2; 2; 2; 2; 2; 2; 2; 2; 119; 7; 7; 7; 7; 7; 7; 7; 7;
   7; 7; 7; 7; 7; 7; 7; 7; 7; 120; 7; 7; 7; 121; 7; 7; 7; 122; 123; 7; 7; 7; 7; 124; 125; 7; 7; 7; 7; 7; 7; 7;
   7; 7; 7; 7; 7; 7; 7; 7; 7; 7; 7; 7; 126; 2; 2; 2; 127; 2; 128; 7; 7; 7; 7; 7; 7; 7; 7; 7; 7; 7; 129; 130; 7;
   131; 7; 7; 7; 132; 133; 134; 135; 7; 7; 7; 7; 136; 2; 137; 138; 2; 2; 139; 140; 141; 142; 7; 7; 2; 2; 2; 2;
   2; 2; 2; 2; 2; 2; 2; 2; 2; 2; 2; 143; 2; 144; 2; 145; 146; 147; 148; 7; 2; 2; 2; 2; 2; 149; 150; 151; 2; 2;
   152; 153; 7; 7; 7; 7; 7; 7; 7; 7; 7; 7; 7; 7; 7; 7; 7; 7; 2; 2; 2; 2; 2; 2; 2; 2; 2; 2; 2; 2; 2; 2; 2; 2; 2;
   2; 2; 2; 2; 2; 2; 2; 2; 2; 2; 31; 2; 2; 2; 2; 2; 2; 2; 2; 2; 2; 2; 2; 2; 2; 2; 2; 2; 2; 2; 2; 2; 2; 2; 2; 2;
   2; 2; 2; 2; 2; 2; 2; 2; 2; 2; 2; 2; 2; 2; 2; 2; 2; 2; 2; 2; 2; 2; 2; 2; 2; 2; 2; 2; 2; 2; 2; 2; 2; 2; 2; 2;
   2; 2; 2; 73; 2; 2; 2; 154; 2; 2; 2; 2; 2; 2; 2; 2; 2; 2; 2; 2; 2; 2; 2; 2; 2; 2; 2; 2; 2; 2; 2; 2; 2; 2; 2;
   2; 2; 2; 2; 2; 2; 2; 2; 2; 2; 2; 2; 2; 2; 2; 2; 2; 2; 2; 2; 2; 2; 2; 2; 2; 2; 2; 2; 2; 2; 2; 2; 2; 2; 2; 2;
   2; 2; 2; 2; 2; 2; 2; 2; 2; 2; 2; 2; 2; 2; 2; 2; 2; 2; 2; 2; 2; 2; 2; 2; 2; 2; 155; 2; 2; 2; 2; 2; 2; 2; 2;
   2; 2; 2; 2; 2; 2; 2; 2; 2; 2; 2; 2; 2; 2; 2; 2; 2; 2; 2; 2; 2; 2; 2; 2; 2; 2; 2; 2; 2; 2; 2; 2; 2; 2; 2; 2;
   2; 2; 2; 2; 2; 2; 2; 2; 156; 7; 7; 7; 7; 7; 7; 7; 7; 7; 7; 7; 7; 7; 7; 7; 7; 7; 7; 7; 7; 7; 7; 7; 7; 7; 7;
   7; 7; 7; 7; 7; 7; 7; 7; 7; 7; 7; 7; 7; 7; 7; 7; 7; 7; 7; 7; 7; 7; 2; 2; 2; 2; 2; 2; 2; 2; 58; 7; 7; 7; 7; 7;
   7; 7; 7; 7; 7; 7; 7; 7; 7; 7; 7; 7; 7; 7; 7; 7; 7; 7; 2; 2; 2; 2; 2; 2; 2; 2; 2; 2; 2; 2; 2; 157; 7; 7; 7;
   7; 7; 7; 7; 7; 7; 7; 7; 7; 7; 7; 7; 7; 7; 7; 7; 7; 7; 7; 7; 7; 7; 7; 7; 7; 7; 7; 7; 7; 7; 7; 7; 7; 7; 7; 7;
   7; 7; 7; 7; 7; 7; 7; 7; 7; 7; 7; 158; 2; 7; 7; 2; 2; 2; 159; 7; 7; 7; 7; 7; 7; 7; 7; 7; 7; 7; 7; 7; 7; 7; 7;
   7; 7; 7; 7; 7; 7; 7; 7; 7; 7; 7; 7; 7; 7; 7; 7; 7; 7; 7; 7; 7; 7; 7; 7; 7; 7; 7; 7; 7; 7; 7; 7; 7; 7; 7; 7;
   7; 7; 7; 7]
  [0xb7ffff7fffffefff; 0x000000003fff3fff; 0xffffffffffffffff; 0x07ffffffffffffff; 0xff8fffffffffff87;
   0x000000011fff7fff; 0x3fffffffffff0000; 0x0000000000000000; 0xffffffff1fffffff; 0x0fffffff0001ffff;
   0xffffe00fffffffff; 0x07ffffffffff07ff; 0xffffffffbfffffff; 0x00000000003fff0f; 0xffff03ff3fffffff;
   0x0fffffffff0fffff; 0xffff00ffffffffff; 0xf7ff800fffffffff; 0x1bfbfffbffb7f7ff; 0x007fffffffffffff;
   0x000000ff003fffff; 0x07fdffffffffffbf; 0x91bffffffffffd3f; 0xffffffffffbfffff; 0x0000ff807fffffff;
   0xf837ffff00000000; 0x83ffffff8fffffff; 0xf0ffffffffffffff; 0xfffffffffffcffff; 0x873ffffffeeff06f;
   0xffffffff01ff01ff; 0x00000000ffffffff; 0x007ff87fffffffff; 0xfe3fffffffffffff; 0xff07ffffff3fffff;
   0x0000fe001e03ffff; 0x00000000000001ff; 0x0007ffffffffffff; 0xfc07ffffffffffff; 0x03ff00ffffffffff;
   0x7fffffff00000000; 0x00033bffffffffff; 0xffff000003ffffff; 0xffff0000000003ff; 0x007fffff00000fff;
   0x803ffffffffc3fff; 0x03ff01ffffff2007; 0xffdfffffffffffff; 0x007fffffffff00ff; 0x001ffffeffffffff;
   0x7ffffffffffbffff; 0xffff03ffbfffbd7f; 0x03ff07ffffffffff; 0xfbedfdfffff99fef; 0x001f1fcfe081399f;
   0x00000003efffffff; 0x0000000003ff00ff; 0xff3fffffffffffff; 0x000000003fffffff; 0x00001fff03ff001f;
   0x03ffffffffffffff; 0x00000000000003ff; 0xffff0fffe7ffffff; 0x000000000000007f; 0x0fffffffffffffff;
   0xffffffff00000000; 0x8007ffffffffffff; 0xf9bfffffff6ff27f; 0x0000000003ff007f; 0xfffffcff00000000;
   0x0000001ffcffffff; 0xffffffffffff00ff; 0xffff0007ffffffff; 0x01ffffffffffffff; 0xff7ffffffffffdff;
   0xffff1fffffff003f; 0x007ffefffffcffff; 0xb47ffffffffffb7f; 0xfffffdbf03ff00ff; 0x000003ff01fb7fff;
   0x01ffffff00000000; 0x0001000000000000; 0x8003ffffffffffff; 0x0000000003ffffff; 0x001f7fffffffffff;
   0x000000000000000f; 0xffffffffffff0000; 0x01ff7fffffffffff; 0xffffc3ff7fffffff; 0x7fffffffffffffff;
   0x003f3fffffff03ff; 0xe0fffffbfbff003f; 0x000000000000ffff; 0x0000000007ffffff; 0xffffffffffff87ff;
   0x00000000ffff80ff; 0x0003001f00000000; 0x00ffffffffffffff; 0x00000000003fffff; 0x6fef000000000000;
   0x00000007ffffffff; 0xffff00f000070000; 0x1fff07ffffffffff; 0x0000000ff3ff01ff; 0xffff3fffffffffff;
   0xffffffffffff007f; 0x003fffffffffffff; 0xfffffe7fffffffff; 0x000007ffffffffff; 0x000000000000003f;
   0x000fffff00000000; 0x01ffffff007fffff; 0xffffffffffdfffff; 0xebffde64dfffffff; 0xffffffffffffffef;
   0x7bffffffdfdfe7bf; 0xfffffffffffdfc5f; 0xffffff3fffffffff; 0xffffffffffffcfff; 0x0000fffef8000fff;
   0x000000007fffffff; 0x000007dbf9ffff7f; 0x3fff1fffffffffff; 0x000000000000c3ff; 0x00007fffffff0000;
   0x83ffffffffffffff; 0x7fff6f7f00000000; 0x00000000007fff9f; 0x00000000c3ff0fff; 0xfffe000000000000;
   0x001fffffffffffff; 0x3ffffffffffffffe; 0x0af7fe96ffffffef; 0x5ef7f796aa96ea84; 0x0ffffbee0ffffbff;
   0x0003000000000000; 0xffff0fffffffffff; 0xfffe7fff000fffff; 0x003ffffffffefffe; 0x00003fffffffffff;
   0xffffffc000000000; 0x0fffffffffff0007; 0x0000003f000301ff; 0x1fff1fffe0ffffff; 0x000fffffffffffff;
   0x00010fff01ffffff; 0xffffffffffff0fff; 0xffffffff03ff00ff; 0x00033fffffff00ff; 0x1f1f3fff000fffff;
   0x07ff1fffffff007f; 0x007f00ff03ff003f; 0xfffffffffff7ffff; 0x03ff0000000007ff; 0xffffffff3fffffff;
   0xffff0003ffffffff; 0x00000001ffffffff; 0x00000000000007ff; 0xffffffff00000002; 0x0000ffffffffffff].
(** unicode-db.hpp lines 5368-5369. *)
Definition prop_ahex_data : list Z :=
  [0x00000000; 0x00003001; 0x00003a00; 0x00004101; 0x00004700; 0x00006101; 0x00006700].
(** unicode-db.hpp lines 5370-5578. *)
Definition prop_alpha_data : bool_trie := mkTrie 32 991 1 133 255 1 1279 1 127
  [0x0000000000000000; 0x07fffffe07fffffe; 0x0420040000000000; 0xff7fffffff7fffff; 0xffffffffffffffff;
   0xffffffffffffffff; 0xffffffffffffffff; 0xffffffffffffffff; 0xffffffffffffffff; 0xffffffffffffffff;
   0xffffffffffffffff; 0x0000501f0003ffc3; 0x0000000000000000; 0xbcdf000000000020; 0xfffffffbffffd740;
   0xffbfffffffffffff; 0xffffffffffffffff; 0xffffffffffffffff; 0xfffffffffffffc03; 0xffffffffffffffff;
   0xfffeffffffffffff; 0xffffffff027fffff; 0xbfff0000000001ff; 0x000787ffffff00b6; 0xffffffff07ff0000;
   0xffffc000feffffff; 0xffffffffffffffff; 0x9c00e1fe1fefffff; 0xffffffffffff0000; 0xffffffffffffe000;
   0x0003ffffffffffff; 0x043007fffffffc00]
  [1; 2; 3; 4; 5; 6; 7; 8; 9; 10; 11; 12; 13; 14; 15; 16; 17; 18; 19; 20; 21; 22; 23; 24; 25; 26; 27; 28; 29;
   30; 31; 32; 33; 34; 35; 36; 36; 36; 36; 36; 37; 38; 39; 40; 41; 42; 43; 44; 36; 36; 36; 36; 36; 36; 36; 36;
   45; 46; 47; 48; 49; 50; 51; 52; 53; 54; 55; 56; 57; 58; 59; 60; 61; 62; 63; 64; 65; 66; 67; 68; 69; 70; 71;
   36; 36; 36; 72; 36; 36; 36; 36; 73; 74; 75; 76; 31; 77; 78; 31; 79; 80; 81; 31; 31; 31; 31; 31; 31; 31; 31;
   31; 31; 31; 82; 83; 31; 31; 31; 31; 31; 31; 31; 31; 31; 31; 31; 31; 31; 31; 31; 31; 31; 31; 31; 31; 31; 31;
   31; 31; 31; 31; 31; 31; 36; 36; 36; 84; 85; 86; 87; 88; 89; 31; 31; 31; 31; 31; 31; 31; 90; 44; 91; 92; 93;
   36; 94; 95; 31; 31; 31; 31; 31; 31; 31; 31; 36; 36; 36; 36; 36; 36; 36; 36; 36; 36; 36; 36; 36; 36; 36; 36;
   36; 36; 36; 36; 36; 36; 36; 36; 36; 36; 36; 36; 36; 36; 36; 36; 36; 36; 36; 36; 36; 36; 36; 36; 36; 36; 36;
   36; 36; 36; 36; 36; 36; 36; 36; 36; 36; 36; 36; 36; 36; 36; 36; 36; 36; 36; 36; 36; 36; 36; 36; 36; 36; 36;
   36; 36; 36; 36; 36; 36; 36; 36; 36; 36; 36; 36; 36; 36; 36; 36; 36; 36; 36; 36; 36; 36; 36; 36; 36; 36; 36;
   36; 36; 36; 36; 36; 36; 31; 36; 36; 36; 36; 36; 36; 36; 36; 36; 36; 36; 36; 36; 36; 36; 36; 36; 36; 36; 36;
   36; 36; 36; 36; 36; 36; 36; 36; 36; 36; 36; 36; 36; 36; 36; 36; 36; 36; 36; 36; 36; 36; 36; 36; 36; 36; 36;
   36; 36; 36; 36; 36; 36; 36; 36; 36; 36; 36; 36; 36; 36; 36; 36; 36; 36; 36; 36; 36; 36; 36; 36; 36; 36; 36;
   36; 36; 36; 36; 36; 36; 36; 36; 36; 36; 36; 36; 36; 36; 36; 36; 36; 36; 36; 36; 36; 36; 36; 36; 36; 36; 36;
   36; 36; 36; 36; 36; 36; 36; 36; 36; 36; 36; 36; 36; 36; 36; 36; 36; 36; 36; 36; 36; 36; 36; 36; 36; 36; 36;
   36; 36; 36; 36; 36; 36; 36; 36; 36; 36; 36; 36; 36; 36; 36; 36; 36; 36; 36; 36; 36; 36; 36; 36; 36; 36; 36;
   36; 36; 36; 36; 36; 36; 36; 36; 36; 36; 36; 36; 36; 36; 36; 36; 36; 36; 36; 36; 36; 36; 36; 36; 36; 36; 36;
   36; 36; 36; 36; 36; 36; 36; 36; 36; 36; 36; 36; 36; 36; 36; 36; 36; 36; 36; 36; 36; 36; 36; 36; 36; 36; 36;
   36; 36; 36; 36; 36; 36; 36; 36; 36; 36; 36; 36; 36; 36; 36; 36; 36; 36; 36; 36; 36; 36; 36; 36; 36; 36; 36;
   36; 36; 36; 36; 36; 36; 36; 36; 36; 36; 36; 36; 36; 36; 36; 36; 36; 36; 36; 36; 36; 36; 36; 36; 36; 36; 36;
   36; 36; 36; 36; 36; 36; 36; 36; 36; 36; 36; 36; 36; 36; 36; 36; 36; 36; 36; 36; 36; 36; 36; 36; 36; 36; 36;
   36; 36; 36; 36; 36; 36; 36; 36; 36; 36; 36; 36; 36; 36; 36; 36; 36; 36; 36; 36; 36; 36; 36; 36; 36; 36; 36;
   36; 36; 36; 36; 36; 36; 36; 36; 36; 36; 36; 36; 36; 36; 36; 36; 36; 36; 36; 36; 36; 36; 36; 36; 36; 36; 36;
   36; 36; 96; 97; 36; 36; 36; 36; 98; 99; 36; 100; 101; 36; 102; 103; 104; 105; 36; 106; 107; 108; 109; 110;
   68; 111; 112; 113; 114; 115; 36; 116; 36; 36; 36; 36; 36; 36; 36; 36; 36; 36; 36; 36; 36; 36; 36; 36; 36;
   36; 36; 36; 36; 36; 36; 36; 36; 36; 36; 36; 36; 36; 36; 36; 36; 36; 36; 36; 36; 36; 36; 36; 36; 36; 36; 36;
   36; 36; 36; 36; 36; 36; 36; 36; 36; 36; 36; 36; 36; 36; 36; 36; 36; 36; 36; 36; 36; 36; 36; 36; 36; 36; 36;
   36; 36; 36; 36; 36; 36; 36; 36; 36; 36; 36; 36; 36; 36; 36; 36; 36; 36; 36; 36; 36; 36; 36; 36; 36; 36; 36;
   36; 36; 36; 36; 36; 36; 36; 36; 36; 36; 36; 36; 36; 36; 36; 36; 36; 36; 36; 36; 36; 36; 36; 36; 36; 36; 36;
   36; 36; 36; 36; 36; 36; 36; 36; 36; 36; 36; 36; 36; 36; 36; 36; 36; 36; 36; 36; 36; 36; 36; 36; 36; 36; 36;
   36; 36; 36; 36; 36; 36; 36; 36; 36; 36; 36; 36; 36; 36; 36; 36; 36; 36; 36; 36; 36; 36; 117; 118; 31; 31;
   31; 31; 31; 31; 31; 31; 31; 31; 31; 31; 31; 31; 31; 31; 31; 31; 31; 31; 31; 31; 31; 31; 31; 31; 31; 31; 31;
   31; 31; 31; 31; 31; 31; 31; 31; 31; 31; 31; 31; 31; 31; 31; 31; 31; 31; 31; 31; 31; 31; 31; 31; 31; 31; 31;
   31; 31; 31; 31; 31; 31; 31; 31; 31; 31; 31; 31; 31; 31; 31; 31; 31; 31; 31; 31; 31; 31; 31; 31; 31; 31; 31;
   31; 31; 31; 31; 31; 31; 31; 31; 31; 31; 31; 31; 31; 31; 31; 31; 31; 31; 31; 31; 31; 31; 31; 31; 31; 31; 31;
   31; 31; 31; 31; 31; 31; 31; 31; 31; 31; 31; 31; 31; 31; 31; 31; 31; 31; 31; 31; 31; 31; 36; 36; 36; 36; 36;
   119; 36; 120; 121; 122; 123; 124; 36; 36; 36; 36; 125; 33; 126; 127; 31; 128; 36; 129; 130; 131; 112; 132]
  [0x00001ffffcffffff; 0xffff07ff01ffffff; 0xffffffff00007eff; 0xffff03f8fff003ff; 0xefffffffffffffff;
   0xfffe000fffe1dfff; 0xe3c5fdfffff99fef; 0x1003000fb080599f; 0xc36dfdfffff987ee; 0x003f00005e021987;
   0xe3edfdfffffbbfee; 0x1e00000f00011bbf; 0xe3edfdfffff99fee; 0x0002000fb0c0199f; 0xc3ffc718d63dc7ec;
   0x0000000000811dc7; 0xe3fffdfffffddfef; 0x0000000f27601ddf; 0xe3effdfffffddfef; 0x0006000f60601ddf;
   0xe7fffffffffddfff; 0xfc00000f80f05ddf; 0x2ffbfffffc7fffee; 0x000c0000ff5f807f; 0x07fffffffffffffe;
   0x000000000000207f; 0x3bffffaffffff7d6; 0x00000000f000205f; 0x0000000000000001; 0xfffe1ffffffffeff;
   0x1ffffffffeffff03; 0x0000000000000000; 0xf97fffffffffffff; 0xffffffffffff0000; 0xffffffff3c00ffff;
   0xf7ffffffffff20bf; 0xffffffffffffffff; 0xffffffff3d7f3dff; 0x7f3dffffffff3dff; 0xffffffffff7fff3d;
   0xffffffffff3dffff; 0x0000000007ffffff; 0xffffffff0000ffff; 0x3f3fffffffffffff; 0xfffffffffffffffe;
   0xffff9fffffffffff; 0xffffffff07fffffe; 0x01ffc7ffffffffff; 0x000fffff800fffff; 0x000ddfff000fffff;
   0xffcfffffffffffff; 0x00000000108001ff; 0xffffffff00000000; 0x01ffffffffffffff; 0xffff07ffffffffff;
   0x003fffffffffffff; 0x01ff0fff7fffffff; 0x001f3fffffff0000; 0xffff0fffffffffff; 0x00000000000003ff;
   0xffffffff0fffffff; 0x001ffffe7fffffff; 0x8000008000000000; 0x0000000000007001; 0xffefffffffffffff;
   0x0000000000001fef; 0xfc00f3ffffffffff; 0x0003ffbfffffffff; 0x007fffffffffffff; 0x3ffffffffc00e000;
   0xe7ffffffffff01ff; 0x046fde0000000000; 0x001fff8000000000; 0xffffffff3f3fffff; 0x3fffffffaaff3f3f;
   0x5fdfffffffffffff; 0x1fdc1fff0fcf1fdc; 0x8002000000000000; 0x000000001fff0000; 0xf3ffbd503e2ffc84;
   0xffffffff000043e0; 0x00000000000001ff; 0xffc0000000000000; 0x000003ffffffffff; 0x000c781fffffffff;
   0xffff20bfffffffff; 0x000080ffffffffff; 0x7f7f7f7f007fffff; 0xffffffff7f7f7f7f; 0x0000800000000000;
   0x1f3e03fe000000e0; 0xfffffffee07fffff; 0xf7ffffffffffffff; 0xfffeffffffffffe0; 0xffffffff00007fff;
   0xffff000000000000; 0x0000000000001fff; 0x3fffffffffff0000; 0x00000c00ffff1fff; 0x8ff07fffffffffff;
   0x0000ffffffffffff; 0xfffffffcff800000; 0xfffffffffffff9ff; 0xfffc000003eb07ff; 0x000000ffffffffbf;
   0x000fffffffffffff; 0xe8fc00000000002f; 0xffff07fffffffc00; 0x1fffffff0007ffff; 0xfff7ffffffffffff;
   0x7c00ffff00008000; 0xfc7fffff00003fff; 0x7fffffffffffffff; 0x003cffff38000005; 0xffff7f7f007e7e7e;
   0xffff03fff7ffffff; 0x000007ffffffffff; 0xffff000fffffffff; 0x0ffffffffffff87f; 0xffff3fffffffffff;
   0x0000000003ffffff; 0x5f7ffdffe0f8007f; 0xffffffffffffffdb; 0x0003ffffffffffff; 0xfffffffffff80000;
   0x3fffffffffffffff; 0xfffffffffffcffff; 0x0fff0000000000ff; 0xffdf000000000000; 0x1fffffffffffffff;
   0x07fffffe00000000; 0xffffffc007fffffe; 0x000000001cfcfcfc]
  [1; 2; 3; 4; 5; 6; 7; 8; 5; 9; 10; 5; 11; 12; 13; 7; 7; 7; 7; 7; 7; 7; 7; 7; 7; 14; 15; 16; 7; 17; 18; 7; 19;
   5; 5; 5; 5; 5; 5; 5; 5; 5; 5; 5; 5; 5; 5; 5; 5; 5; 5; 5; 5; 5; 5; 5; 5; 5; 5; 5; 5; 5; 5; 5; 5; 5; 5; 5; 5;
   5; 5; 5; 5; 5; 5; 5; 5; 5; 5; 5; 5; 5; 5; 5; 5; 5; 5; 5; 5; 5; 5; 5; 5; 5; 5; 5; 5; 5; 5; 5; 5; 5; 5; 5; 5;
   5; 5; 5; 5; 5; 5; 5; 5; 5; 5; 5; 5; 5; 5; 5; 5; 5; 5; 5; 5; 5; 5; 5; 5; 5; 5; 5; 5; 5; 5; 5; 5; 5; 5; 5; 5;
   5; 5; 5; 5; 5; 5; 5; 5; 5; 5; 5; 5; 5; 5; 5; 5; 5; 5; 5; 5; 5; 5; 5; 5; 5; 5; 5; 5; 5; 5; 5; 5; 5; 5; 5; 5;
   5; 5; 5; 5; 5; 5; 5; 5; 5; 5; 5; 5; 5; 5; 5; 5; 5; 5; 5; 5; 5; 5; 5; 5; 5; 5; 5; 5; 5; 5; 5; 5; 5; 5; 5; 5;
   5; 5; 5; 5; 5; 5; 5; 5; 5; 5; 5; 5; 5; 5; 5; 5; 5; 5; 5; 5; 5; 5; 5; 5; 5; 5; 5; 5; 5; 5; 5; 5; 5; 5; 5; 5;
   5; 5; 5; 5; 5; 5]
  [1; 2; 3; 4; 5; 4; 4; 4; 4; 6; 7; 8; 9; 10; 11; 2; 2; 12; 13; 14; 15; 16; 4; 2; 2; 2; 2; 17; 18; 19; 4; 20;
   21; 22; 23; 24; 4; 25; 4; 26; 27; 28; 29; 30; 31; 32; 4; 2; 33; 34; 34; 35; 4; 4; 4; 4; 4; 36; 4; 37; 38;
   39; 40; 2; 41; 42; 43; 34; 44; 2; 45; 46; 4; 47; 48; 49; 50; 4; 4; 2; 51; 2; 52; 4; 4; 53; 54; 55; 56; 57;
   4; 58; 59; 4; 4; 60; 4; 61; 62; 63; 64; 65; 66; 67; 68; 69; 60; 4; 4; 4; 4; 70; 71; 72; 4; 73; 74; 75; 4; 4;
   4; 4; 76; 4; 4; 77; 4; 2; 2; 2; 2; 2; 2; 2; 2; 2; 2; 2; 2; 2; 2; 78; 4; 2; 79; 2; 2; 2; 80; 4; 4; 4; 4; 4;
   4; 4; 4; 4; 4; 4; 4; 4; 4; 4; 4; 4; 4; 4; 4; 4; 4; 4; 4; 4; 4; 4; 4; 4; 4; 4; 4; 4; 4; 4; 4; 4; 4; 4; 4; 68;
   81; 2; 2; 2; 2; 2; 2; 2; 2; 2; 2; 2; 2; 2; 2; 2; 2; 79; 4; 4; 4; 4; 4; 4; 4; 4; 4; 4; 4; 4; 4; 4; 4; 4; 4;
   4; 4; 4; 4; 4; 4; 4; 4; 4; 4; 4; 4; 4; 4; 4; 4; 4; 4; 4; 4; 4; 4; 4; 4; 4; 4; 4; 4; 4; 4; 4; 4; 4; 4; 4; 4;
   4; 4; 4; 4; 4; 4; 4; 4; 4; 4; 2; 2; 2; 2; 2; 2; 2; 2; 2; 59; 4; 4; 4; 4; 4; 4; 4; 4; 4; 4; 4; 4; 4; 4; 4; 4;
   4; 4; 4; 4; 4; 4; 4; 4; 4; 4; 4; 4; 4; 4; 4; 4; 4; 4; 4; 4; 4; 4; 4; 4; 4; 4; 4; 4; 4; 4; 4; 4; 4; 4; 4; 4;
   4; 4; 4; 4; 4; 4; 4; 4; 4; 4; 4; 4; 4; 4; 4; 4; 4; 4; 4; 4; 4; 4; 4; 4; 4; 4; 4; 4; 4; 4; 4; 4; 4; 4; 4; 4;
   4; 4; 4; 4; 4; 4; 4; 4; 4; 4; 4; 4; 4; 4; 4; 4; 4; 4; 4; 4; 4; 4; 4; 4; 4; 4; 4; 4; 4; 4; 4; 4; 4; 4; 4; 4;
   4; 4; 4; 4; 4; 4; 4; 4; 4; 4; 2; 2; 2; 2; 2; 2; 2; 2; 60; 82; 55; 83; 84; 85; 86; 4; 4; 4; 4; 4; 4; 4; 4; 4;
   4; 2; 4; 4; 2; 87; 88; 89; 2; 2; 2; 2; 2; 2; 2; 2; 2; 2; 2; 2; 2; 2; 2; 2; 2; 2; 2; 2; 2; 2; 2; 2; 2; 2; 2;
   2; 2; 2; 2; 2; 2; 2; 2; 2; 2; 2; 2; 2; 2; 2; 2; 2; 2; 2; 2; 2; 2; 2; 2; 2; 2; 2; 2; 2; 2; 2; 2; 2; 2; 2; 2;
   2; 2; 2; 2; 2; 2; 2; 2; 2; 2; 2; 2; 2; 2; 2; 2; 2; 2; 2; 2; 2; 2; 2; 2; 2; 2; 2; 2; 2; 2; 2; 2; 90; 2; 2; 2;
   2; 2; 2; 2; 2; 2; 2; 2; 2; 2; 2; 2; 2; 2; 2; 2; 91; 33; 4; 4; 4; 4; 4; 4; 4; 4; 4; 4; 4; 4; 4; 4; 4; 4; 4;
   4; 4; 4; 4; 4; 4; 4; 4; 4; 4; 4; 4; 4; 4; 4; 4; 4; 4; 4; 4; 4; 4; 4; 4; 4; 4; 4; 4; 4; 4; 4; 4; 4; 4; 4; 4;
   4; 4; 4; 4; 4; 4; 4; 4; 4; 4; 4; 4; 4; 4; 4; 4; 4; 4; 4; 4; 4; 92; 2; 2; 2; 2; 93; 94; 2; 2; 2; 2; 2; 95; 4;
   4; 4; 4; 4; 4; 4; 4; 4; 4; 4; 4; 4; 4; 4; 4; 4; 4; 4; 4; 4; 4; 4; 4; 4; 4; 4; 4; 4; 4; 4; 4; 4; 4; 4; 4; 2;
   96; 97; 4; 4; 4; 4; 4; 4; 4; 4; 4; 4; 4; 4; 4; 4; 4; 4; 4; 4; 4; 4; 4; 4; 4; 4; 4; 4; 4; 4; 4; 2; 98; 99;
   100; 101; 102; 2; 2; 2; 2; 103; 104; 105; 106; 107; 108; 4; 4; 4; 4; 4; 4; 4; 4; 4; 4; 4; 4; 4; 4; 4; 4; 4;
   4; 4; 4; 4; 4; 4; 4; 4; 4; 4; 4; 22; 4; 4; 4; 109; 4; 4; 4; 110; 111; 4; 4; 4; 4; 83; 112; 4; 4; 4; 4; 4; 4;
   4; 4; 4; 4; 4; 4; 4; 4; 4; 4; 4; 4; 4; 113; 2; 2; 2; 114; 2; 115; 4; 4; 4; 4; 4; 4; 4; 4; 4; 4; 4; 4; 4; 4;
   4; 4; 4; 4; 116; 117; 118; 4; 4; 4; 4; 4; 4; 4; 4; 4; 119; 120; 121; 4; 4; 4; 4; 4; 4; 4; 4; 4; 4; 4; 4; 4;
   4; 4; 4; 4; 4; 4; 4; 4; 4; 4; 4; 4; 4; 4; 4; 4; 4; 4; 4; 4; 4; 4; 4; 4; 4; 4; 4; 4; 4; 4; 4; 4; 4; 4; 4; 4;
   4; 4; 4; 4; 4; 4; 4; 4; 2; 2; 2; 2; 2; 2; 2; 2; 2; 2; 2; 2; 2; 2; 2; 2; 2; 2; 2; 2; 2; 2; 2; 2; 2; 2; 2;
   122; 2; 2; 2; 2; 2; 2; 2; 2; 2; 2; 2; 2; 2; 2; 2; 2; 2; 2; 2; 2; 2; 2; 2; 2; 2; 2; 2; 2; 2; 2; 2; 2; 2; 2;
   2; 2; 2; 2; 2; 2; 2; 2; 2; 2; 2; 2; 2; 2; 2; 2; 2; 2; 2; 2; 2; 2; 2; 2; 2; 2; 2; 2; 2; 2; 60; 2; 2; 2; 10;
   2; 2; 2; 2; 2; 2; 2; 2; 2; 2; 2; 2; 2; 2; 2; 2; 2; 2; 2; 2; 2; 2; 2; 2; 2; 2; 2; 2; 2; 2; 2; 2; 2; 2; 2; 2;
   2; 2; 2; 2; 2; 2; 2; 2; 2; 2; 2; 2; 2; 2; 2; 2; 2; 2; 2; 2; 2; 2; 2; 2; 2; 2; 2; 2; 2; 2; 2; 2; 2; 2; 2; 2;
   2; 2; 2; 2; 2; 2; 2; 2; 2; 2; 2; 2; 2; 2; 2; 2; 2; 123; 2; 2; 2; 2; 2; 2; 2; 2; 2; 2; 2; 2; 2; 2; 2; 2; 2;
   2; 2; 2; 2; 2; 2; 2; 2; 2; 2; 2; 2; 2; 2; 2; 2; 2; 2; 2; 2; 2; 2; 2; 2; 2; 2; 2; 2; 2; 2; 2; 2; 2; 2; 2;
   124; 4; 4; 4; 4; 4; 4; 4; 4; 4; 4; 4; 4; 4; 4; 4; 4; 4; 4; 4; 4; 4; 4; 4; 4; 4; 4; 4; 4; 4; 4; 4; 4; 4; 4;
   4; 4; 4; 4; 4; 4; 4; 4; 4; 4; 4; 4; 4; 4; 2; 2; 2; 2; 2; 2; 2; 2; 125; 4; 4; 4; 4; 4; 4; 4; 4; 4; 4; 4; 4;
   4; 4; 4; 4; 4; 4; 4; 4; 4; 4; 4; 2; 2; 2; 2; 2; 2; 2; 2; 2; 2; 2; 2; 2; 126; 4; 4; 4; 4; 4; 4; 4; 4; 4; 4;
   4; 4; 4; 4; 4; 4; 4; 4; 4; 4; 4; 4; 4; 4; 4; 4; 4; 4; 4; 4; 4; 4; 4; 4; 4; 4; 4; 4; 4; 4; 4; 4; 4; 4; 4; 4;
   4; 4; 4; 4]
  [0xb7ffff7fffffefff; 0x000000003fff3fff; 0xffffffffffffffff; 0x07ffffffffffffff; 0x0000000000000000;
   0x001fffffffffffff; 0xffffffff1fffffff; 0x000000000001ffff; 0xffffe000ffffffff; 0x07ffffffffff07ff;
   0xffffffff3fffffff; 0x00000000003eff0f; 0xffff00003fffffff; 0x0fffffffff0fffff; 0xffff00ffffffffff;
   0xf7ff000fffffffff; 0x1bfbfffbffb7f7ff; 0x007fffffffffffff; 0x000000ff003fffff; 0x07fdffffffffffbf;
   0x91bffffffffffd3f; 0x007fffff003fffff; 0x000000007fffffff; 0x0037ffff00000000; 0x03ffffff003fffff;
   0xc0ffffffffffffff; 0x003ffffffeeff06f; 0x1fffffff00000000; 0x000000001fffffff; 0x0000001ffffffeff;
   0x003fffffffffffff; 0x0007ffff003fffff; 0x000000000003ffff; 0x00000000000001ff; 0x0007ffffffffffff;
   0x000000ffffffffff; 0x00031bffffffffff; 0xffff00801fffffff; 0xffff00000000003f; 0xffff000000000003;
   0x007fffff0000001f; 0x003e00000000003f; 0x01fffffffffffffc; 0x000001ffffff0004; 0x0047ffffffff00f0;
   0x000000001400c01e; 0x409ffffffffbffff; 0xffff01ffbfffbd7f; 0x000001ffffffffff; 0xe3edfdfffff99fef;
   0x0000000fe081199f; 0x00000003800007bb; 0x00000000000000b3; 0x7f3fffffffffffff; 0x000000003f000000;
   0x7fffffffffffffff; 0x0000000000000011; 0x013fffffffffffff; 0x000007ffe7ffffff; 0x000000000000007f;
   0x01ffffffffffffff; 0xffffffff00000000; 0x80000000ffffffff; 0x99bfffffff6ff27f; 0x0000000000000007;
   0xfffffcff00000000; 0x0000001afcffffff; 0x7fe7ffffffffffff; 0xffffffffffff0000; 0xffff000020ffffff;
   0x7f7ffffffffffdff; 0xfffc000000000001; 0x007ffefffffcffff; 0xb47ffffffffffb7f; 0xfffffdbf000000cb;
   0x00000000017b7fff; 0x007fffff00000000; 0x0001000000000000; 0x0000000003ffffff; 0x00007fffffffffff;
   0x000000000000000f; 0x0001ffffffffffff; 0xffff00007fffffff; 0x00003fffffff0000; 0x0000ffffffffffff;
   0xe0fffff80000000f; 0x000000000000ffff; 0xffffffffffff87ff; 0x00000000ffff80ff; 0x0003000b00000000;
   0x00ffffffffffffff; 0x00000000003fffff; 0x6fef000000000000; 0x00000007ffffffff; 0xffff00f000070000;
   0x0fffffffffffffff; 0x1fff07ffffffffff; 0x0000000043ff01ff; 0xffffffffffdfffff; 0xebffde64dfffffff;
   0xffffffffffffffef; 0x7bffffffdfdfe7bf; 0xfffffffffffdfc5f; 0xffffff3fffffffff; 0xf7fffffff7fffffd;
   0xffdfffffffdfffff; 0xffff7fffffff7fff; 0xfffffdfffffffdff; 0x0000000000000ff7; 0x000007dbf9ffff7f;
   0x3f801fffffffffff; 0x0000000000004000; 0x00000fffffffffff; 0x7fff6f7f00000000; 0x000000000000001f;
   0x000000000000088f; 0x0af7fe96ffffffef; 0x5ef7f796aa96ea84; 0x0ffffbee0ffffbff; 0xffff000000000000;
   0xffff03ffffff03ff; 0x00000000000003ff; 0x00000000ffffffff; 0xffff0003ffffffff; 0x00000001ffffffff;
   0x000000003fffffff; 0x00000000000007ff].
(** unicode-db.hpp lines 5579-5581. *)
Definition prop_bidi_c_data : list Z :=
  [0x00000000; 0x00061c01; 0x00061d00; 0x00200e01; 0x00201000; 0x00202a01; 0x00202f00; 0x00206601; 0x00206a00].
(** unicode-db.hpp lines 5582-5638. *)
Definition prop_bidi_m_data : bool_trie := mkTrie 32 962 28 27 1 13 5 91 6
  [0x5000030000000000; 0x2800000028000000; 0x0800080000000000; 0x0000000000000000; 0x0000000000000000;
   0x0000000000000000; 0x0000000000000000; 0x0000000000000000; 0x0000000000000000; 0x0000000000000000;
   0x0000000000000000; 0x0000000000000000; 0x0000000000000000; 0x0000000000000000; 0x0000000000000000;
   0x0000000000000000; 0x0000000000000000; 0x0000000000000000; 0x0000000000000000; 0x0000000000000000;
   0x0000000000000000; 0x0000000000000000; 0x0000000000000000; 0x0000000000000000; 0x0000000000000000;
   0x0000000000000000; 0x0000000000000000; 0x0000000000000000; 0x0000000000000000; 0x0000000000000000;
   0x0000000000000000; 0x0000000000000000]
  [1; 0; 0; 0; 0; 0; 0; 0; 0; 0; 0; 0; 0; 0; 0; 0; 0; 0; 0; 0; 0; 0; 0; 0; 0; 0; 0; 0; 0; 0; 2; 0; 0; 0; 0; 0;
   0; 0; 0; 0; 0; 0; 0; 0; 0; 0; 0; 0; 0; 0; 0; 0; 0; 0; 0; 0; 0; 0; 0; 0; 0; 0; 0; 0; 0; 0; 0; 0; 3; 4; 5; 0;
   0; 6; 0; 0; 7; 8; 9; 10; 11; 0; 0; 0; 0; 0; 0; 0; 0; 0; 0; 0; 0; 0; 0; 0; 0; 12; 0; 13; 0; 0; 0; 0; 0; 0;
   14; 15; 16; 17; 18; 19; 0; 0; 0; 20; 0; 0; 0; 0; 0; 0; 0; 0; 21; 22; 0; 0; 0; 0; 0; 0; 23; 0; 0; 0; 0; 0; 0;
   0; 0; 0; 0; 0; 0; 0; 0; 0; 0; 0; 0; 0; 0; 0; 0; 0; 0; 0; 0; 0; 0; 0; 0; 0; 0; 0; 0; 0; 0; 0; 0; 0; 0; 0; 0;
   0; 0; 0; 0; 0; 0; 0; 0; 0; 0; 0; 0; 0; 0; 0; 0; 0; 0; 0; 0; 0; 0; 0; 0; 0; 0; 0; 0; 0; 0; 0; 0; 0; 0; 0; 0;
   0; 0; 0; 0; 0; 0; 0; 0; 0; 0; 0; 0; 0; 0; 0; 0; 0; 0; 0; 0; 0; 0; 0; 0; 0; 0; 0; 0; 0; 0; 0; 0; 0; 0; 0; 0;
   0; 0; 0; 0; 0; 0; 0; 0; 0; 0; 0; 0; 0; 0; 0; 0; 0; 0; 0; 0; 0; 0; 0; 0; 0; 0; 0; 0; 0; 0; 0; 0; 0; 0; 0; 0;
   0; 0; 0; 0; 0; 0; 0; 0; 0; 0; 0; 0; 0; 0; 0; 0; 0; 0; 0; 0; 0; 0; 0; 0; 0; 0; 0; 0; 0; 0; 0; 0; 0; 0; 0; 0;
   0; 0; 0; 0; 0; 0; 0; 0; 0; 0; 0; 0; 0; 0; 0; 0; 0; 0; 0; 0; 0; 0; 0; 0; 0; 0; 0; 0; 0; 0; 0; 0; 0; 0; 0; 0;
   0; 0; 0; 0; 0; 0; 0; 0; 0; 0; 0; 0; 0; 0; 0; 0; 0; 0; 0; 0; 0; 0; 0; 0; 0; 0; 0; 0; 0; 0; 0; 0; 0; 0; 0; 0;
   0; 0; 0; 0; 0; 0; 0; 0; 0; 0; 0; 0; 0; 0; 0; 0; 0; 0; 0; 0; 0; 0; 0; 0; 0; 0; 0; 0; 0; 0; 0; 0; 0; 0; 0; 0;
   0; 0; 0; 0; 0; 0; 0; 0; 0; 0; 0; 0; 0; 0; 0; 0; 0; 0; 0; 0; 0; 0; 0; 0; 0; 0; 0; 0; 0; 0; 0; 0; 0; 0; 0; 0;
   0; 0; 0; 0; 0; 0; 0; 0; 0; 0; 0; 0; 0; 0; 0; 0; 0; 0; 0; 0; 0; 0; 0; 0; 0; 0; 0; 0; 0; 0; 0; 0; 0; 0; 0; 0;
   0; 0; 0; 0; 0; 0; 0; 0; 0; 0; 0; 0; 0; 0; 0; 0; 0; 0; 0; 0; 0; 0; 0; 0; 0; 0; 0; 0; 0; 0; 0; 0; 0; 0; 0; 0;
   0; 0; 0; 0; 0; 0; 0; 0; 0; 0; 0; 0; 0; 0; 0; 0; 0; 0; 0; 0; 0; 0; 0; 0; 0; 0; 0; 0; 0; 0; 0; 0; 0; 0; 0; 0;
   0; 0; 0; 0; 0; 0; 0; 0; 0; 0; 0; 0; 0; 0; 0; 0; 0; 0; 0; 0; 0; 0; 0; 0; 0; 0; 0; 0; 0; 0; 0; 0; 0; 0; 0; 0;
   0; 0; 0; 0; 0; 0; 0; 0; 0; 0; 0; 0; 0; 0; 0; 0; 0; 0; 0; 0; 0; 0; 0; 0; 0; 0; 0; 0; 0; 0; 0; 0; 0; 0; 0; 0;
   0; 0; 0; 0; 0; 0; 0; 0; 0; 0; 0; 0; 0; 0; 0; 0; 0; 0; 0; 0; 0; 0; 0; 0; 0; 0; 0; 0; 0; 0; 0; 0; 0; 0; 0; 0;
   0; 0; 0; 0; 0; 0; 0; 0; 0; 0; 0; 0; 0; 0; 0; 0; 0; 0; 0; 0; 0; 0; 0; 0; 0; 0; 0; 0; 0; 0; 0; 0; 0; 0; 0; 0;
   0; 0; 0; 0; 0; 0; 0; 0; 0; 0; 0; 0; 0; 0; 0; 0; 0; 0; 0; 0; 0; 0; 0; 0; 0; 0; 0; 0; 0; 0; 0; 0; 0; 0; 0; 0;
   0; 0; 0; 0; 0; 0; 0; 0; 0; 0; 0; 0; 0; 0; 0; 0; 0; 0; 0; 0; 0; 0; 0; 0; 0; 0; 0; 0; 0; 0; 0; 0; 0; 0; 0; 0;
   0; 0; 0; 0; 0; 0; 0; 0; 0; 0; 0; 0; 0; 0; 0; 0; 0; 0; 0; 0; 0; 0; 0; 0; 0; 0; 0; 0; 0; 0; 0; 0; 0; 0; 0; 0;
   0; 0; 0; 0; 0; 0; 0; 0; 0; 0; 0; 0; 0; 0; 0; 0; 0; 0; 0; 0; 0; 0; 0; 0; 0; 0; 0; 0; 0; 0; 0; 0; 0; 0; 0; 0;
   0; 0; 0; 0; 0; 0; 0; 0; 0; 0; 0; 0; 0; 0; 0; 0; 0; 0; 0; 0; 0; 0; 0; 0; 0; 0; 0; 0; 0; 0; 0; 0; 0; 0; 0; 0;
   0; 0; 0; 0; 0; 0; 0; 0; 0; 0; 0; 0; 0; 0; 0; 0; 0; 0; 0; 0; 0; 0; 0; 0; 0; 0; 0; 0; 0; 0; 0; 0; 0; 0; 0; 0;
   0; 0; 0; 0; 0; 0; 0; 0; 0; 0; 0; 0; 0; 0; 0; 0; 0; 0; 0; 0; 0; 0; 0; 0; 0; 0; 24; 0; 0; 25; 26]
  [0x0000000000000000; 0x3c00000000000000; 0x0000000018000000; 0x0600000000000000; 0x6000000000000060;
   0x0000000000006000; 0x0000000000000001; 0xfa0ff857bc623f1e; 0xffffcff5803c1fff; 0xc1ffffcc01079fff;
   0xffff3fffffc33e00; 0x0000060300000f00; 0x003fff0000000000; 0x0000fffc70783b79; 0x0100fffdf9fffff8;
   0x33f0033a1f37c23f; 0x70307a53dffffc00; 0xfe19bc3001800000; 0xffffbfcfffffffff; 0x2f88707c507fffff;
   0x4000000000000000; 0x000003ff3000363c; 0x000000001fe00000; 0x000000000ff3ff00; 0x000000307e000000;
   0x2800000050000300; 0x0000000da8000000]
  [1]
  [1; 2; 3; 4; 5]
  [0x0000000000000000; 0x0000000008000000; 0x0000000000200000; 0x0000000000008000; 0x0000000000000200;
   0x0000000000000008].
(** unicode-db.hpp lines 5639-5679. *)
Definition prop_ce_data : bool_trie := mkTrie 0 969 5 11 1 13 3 69 4
  []
  [1; 0; 2; 3; 4; 0; 0; 0; 5; 0; 0; 0; 0; 0; 0; 0; 0; 0; 0; 0; 0; 0; 0; 0; 6; 7; 0; 0; 0; 0; 0; 0; 0; 0; 0; 0;
   0; 0; 0; 0; 0; 0; 0; 0; 0; 0; 0; 0; 0; 0; 0; 0; 0; 0; 0; 0; 0; 0; 0; 0; 0; 0; 0; 0; 0; 0; 0; 0; 0; 0; 0; 0;
   0; 0; 0; 0; 0; 0; 0; 0; 0; 0; 0; 0; 0; 0; 0; 0; 0; 0; 0; 0; 0; 0; 0; 0; 0; 0; 0; 0; 0; 0; 0; 0; 0; 0; 0; 0;
   0; 0; 0; 0; 0; 0; 0; 0; 0; 0; 0; 0; 0; 0; 0; 0; 0; 0; 0; 0; 0; 0; 0; 0; 0; 0; 8; 0; 0; 0; 0; 0; 0; 0; 0; 0;
   0; 0; 0; 0; 0; 0; 0; 0; 0; 0; 0; 0; 0; 0; 0; 0; 0; 0; 0; 0; 0; 0; 0; 0; 0; 0; 0; 0; 0; 0; 0; 0; 0; 0; 0; 0;
   0; 0; 0; 0; 0; 0; 0; 0; 0; 0; 0; 0; 0; 0; 0; 0; 0; 0; 0; 0; 0; 0; 0; 0; 0; 0; 0; 0; 0; 0; 0; 0; 0; 0; 0; 0;
   0; 0; 0; 0; 0; 0; 0; 0; 0; 0; 0; 0; 0; 0; 0; 0; 0; 0; 0; 0; 0; 0; 0; 0; 0; 0; 0; 0; 0; 0; 0; 0; 0; 0; 0; 0;
   0; 0; 0; 0; 0; 0; 0; 0; 0; 0; 0; 0; 0; 0; 0; 0; 0; 0; 0; 0; 0; 0; 0; 0; 0; 0; 0; 0; 0; 0; 0; 0; 0; 0; 0; 0;
   0; 0; 0; 0; 0; 0; 0; 0; 0; 0; 0; 0; 0; 0; 0; 0; 0; 0; 0; 0; 0; 0; 0; 0; 0; 0; 0; 0; 0; 0; 0; 0; 0; 0; 0; 0;
   0; 0; 0; 0; 0; 0; 0; 0; 0; 0; 0; 0; 0; 0; 0; 0; 0; 0; 0; 0; 0; 0; 0; 0; 0; 0; 0; 0; 0; 0; 0; 0; 0; 0; 0; 0;
   0; 0; 0; 0; 0; 0; 0; 0; 0; 0; 0; 0; 0; 0; 0; 0; 0; 0; 0; 0; 0; 0; 0; 0; 0; 0; 0; 0; 0; 0; 0; 0; 0; 0; 0; 0;
   0; 0; 0; 0; 0; 0; 0; 0; 0; 0; 0; 0; 0; 0; 0; 0; 0; 0; 0; 0; 0; 0; 0; 0; 0; 0; 0; 0; 0; 0; 0; 0; 0; 0; 0; 0;
   0; 0; 0; 0; 0; 0; 0; 0; 0; 0; 0; 0; 0; 0; 0; 0; 0; 0; 0; 0; 0; 0; 0; 0; 0; 0; 0; 0; 0; 0; 0; 0; 0; 0; 0; 0;
   0; 0; 0; 0; 0; 0; 0; 0; 0; 0; 0; 0; 0; 0; 0; 0; 0; 0; 0; 0; 0; 0; 0; 0; 0; 0; 0; 0; 0; 0; 0; 0; 0; 0; 0; 0;
   0; 0; 0; 0; 0; 0; 0; 0; 0; 0; 0; 0; 0; 0; 0; 0; 0; 0; 0; 0; 0; 0; 0; 0; 0; 0; 0; 0; 0; 0; 0; 0; 0; 0; 0; 0;
   0; 0; 0; 0; 0; 0; 0; 0; 0; 0; 0; 0; 0; 0; 0; 0; 0; 0; 0; 0; 0; 0; 0; 0; 0; 0; 0; 0; 0; 0; 0; 0; 0; 0; 0; 0;
   0; 0; 0; 0; 0; 0; 0; 0; 0; 0; 0; 0; 0; 0; 0; 0; 0; 0; 0; 0; 0; 0; 0; 0; 0; 0; 0; 0; 0; 0; 0; 0; 0; 0; 0; 0;
   0; 0; 0; 0; 0; 0; 0; 0; 0; 0; 0; 0; 0; 0; 0; 0; 0; 0; 0; 0; 0; 0; 0; 0; 0; 0; 0; 0; 0; 0; 0; 0; 0; 0; 0; 0;
   0; 0; 0; 0; 0; 0; 0; 0; 0; 0; 0; 0; 0; 0; 0; 0; 0; 0; 0; 0; 0; 0; 0; 0; 0; 0; 0; 0; 0; 0; 0; 0; 0; 0; 0; 0;
   0; 0; 0; 0; 0; 0; 0; 0; 0; 0; 0; 0; 0; 0; 0; 0; 0; 0; 0; 0; 0; 0; 0; 0; 0; 0; 0; 0; 0; 0; 0; 0; 0; 0; 0; 0;
   0; 0; 0; 0; 0; 0; 0; 0; 0; 0; 0; 0; 0; 0; 0; 0; 0; 0; 0; 0; 0; 0; 0; 0; 0; 0; 0; 0; 0; 0; 0; 0; 0; 0; 0; 0;
   0; 0; 0; 0; 0; 0; 0; 0; 0; 0; 0; 0; 0; 0; 0; 0; 0; 0; 0; 0; 0; 0; 0; 0; 0; 0; 0; 0; 0; 0; 0; 0; 0; 0; 0; 0;
   0; 0; 0; 0; 0; 0; 0; 0; 0; 0; 0; 0; 0; 0; 0; 0; 0; 0; 0; 0; 0; 0; 0; 0; 0; 0; 0; 0; 0; 0; 0; 0; 0; 0; 0; 0;
   0; 0; 0; 0; 0; 0; 0; 0; 0; 0; 0; 0; 0; 0; 0; 0; 0; 0; 0; 0; 0; 0; 0; 0; 0; 0; 0; 0; 0; 0; 0; 0; 0; 0; 0; 0;
   0; 0; 0; 0; 0; 0; 0; 0; 0; 0; 0; 0; 0; 0; 0; 0; 0; 0; 0; 0; 0; 0; 0; 0; 0; 0; 0; 0; 0; 0; 0; 0; 0; 0; 0; 0;
   0; 0; 0; 0; 0; 0; 0; 0; 0; 0; 0; 0; 0; 0; 0; 0; 0; 0; 0; 0; 0; 0; 0; 0; 0; 0; 0; 0; 0; 0; 0; 0; 0; 0; 0; 0;
   0; 0; 0; 0; 0; 0; 0; 0; 0; 0; 0; 0; 0; 0; 0; 0; 0; 0; 0; 0; 0; 0; 0; 0; 0; 0; 0; 0; 0; 0; 0; 9; 10]
  [0x0000000000000000; 0x00000000ff000000; 0x00000000b0000000; 0x0048000000000000; 0x000000004e000000;
   0x0000000030000000; 0x0140020010842008; 0x0200108420080000; 0x0000000010000000; 0x5f7ffc00a0000000;
   0x0000000000007fdb]
  [1]
  [1; 2; 3]
  [0x0000000000000000; 0x0000001fc0000000; 0xf800000000000000; 0x0000000000000001].
(** unicode-db.hpp lines 5680-5739. *)
Definition prop_comp_ex_data : bool_trie := mkTrie 32 969 5 21 19 13 100 69 6
  [0x0000000000000000; 0x0000000000000000; 0x0000000000000000; 0x0000000000000000; 0x0000000000000000;
   0x0000000000000000; 0x0000000000000000; 0x0000000000000000; 0x0000000000000000; 0x0000000000000000;
   0x0000000000000000; 0x0000000000000000; 0x0000000000000000; 0x401000000000001b; 0x0000000000000080;
   0x0000000000000000; 0x0000000000000000; 0x0000000000000000; 0x0000000000000000; 0x0000000000000000;
   0x0000000000000000; 0x0000000000000000; 0x0000000000000000; 0x0000000000000000; 0x0000000000000000;
   0x0000000000000000; 0x0000000000000000; 0x0000000000000000; 0x0000000000000000; 0x0000000000000000;
   0x0000000000000000; 0x0000000000000000]
  [1; 0; 2; 3; 4; 0; 0; 0; 5; 0; 0; 0; 0; 0; 0; 0; 0; 0; 0; 0; 0; 0; 0; 0; 6; 7; 0; 0; 0; 0; 0; 0; 0; 0; 0; 0;
   0; 0; 0; 0; 0; 0; 0; 0; 0; 0; 0; 0; 0; 0; 0; 0; 0; 0; 0; 0; 0; 0; 0; 0; 0; 0; 0; 0; 0; 0; 0; 0; 0; 0; 0; 0;
   0; 0; 0; 0; 0; 0; 0; 0; 0; 0; 0; 0; 0; 0; 0; 0; 8; 9; 10; 11; 0; 0; 0; 12; 0; 0; 0; 0; 0; 0; 0; 13; 0; 0; 0;
   0; 0; 0; 0; 0; 0; 0; 0; 0; 0; 0; 0; 0; 0; 0; 0; 0; 0; 0; 0; 0; 0; 0; 0; 0; 0; 0; 14; 0; 0; 0; 0; 0; 0; 0; 0;
   0; 0; 0; 0; 0; 0; 0; 0; 0; 0; 0; 0; 0; 0; 0; 0; 0; 0; 0; 0; 0; 0; 0; 0; 0; 0; 0; 0; 0; 0; 0; 0; 0; 0; 0; 0;
   0; 0; 0; 0; 0; 0; 0; 0; 0; 0; 0; 0; 0; 0; 0; 0; 0; 0; 0; 0; 0; 0; 0; 0; 0; 0; 0; 0; 0; 0; 0; 0; 0; 0; 0; 0;
   0; 0; 0; 0; 0; 0; 0; 0; 0; 0; 0; 0; 0; 0; 0; 0; 0; 0; 0; 0; 0; 0; 0; 0; 0; 0; 0; 0; 0; 0; 0; 0; 0; 0; 0; 0;
   0; 0; 0; 0; 0; 0; 0; 0; 0; 0; 0; 0; 0; 0; 0; 0; 0; 0; 0; 0; 0; 0; 0; 0; 0; 0; 0; 0; 0; 0; 0; 0; 0; 0; 0; 0;
   0; 0; 0; 0; 0; 0; 0; 0; 0; 0; 0; 0; 0; 0; 0; 0; 0; 0; 0; 0; 0; 0; 0; 0; 0; 0; 0; 0; 0; 0; 0; 0; 0; 0; 0; 0;
   0; 0; 0; 0; 0; 0; 0; 0; 0; 0; 0; 0; 0; 0; 0; 0; 0; 0; 0; 0; 0; 0; 0; 0; 0; 0; 0; 0; 0; 0; 0; 0; 0; 0; 0; 0;
   0; 0; 0; 0; 0; 0; 0; 0; 0; 0; 0; 0; 0; 0; 0; 0; 0; 0; 0; 0; 0; 0; 0; 0; 0; 0; 0; 0; 0; 0; 0; 0; 0; 0; 0; 0;
   0; 0; 0; 0; 0; 0; 0; 0; 0; 0; 0; 0; 0; 0; 0; 0; 0; 0; 0; 0; 0; 0; 0; 0; 0; 0; 0; 0; 0; 0; 0; 0; 0; 0; 0; 0;
   0; 0; 0; 0; 0; 0; 0; 0; 0; 0; 0; 0; 0; 0; 0; 0; 0; 0; 0; 0; 0; 0; 0; 0; 0; 0; 0; 0; 0; 0; 0; 0; 0; 0; 0; 0;
   0; 0; 0; 0; 0; 0; 0; 0; 0; 0; 0; 0; 0; 0; 0; 0; 0; 0; 0; 0; 0; 0; 0; 0; 0; 0; 0; 0; 0; 0; 0; 0; 0; 0; 0; 0;
   0; 0; 0; 0; 0; 0; 0; 0; 0; 0; 0; 0; 0; 0; 0; 0; 0; 0; 0; 0; 0; 0; 0; 0; 0; 0; 0; 0; 0; 0; 0; 0; 0; 0; 0; 0;
   0; 0; 0; 0; 0; 0; 0; 0; 0; 0; 0; 0; 0; 0; 0; 0; 0; 0; 0; 0; 0; 0; 0; 0; 0; 0; 0; 0; 0; 0; 0; 0; 0; 0; 0; 0;
   0; 0; 0; 0; 0; 0; 0; 0; 0; 0; 0; 0; 0; 0; 0; 0; 0; 0; 0; 0; 0; 0; 0; 0; 0; 0; 0; 0; 0; 0; 0; 0; 0; 0; 0; 0;
   0; 0; 0; 0; 0; 0; 0; 0; 0; 0; 0; 0; 0; 0; 0; 0; 0; 0; 0; 0; 0; 0; 0; 0; 0; 0; 0; 0; 0; 0; 0; 0; 0; 0; 0; 0;
   0; 0; 0; 0; 0; 0; 0; 0; 0; 0; 0; 0; 0; 0; 0; 0; 0; 0; 0; 0; 0; 0; 0; 0; 0; 0; 0; 0; 0; 0; 0; 0; 0; 0; 0; 0;
   0; 0; 0; 0; 0; 0; 0; 0; 0; 0; 0; 0; 0; 0; 0; 0; 0; 0; 0; 0; 0; 0; 0; 0; 0; 0; 0; 0; 0; 0; 0; 0; 0; 0; 0; 0;
   0; 0; 0; 0; 0; 0; 0; 0; 0; 0; 0; 0; 0; 0; 0; 0; 0; 0; 0; 0; 0; 0; 0; 0; 0; 0; 0; 0; 0; 0; 0; 0; 0; 0; 0; 0;
   0; 0; 0; 0; 0; 0; 0; 0; 0; 0; 0; 0; 0; 0; 0; 0; 0; 0; 0; 0; 0; 0; 0; 0; 0; 0; 0; 0; 0; 0; 0; 0; 0; 0; 0; 0;
   0; 0; 0; 0; 0; 0; 0; 0; 0; 0; 0; 0; 0; 0; 0; 0; 0; 0; 0; 0; 0; 0; 0; 0; 0; 0; 0; 0; 0; 0; 0; 0; 0; 0; 0; 0;
   0; 0; 0; 0; 0; 0; 0; 0; 0; 0; 0; 0; 0; 0; 0; 0; 0; 0; 0; 0; 0; 0; 0; 0; 0; 0; 0; 0; 0; 0; 0; 0; 0; 0; 0; 0;
   0; 0; 0; 0; 0; 0; 0; 0; 0; 0; 0; 0; 0; 0; 0; 0; 0; 0; 0; 0; 0; 0; 0; 0; 0; 0; 0; 0; 0; 0; 0; 0; 0; 0; 0; 0;
   0; 0; 0; 0; 0; 0; 0; 0; 0; 0; 0; 0; 0; 0; 0; 0; 0; 0; 0; 0; 0; 0; 0; 0; 0; 0; 0; 0; 0; 0; 0; 0; 0; 0; 0; 0;
   0; 0; 0; 0; 0; 0; 0; 0; 0; 0; 0; 0; 0; 0; 0; 0; 0; 0; 0; 0; 0; 0; 0; 0; 15; 15; 15; 15; 16; 17; 15; 18; 19;
   20]
  [0x0000000000000000; 0x00000000ff000000; 0x00000000b0000000; 0x0048000000000000; 0x000000004e000000;
   0x0000000030000000; 0x0168020010842008; 0x0200108420080002; 0x2aaa000000000000; 0x4800000000000000;
   0x2a00c80808080a00; 0x0000000000000003; 0x00000c4000000000; 0x0000060000000000; 0x0000000010000000;
   0xffffffffffffffff; 0xfffffc657fe53fff; 0xffff3fffffffffff; 0x0000000003ffffff; 0x5f7ffc00a0000000;
   0x0000000000007fdb]
  [1; 0; 0; 0; 0; 0; 0; 0; 0; 0; 0; 0; 0; 0; 0; 0; 0; 0; 2]
  [1; 2; 3; 0; 0; 0; 0; 0; 0; 0; 0; 0; 0; 0; 0; 0; 0; 0; 0; 0; 0; 0; 0; 0; 0; 0; 0; 0; 0; 0; 0; 0; 0; 0; 0; 0;
   0; 0; 0; 0; 0; 0; 0; 0; 0; 0; 0; 0; 0; 0; 0; 0; 0; 0; 0; 0; 0; 0; 0; 0; 0; 0; 0; 0; 0; 0; 0; 0; 0; 0; 0; 0;
   0; 0; 0; 0; 0; 0; 0; 0; 0; 0; 0; 0; 0; 0; 0; 0; 0; 0; 0; 4; 4; 4; 4; 4; 4; 4; 4; 5]
  [0x0000000000000000; 0x0000001fc0000000; 0xf800000000000000; 0x0000000000000001; 0xffffffffffffffff;
   0x000000003fffffff].
(** unicode-db.hpp lines 5740-5743. *)
Definition prop_dash_data : list Z :=
  [0x1400; 0x1806; 0x058a; 0x208b; 0xff0d; 0x2010; 0x2011; 0x2012; 0x2013; 0x2014; 0x2015; 0x2212; 0x2e17;
   0x2e1a; 0x301c; 0x30a0; 0x002d; 0x10ead; 0x3030; 0xfe31; 0xfe32; 0x2e3a; 0x2e3b; 0x05be; 0x2e40; 0x2053;
   0xfe58; 0x2e5d; 0xfe63; 0x207b].
(** unicode-db.hpp lines 5744-5746. *)
Definition prop_dep_data : list Z :=
  [0xe0001; 0x17a3; 0x17a4; 0x0149; 0x206a; 0x206b; 0x206c; 0x206d; 0x206e; 0x206f; 0x2329; 0x232a; 0x0673;
   0x0f77; 0x0f79].
(** unicode-db.hpp lines 5747-5855. *)
Definition prop_dia_data : bool_trie := mkTrie 32 991 1 64 255 1 475 11 42
  [0x0000000000000000; 0x0000000140000000; 0x0190810000000000; 0x0000000000000000; 0x0000000000000000;
   0x0000000000000000; 0x0000000000000000; 0x0000000000000000; 0x0000000000000000; 0x0000000000000000;
   0xffff000000000000; 0xffffffffffffffff; 0xffffffffffffffff; 0x04300007e0ff7fff; 0x0000000000000030;
   0x0000000000000000; 0x0000000000000000; 0x0000000000000000; 0x00000000000000f8; 0x0000000000000000;
   0x0000000000000000; 0x0000000002000000; 0xbffffffbfffe0000; 0x0000000000000016; 0x0000000000000000;
   0x000000000187f800; 0x0000000000000000; 0x00001c6180000000; 0xffff000000000000; 0x00000000000007ff;
   0x0001ffc000000000; 0x003ff80000000000]
  [1; 2; 3; 4; 5; 4; 6; 4; 6; 4; 7; 4; 8; 1; 6; 4; 6; 4; 6; 9; 6; 1; 10; 1; 11; 12; 13; 14; 1; 15; 16; 17; 18;
   19; 1; 1; 1; 1; 1; 1; 1; 1; 1; 1; 20; 1; 1; 1; 1; 1; 1; 1; 1; 1; 1; 1; 1; 1; 1; 21; 1; 1; 22; 1; 1; 1; 1;
   23; 1; 1; 1; 1; 24; 25; 26; 27; 28; 29; 1; 30; 31; 1; 32; 33; 34; 1; 35; 1; 1; 1; 1; 1; 1; 36; 37; 1; 1; 1;
   1; 1; 1; 1; 1; 1; 1; 1; 1; 1; 1; 1; 1; 1; 1; 1; 1; 1; 1; 1; 1; 1; 1; 1; 1; 1; 1; 1; 1; 1; 1; 1; 1; 1; 1; 1;
   1; 1; 1; 1; 1; 1; 1; 1; 1; 1; 1; 1; 38; 1; 1; 1; 1; 39; 1; 1; 1; 1; 1; 1; 1; 40; 1; 41; 4; 1; 1; 1; 1; 1; 1;
   1; 1; 1; 1; 1; 1; 1; 1; 1; 1; 1; 1; 1; 1; 1; 1; 1; 1; 1; 1; 1; 1; 1; 1; 1; 1; 1; 1; 1; 1; 1; 1; 1; 1; 1; 1;
   1; 1; 1; 1; 1; 1; 1; 1; 1; 1; 1; 1; 1; 1; 1; 1; 1; 1; 1; 1; 1; 1; 1; 1; 1; 1; 1; 1; 1; 1; 1; 1; 1; 1; 1; 1;
   1; 1; 1; 1; 1; 1; 1; 1; 1; 1; 1; 1; 1; 1; 1; 1; 1; 1; 1; 1; 1; 1; 1; 1; 1; 1; 1; 1; 1; 1; 1; 1; 1; 1; 1; 1;
   1; 1; 1; 1; 1; 1; 1; 1; 1; 1; 1; 1; 1; 1; 1; 1; 1; 1; 1; 1; 1; 1; 1; 1; 1; 1; 1; 1; 1; 1; 1; 1; 1; 1; 1; 1;
   1; 1; 1; 1; 1; 1; 1; 1; 1; 1; 1; 1; 1; 1; 1; 1; 1; 1; 1; 1; 1; 1; 1; 1; 1; 1; 1; 1; 1; 1; 1; 1; 1; 1; 1; 1;
   1; 1; 1; 1; 1; 1; 1; 1; 1; 1; 1; 1; 1; 1; 1; 1; 1; 1; 1; 1; 1; 1; 1; 1; 1; 1; 1; 1; 1; 1; 1; 1; 1; 1; 1; 1;
   1; 1; 1; 1; 1; 1; 1; 1; 1; 1; 1; 1; 1; 1; 1; 1; 1; 1; 1; 1; 1; 1; 1; 1; 1; 1; 1; 1; 1; 1; 1; 1; 1; 1; 1; 1;
   1; 1; 1; 1; 1; 1; 1; 1; 1; 1; 1; 1; 1; 1; 1; 1; 1; 1; 1; 1; 1; 1; 1; 1; 1; 1; 1; 1; 1; 1; 1; 1; 1; 1; 1; 1;
   1; 1; 1; 1; 1; 1; 1; 1; 1; 1; 1; 1; 1; 1; 1; 1; 1; 1; 1; 1; 1; 1; 1; 1; 1; 1; 1; 1; 1; 1; 1; 1; 1; 1; 1; 1;
   1; 1; 1; 1; 1; 1; 1; 1; 1; 1; 1; 1; 1; 1; 1; 1; 1; 1; 1; 1; 1; 1; 1; 1; 1; 1; 1; 1; 1; 1; 1; 1; 1; 1; 1; 1;
   1; 1; 1; 1; 1; 1; 1; 1; 1; 1; 1; 1; 1; 1; 1; 1; 1; 1; 1; 1; 1; 1; 1; 1; 1; 1; 1; 1; 1; 1; 1; 1; 1; 1; 1; 1;
   1; 1; 1; 1; 1; 1; 1; 1; 1; 1; 1; 1; 1; 1; 1; 1; 1; 1; 1; 1; 1; 1; 1; 1; 1; 1; 1; 1; 1; 1; 1; 1; 1; 1; 1; 1;
   1; 1; 1; 1; 1; 1; 1; 1; 1; 1; 1; 1; 1; 1; 1; 1; 1; 1; 1; 1; 1; 1; 1; 1; 1; 1; 1; 1; 1; 1; 1; 42; 43; 44; 45;
   1; 46; 47; 1; 1; 1; 48; 49; 50; 51; 52; 1; 53; 54; 55; 1; 56; 1; 57; 1; 1; 1; 1; 1; 1; 1; 1; 1; 1; 1; 1; 1;
   1; 1; 1; 1; 1; 1; 1; 1; 1; 1; 1; 1; 1; 1; 1; 1; 1; 1; 1; 1; 1; 1; 1; 1; 1; 1; 1; 1; 1; 1; 1; 1; 1; 1; 1; 1;
   1; 1; 1; 1; 1; 1; 1; 1; 1; 1; 1; 1; 1; 1; 1; 1; 1; 1; 1; 1; 1; 1; 1; 1; 1; 1; 1; 1; 1; 1; 1; 1; 1; 1; 1; 1;
   1; 1; 1; 1; 1; 1; 1; 1; 1; 1; 1; 1; 1; 1; 1; 1; 1; 1; 1; 1; 1; 1; 1; 1; 1; 1; 1; 1; 1; 1; 1; 1; 1; 1; 1; 1;
   1; 1; 1; 1; 1; 1; 1; 1; 1; 1; 1; 1; 1; 1; 1; 1; 1; 1; 1; 1; 1; 1; 1; 1; 1; 1; 1; 1; 1; 1; 1; 1; 1; 1; 1; 1;
   1; 1; 1; 1; 1; 1; 1; 1; 1; 1; 1; 1; 1; 1; 1; 1; 1; 1; 1; 1; 1; 1; 1; 1; 1; 1; 1; 1; 1; 1; 1; 1; 1; 1; 1; 1;
   1; 1; 1; 1; 1; 1; 1; 1; 1; 1; 1; 1; 1; 1; 1; 1; 1; 1; 1; 1; 1; 1; 1; 1; 1; 1; 1; 1; 1; 1; 1; 1; 1; 1; 1; 1;
   1; 1; 1; 1; 1; 1; 1; 1; 1; 1; 1; 1; 1; 1; 1; 1; 1; 1; 1; 1; 1; 1; 1; 1; 1; 1; 1; 1; 1; 1; 1; 1; 1; 1; 1; 1;
   1; 1; 1; 1; 1; 1; 1; 1; 1; 1; 1; 1; 1; 1; 1; 1; 1; 1; 1; 1; 1; 1; 1; 1; 1; 1; 1; 1; 1; 1; 1; 1; 1; 1; 1; 1;
   1; 1; 1; 1; 1; 1; 1; 1; 1; 1; 1; 1; 1; 1; 1; 58; 1; 1; 1; 1; 1; 1; 1; 1; 1; 1; 1; 59; 1; 1; 1; 60; 61; 62;
   63]
  [0x0000000003000000; 0x0000000000000000; 0x00000000ff000000; 0x7ffffff80007fe00; 0x1000000000000000;
   0x00020000001e2000; 0x0000000000002000; 0xe000000000002000; 0x0000000000202000; 0x1800000000000000;
   0x0000000000000400; 0x0000000000005f80; 0x0400000000000000; 0x0000000000001f00; 0xc2a0000003000000;
   0x00000000000000dc; 0x0000000000000040; 0x0680000000000000; 0x00003e1800000000; 0x000000000c00bf80;
   0x00000000e0000000; 0x0000000000300000; 0x00000000200ffe00; 0x0e00000000000000; 0x9fe0000000000000;
   0x7fff000000000000; 0x0000000000000ffe; 0x0010000000000000; 0x000ff80000000010; 0x00000c0000000000;
   0x00c0000000000000; 0x3f00000000000000; 0x039021ffffff0000; 0xfffff00000000000; 0x000007ffffffffff;
   0xffe000000000fff0; 0xa000000000000000; 0x6000e000e000e003; 0x0003800000000000; 0x0000800000000000;
   0x0000fc0000000000; 0x000000001e000000; 0xb000800000000000; 0x0000000030000000; 0x0003000000000000;
   0x00000003ffffffff; 0x0000000000000700; 0x0300000000000000; 0x0003ffff00000010; 0x0000780000000000;
   0x0000000000080000; 0x0008000000000000; 0x0000002000000001; 0x3800000000000000; 0x8000000000000000;
   0x0040000000000007; 0x00000e00f8000000; 0x0000300000000000; 0x0000000040000000; 0x0000ffff00000000;
   0x4000000000000000; 0x0001000000000001; 0x00000000c0000000; 0x0000000800000000]
  [1; 2; 2; 2; 2; 3; 2; 2; 2; 4; 2; 5; 6; 7; 2; 2; 2; 2; 2; 2; 2; 2; 2; 2; 2; 2; 2; 2; 2; 2; 2; 2; 2; 2; 2; 2;
   2; 2; 2; 2; 2; 2; 2; 2; 2; 2; 2; 2; 2; 2; 2; 2; 2; 2; 2; 2; 2; 2; 2; 2; 2; 2; 2; 2; 2; 2; 2; 2; 2; 2; 2; 2;
   2; 2; 2; 2; 2; 2; 2; 2; 2; 2; 2; 2; 2; 2; 2; 2; 2; 2; 2; 2; 2; 2; 2; 2; 2; 2; 2; 2; 2; 2; 2; 2; 2; 2; 2; 2;
   2; 2; 2; 2; 2; 2; 2; 2; 2; 2; 2; 2; 2; 2; 2; 2; 2; 2; 2; 2; 2; 2; 2; 2; 2; 2; 2; 2; 2; 2; 2; 2; 2; 2; 2; 2;
   2; 2; 2; 2; 2; 2; 2; 2; 2; 2; 2; 2; 2; 2; 2; 2; 2; 2; 2; 2; 2; 2; 2; 2; 2; 2; 2; 2; 2; 2; 2; 2; 2; 2; 2; 2;
   2; 2; 2; 2; 2; 2; 2; 2; 2; 2; 2; 2; 2; 2; 2; 2; 2; 2; 2; 2; 2; 2; 2; 2; 2; 2; 2; 2; 2; 2; 2; 2; 2; 2; 2; 2;
   2; 2; 2; 2; 2; 2; 2; 2; 2; 2; 2; 2; 2; 2; 2; 2; 2; 2; 2; 2; 2; 2; 2; 2; 2; 2; 2; 2; 2; 2; 2; 2; 2; 2; 2; 2;
   2; 2; 2]
  [1; 0; 0; 0; 0; 0; 0; 0; 0; 0; 0; 0; 0; 0; 0; 0; 0; 0; 0; 2; 0; 0; 0; 0; 0; 0; 0; 0; 0; 0; 0; 0; 3; 0; 0; 0;
   0; 0; 0; 0; 0; 4; 0; 0; 0; 0; 0; 0; 0; 0; 5; 6; 0; 0; 7; 8; 0; 9; 10; 0; 11; 12; 0; 0; 13; 14; 15; 0; 0; 0;
   16; 0; 17; 0; 0; 18; 19; 18; 0; 20; 0; 21; 0; 0; 0; 8; 0; 0; 0; 22; 23; 0; 1; 24; 25; 26; 0; 0; 0; 0; 0; 18;
   0; 0; 0; 0; 27; 28; 0; 0; 0; 0; 0; 0; 0; 0; 0; 0; 0; 0; 0; 0; 0; 0; 0; 0; 0; 0; 0; 0; 0; 0; 0; 0; 0; 0; 0;
   0; 0; 0; 0; 0; 0; 0; 0; 0; 0; 0; 0; 0; 0; 0; 0; 0; 0; 0; 0; 0; 0; 0; 0; 0; 0; 0; 0; 0; 0; 0; 0; 0; 0; 0; 0;
   0; 0; 0; 0; 0; 0; 0; 0; 0; 0; 0; 0; 0; 0; 0; 0; 0; 0; 0; 0; 0; 0; 0; 0; 0; 0; 0; 0; 0; 0; 0; 0; 0; 0; 0; 0;
   0; 0; 0; 0; 0; 0; 0; 0; 0; 0; 0; 0; 0; 0; 0; 29; 30; 0; 0; 0; 0; 0; 0; 0; 0; 0; 0; 0; 0; 0; 0; 0; 0; 0; 31;
   32; 0; 0; 0; 0; 0; 0; 0; 0; 0; 0; 0; 0; 0; 0; 0; 0; 0; 0; 0; 0; 0; 0; 0; 0; 0; 0; 0; 0; 0; 0; 0; 0; 0; 0; 0;
   0; 0; 0; 0; 0; 0; 0; 0; 0; 0; 0; 0; 0; 0; 0; 0; 0; 0; 0; 0; 0; 0; 0; 0; 0; 0; 0; 0; 33; 0; 0; 0; 0; 0; 0; 0;
   0; 0; 0; 0; 0; 0; 0; 0; 0; 0; 0; 0; 0; 0; 0; 0; 0; 0; 0; 0; 0; 0; 0; 0; 0; 0; 0; 0; 0; 0; 0; 0; 0; 0; 0; 0;
   0; 0; 0; 0; 0; 0; 0; 0; 0; 0; 0; 0; 0; 0; 0; 0; 0; 34; 35; 0; 0; 0; 0; 0; 0; 0; 36; 37; 0; 0; 0; 0; 0; 0; 0;
   0; 0; 0; 0; 0; 0; 0; 0; 0; 0; 0; 0; 0; 0; 0; 0; 0; 0; 0; 0; 0; 0; 0; 0; 0; 0; 0; 0; 0; 0; 0; 0; 0; 0; 0; 0;
   0; 0; 0; 0; 0; 0; 0; 0; 0; 0; 0; 0; 0; 0; 0; 0; 0; 0; 30; 0; 0; 0; 0; 0; 38; 39; 0; 0; 0; 0; 0; 0; 0; 0; 0;
   0; 0; 0; 0; 0; 0; 0; 0; 0; 0; 0; 0; 0; 0; 40; 0; 41]
  [0x0000000000000000; 0x0000000100000000; 0x07fdffffffffffbf; 0x0000006000000000; 0x000000fc00000000;
   0x000000000001ffc0; 0x000000000000003c; 0x0001000000000040; 0x0600000000000000; 0x0018000000000000;
   0x0008000000000000; 0x0000000000001c01; 0x0060000000000000; 0x0000060000000000; 0x1000000000000000;
   0x001f1fc000002000; 0x0000000000000044; 0x000000000000000c; 0x8000000000000000; 0x0000000000000001;
   0x00c0000000000000; 0x0000080000000000; 0x6000000000000000; 0x0000000000000008; 0x0010000000000000;
   0x0000000000000080; 0x0000000002000000; 0x0000000000000034; 0x0000000000800000; 0x001f000000000000;
   0x007f000000000000; 0x00000000ffff8000; 0x0003000000000000; 0x6fef000000000000; 0xffff3fffffffffff;
   0x000000000000007f; 0xf807e38000000000; 0x00003c0000000fe7; 0x0000400000000000; 0x0000f00000000000;
   0x00000000007f0000; 0x0000000000000770].
(** unicode-db.hpp lines 5856-5883. *)
Definition prop_emoji_data : bool_trie := mkTrie 32 75 96 22 1 15 44 64 25
  [0x03ff040800000000; 0x0000000000000000; 0x0000420000000000; 0x0000000000000000; 0x0000000000000000;
   0x0000000000000000; 0x0000000000000000; 0x0000000000000000; 0x0000000000000000; 0x0000000000000000;
   0x0000000000000000; 0x0000000000000000; 0x0000000000000000; 0x0000000000000000; 0x0000000000000000;
   0x0000000000000000; 0x0000000000000000; 0x0000000000000000; 0x0000000000000000; 0x0000000000000000;
   0x0000000000000000; 0x0000000000000000; 0x0000000000000000; 0x0000000000000000; 0x0000000000000000;
   0x0000000000000000; 0x0000000000000000; 0x0000000000000000; 0x0000000000000000; 0x0000000000000000;
   0x0000000000000000; 0x0000000000000000]
  [1; 2; 0; 0; 3; 0; 4; 0; 0; 0; 0; 0; 5; 0; 0; 6; 0; 0; 0; 7; 0; 0; 8; 9; 10; 11; 12; 13; 14; 15; 16; 0; 0; 0;
   0; 0; 17; 0; 0; 0; 0; 0; 0; 0; 18; 19; 0; 0; 0; 0; 0; 0; 0; 0; 0; 0; 0; 0; 0; 0; 0; 0; 0; 0; 20; 0; 0; 0; 0;
   0; 0; 0; 0; 0; 21]
  [0x0000000000000000; 0x1000000000000000; 0x0000000000000200; 0x0200000400000000; 0x0000060003f00000;
   0x000001000c000000; 0x070ffe0000008000; 0x0000000000000004; 0x00400c0000000000; 0x7800000000000001;
   0x0700c44d2132401f; 0xc8000169800fff05; 0x60030c831afc0000; 0x27bf0600001ac130; 0x001801022054bf24;
   0x0000001800b85090; 0x8001000200e00000; 0x0030000000000000; 0x00000000180000e0; 0x0000000000210000;
   0x2001000000000000; 0x0000000002800000]
  [1]
  [1; 0; 0; 2; 0; 3; 4; 5; 6; 7; 0; 0; 8; 9; 10; 11; 9; 9; 9; 12; 13; 14; 15; 16; 9; 17; 9; 18; 0; 0; 0; 19; 0;
   0; 0; 0; 20; 21; 9; 9; 0; 22; 23; 24]
  [0x0000000000000000; 0x0000000000000010; 0x0000000000008000; 0xc003000000000000; 0x0000000007fe4000;
   0xffffffc000000000; 0x07fc800004000006; 0x0000000000030000; 0xfffffff3ffffffff; 0xffffffffffffffff;
   0xffffffffcecfffff; 0xffb9ffffffffffff; 0xbfffffffffffffff; 0x3fffffffffffffff; 0x07f980ffffff7e00;
   0x1006013000613c80; 0xfc08810a700e001c; 0x000000000000ffff; 0x1ff91a3fe0e7f83f; 0x00010fff00000000;
   0xf7fffffffffff000; 0xffffffffffffffbf; 0x1f1f000000000000; 0x07ff1fffffff007f; 0x007f00ff03ff003f].
(** unicode-db.hpp lines 5884-5887. *)
Definition prop_emoji_component_data : list Z :=
  [0x00000000; 0x00002301; 0x00002400; 0x00002a01; 0x00002b00; 0x00003001; 0x00003a00; 0x00200d01; 0x00200e00;
   0x0020e301; 0x0020e400; 0x00fe0f01; 0x00fe1000; 0x01f1e601; 0x01f20000; 0x01f3fb01; 0x01f40000; 0x01f9b001;
   0x01f9b400; 0x0e002001; 0x0e008000].
(** unicode-db.hpp lines 5888-5888. *)
Definition prop_emoji_modifier_data : list Z :=
  [0x00000000; 0x01f3fb01; 0x01f40000].
(** unicode-db.hpp lines 5889-5900. *)
Definition prop_emoji_modifier_base_data : bool_trie := mkTrie 0 5 120 4 1 15 30 78 15
  []
  [1; 0; 0; 2; 3]
  [0x0000000000000000; 0x0000000020000000; 0x0200000000000000; 0x0000000000003c00]
  [1]
  [1; 2; 0; 3; 4; 0; 0; 5; 6; 0; 0; 7; 8; 9; 0; 0; 0; 0; 0; 0; 0; 0; 10; 11; 12; 13; 0; 0; 0; 14]
  [0x0000000000000000; 0x0000000000000020; 0x0000000000001c9c; 0x11ffffc00001ffcc; 0x00000400000280ee;
   0x0430000000000000; 0x0000000000610000; 0x000000000000f8e0; 0x0070000800000000; 0x0000000000001001;
   0x73ff0040ff009000; 0x0080000000000000; 0x0b60000000000000; 0x000000003ffee000; 0x007f000000000038].
(** unicode-db.hpp lines 5901-5919. *)
Definition prop_emoji_presentation_data : bool_trie := mkTrie 0 34 108 13 1 15 44 64 27
  []
  [1; 0; 0; 2; 0; 0; 0; 0; 0; 0; 0; 3; 4; 5; 6; 7; 8; 9; 10; 0; 0; 0; 0; 0; 0; 0; 0; 0; 0; 0; 0; 0; 11; 12]
  [0x0000000000000000; 0x000000000c000000; 0x00091e0000000000; 0x6000000000000000; 0x0000000000300000;
   0x80000000000fff00; 0x60000c0200080000; 0x242c040000104030; 0x0000010000000c20; 0x0000000000b85000;
   0x8001000000e00000; 0x0000000018000000; 0x0000000000210000]
  [1]
  [1; 0; 0; 2; 0; 0; 3; 4; 5; 6; 0; 0; 7; 8; 9; 10; 11; 12; 13; 14; 15; 16; 17; 18; 13; 19; 13; 20; 0; 0; 0;
   21; 0; 0; 0; 0; 22; 23; 13; 13; 0; 24; 25; 26]
  [0x0000000000000000; 0x0000000000000010; 0x0000000000008000; 0x0000000007fe4000; 0xffffffc000000000;
   0x077c800004000002; 0x0000000000030000; 0xffbfe001ffffffff; 0xdfffffffffffffff; 0xffffffff000fffff;
   0xff11ffff000f87ff; 0x7fffffffffffffff; 0xfffffffffffffffd; 0xffffffffffffffff; 0x9fffffffffffffff;
   0x3fffffffffffffff; 0x040000ffffff7800; 0x0000001000600000; 0xf800000000000000; 0x000000000000ffff;
   0x1ff01800e0e7103f; 0x00010fff00000000; 0xf7fffffffffff000; 0xffffffffffffffbf; 0x1f1f000000000000;
   0x07ff1fffffff007f; 0x007f00ff03ff003f].
(** unicode-db.hpp lines 5920-5925. *)
Definition prop_ext_data : list Z :=
  [0x10781; 0x10782; 0x3005; 0x180a; 0xa60c; 0xa015; 0x11a98; 0x309d; 0x309e; 0x1aa7; 0x3031; 0x3032; 0x3033;
   0x3034; 0x3035; 0x1c36; 0x00b7; 0x1e13c; 0x1e13d; 0x0640; 0x16b42; 0x1843; 0x16b43; 0x1e944; 0x0e46; 0x0ec6;
   0x115c6; 0x115c7; 0x115c8; 0x1e945; 0x1e946; 0xa9cf; 0x02d0; 0x02d1; 0x0b55; 0xaadd; 0x1135d; 0x16fe0;
   0x16fe1; 0x16fe3; 0xa9e6; 0xaa70; 0xff70; 0xaaf3; 0xaaf4; 0x07fa; 0x1c7b; 0x30fc; 0x30fd; 0x30fe].
(** unicode-db.hpp lines 5926-5953. *)
Definition prop_extended_pictographic_data : bool_trie := mkTrie 32 75 96 22 1 15 44 64 22
  [0x0000000000000000; 0x0000000000000000; 0x0000420000000000; 0x0000000000000000; 0x0000000000000000;
   0x0000000000000000; 0x0000000000000000; 0x0000000000000000; 0x0000000000000000; 0x0000000000000000;
   0x0000000000000000; 0x0000000000000000; 0x0000000000000000; 0x0000000000000000; 0x0000000000000000;
   0x0000000000000000; 0x0000000000000000; 0x0000000000000000; 0x0000000000000000; 0x0000000000000000;
   0x0000000000000000; 0x0000000000000000; 0x0000000000000000; 0x0000000000000000; 0x0000000000000000;
   0x0000000000000000; 0x0000000000000000; 0x0000000000000000; 0x0000000000000000; 0x0000000000000000;
   0x0000000000000000; 0x0000000000000000]
  [1; 2; 0; 0; 3; 0; 4; 0; 0; 0; 0; 0; 5; 0; 6; 7; 0; 0; 0; 8; 0; 0; 9; 10; 11; 12; 13; 12; 14; 15; 16; 0; 0;
   0; 0; 0; 17; 0; 0; 0; 0; 0; 0; 0; 18; 19; 0; 0; 0; 0; 0; 0; 0; 0; 0; 0; 0; 0; 0; 0; 0; 0; 0; 0; 20; 0; 0; 0;
   0; 0; 0; 0; 0; 0; 21]
  [0x0000000000000000; 0x1000000000000000; 0x0000000000000200; 0x0200000400000000; 0x0000060003f00000;
   0x000001000c000000; 0x0000000000000100; 0x070ffe0000008000; 0x0000000000000004; 0x00400c0000000000;
   0x7800000000000001; 0xfffffffffff7ffbf; 0xffffffffffffffff; 0xffffffffffff003f; 0x001801022057ff3f;
   0x000000f800b85090; 0x8001000200e00000; 0x0030000000000000; 0x00000000180000e0; 0x0000000000210000;
   0x2001000000000000; 0x0000000002800000]
  [1]
  [1; 2; 3; 4; 5; 6; 7; 0; 8; 9; 0; 0; 2; 2; 2; 10; 2; 2; 2; 2; 11; 12; 2; 2; 2; 13; 2; 14; 0; 0; 0; 15; 0; 0;
   16; 0; 17; 18; 2; 2; 2; 19; 20; 21]
  [0x0000000000000000; 0xffff0fffffffffff; 0xffffffffffffffff; 0xfffe7fff000fffff; 0x003ffffffffefffe;
   0x000080000000e000; 0xc003f00000000000; 0x0000200007fe4000; 0x07fc800004000006; 0x0000003f00030000;
   0x07ffffffffffffff; 0x3fffffffffffffff; 0xffffffffffffffc0; 0x000000000000ffff; 0x1fff1fffe0ffffff;
   0x00010fff01e00000; 0x0003000000000000; 0xf7fffffffffff000; 0xffffffffffffffbf; 0x1f1f3fff000fffff;
   0x07ff1fffffff007f; 0x007f00ff03ff003f].
(** unicode-db.hpp lines 5954-6178. *)
Definition prop_gr_base_data : bool_trie := mkTrie 32 991 1 131 255 1 1343 1 168
  [0xffffffff00000000; 0x7fffffffffffffff; 0xffffdfff00000000; 0xffffffffffffffff; 0xffffffffffffffff;
   0xffffffffffffffff; 0xffffffffffffffff; 0xffffffffffffffff; 0xffffffffffffffff; 0xffffffffffffffff;
   0xffffffffffffffff; 0xffffffffffffffff; 0x0000000000000000; 0xfcff000000000000; 0xfffffffbffffd7f0;
   0xffffffffffffffff; 0xffffffffffffffff; 0xffffffffffffffff; 0xfffffffffffffc07; 0xffffffffffffffff;
   0xfffeffffffffffff; 0xfffffffffe7fffff; 0x400000000000e7ff; 0x001f87ffffff0049; 0xffffffffe800ffc0;
   0xfffeffff000007ff; 0xffffffffffffffff; 0xffffc260403fffff; 0x0000fffffffd3fff; 0xffffffffffffe000;
   0x0002003fffffffff; 0xc7f007ffffffffff]
  [1; 2; 3; 4; 5; 6; 7; 8; 9; 10; 11; 12; 13; 14; 15; 16; 17; 18; 19; 20; 21; 22; 23; 24; 25; 26; 27; 28; 29;
   30; 31; 32; 33; 34; 35; 36; 36; 36; 36; 36; 37; 38; 39; 40; 41; 42; 43; 36; 36; 36; 36; 36; 36; 36; 36; 36;
   36; 44; 45; 46; 47; 48; 49; 50; 45; 51; 52; 53; 54; 55; 56; 57; 58; 59; 60; 61; 62; 63; 64; 65; 66; 67; 68;
   36; 36; 36; 60; 36; 36; 36; 36; 69; 70; 71; 72; 73; 74; 75; 76; 36; 36; 77; 36; 36; 36; 36; 36; 36; 36; 36;
   36; 78; 79; 36; 36; 36; 36; 36; 36; 36; 36; 36; 36; 36; 36; 36; 36; 36; 36; 36; 36; 36; 36; 36; 36; 36; 36;
   36; 36; 36; 80; 81; 36; 36; 36; 36; 82; 83; 84; 85; 86; 36; 87; 88; 89; 36; 36; 36; 90; 91; 92; 93; 36; 94;
   36; 95; 96; 97; 36; 36; 36; 36; 36; 36; 36; 36; 36; 36; 36; 36; 36; 36; 36; 36; 36; 36; 36; 36; 36; 36; 36;
   36; 36; 36; 36; 36; 36; 36; 36; 36; 36; 36; 36; 36; 36; 36; 36; 36; 36; 36; 36; 36; 36; 36; 36; 36; 36; 36;
   36; 36; 36; 36; 36; 36; 36; 36; 36; 36; 36; 36; 36; 36; 36; 36; 36; 36; 36; 36; 36; 36; 36; 36; 36; 36; 36;
   36; 36; 36; 36; 36; 36; 36; 36; 36; 36; 36; 36; 36; 36; 36; 36; 36; 36; 36; 36; 36; 36; 36; 36; 36; 36; 36;
   36; 36; 36; 36; 36; 36; 36; 36; 36; 36; 36; 36; 36; 36; 36; 36; 36; 36; 36; 36; 36; 36; 36; 36; 36; 36; 36;
   36; 36; 36; 36; 36; 36; 36; 36; 36; 36; 36; 36; 36; 36; 36; 36; 36; 36; 36; 36; 36; 36; 36; 36; 36; 36; 36;
   36; 36; 36; 36; 36; 36; 36; 36; 36; 36; 36; 36; 36; 36; 36; 36; 36; 36; 36; 36; 36; 36; 36; 36; 36; 36; 36;
   36; 36; 36; 36; 36; 36; 36; 36; 36; 36; 36; 36; 36; 36; 36; 36; 36; 36; 36; 36; 36; 36; 36; 36; 36; 36; 36;
   36; 36; 36; 36; 36; 36; 36; 36; 36; 36; 36; 36; 36; 36; 36; 36; 36; 36; 36; 36; 36; 36; 36; 36; 36; 36; 36;
   36; 36; 36; 36; 36; 36; 36; 36; 36; 36; 36; 36; 36; 36; 36; 36; 36; 36; 36; 36; 36; 36; 36; 36; 36; 36; 36;
   36; 36; 36; 36; 36; 36; 36; 36; 36; 36; 36; 36; 36; 36; 36; 36; 36; 36; 36; 36; 36; 36; 36; 36; 36; 36; 36;
   36; 36; 36; 36; 36; 36; 36; 36; 36; 36; 36; 36; 36; 36; 36; 36; 36; 36; 36; 36; 36; 36; 36; 36; 36; 36; 36;
   36; 36; 36; 36; 36; 36; 36; 36; 36; 36; 36; 36; 36; 36; 36; 36; 36; 36; 36; 36; 36; 36; 36; 36; 36; 36; 36;
   36; 36; 36; 36; 36; 36; 36; 36; 36; 36; 36; 36; 36; 36; 36; 36; 36; 36; 36; 36; 36; 36; 36; 36; 36; 36; 36;
   36; 36; 36; 36; 36; 36; 36; 36; 36; 36; 36; 36; 36; 36; 36; 36; 36; 36; 36; 36; 36; 36; 36; 36; 36; 36; 36;
   36; 36; 36; 36; 36; 36; 36; 36; 36; 36; 36; 36; 36; 36; 36; 36; 36; 36; 36; 36; 36; 36; 36; 36; 36; 36; 36;
   36; 36; 36; 36; 36; 36; 36; 36; 36; 36; 36; 36; 36; 36; 36; 36; 36; 36; 36; 36; 36; 36; 36; 36; 36; 36; 36;
   36; 36; 98; 99; 36; 36; 36; 36; 100; 101; 102; 103; 36; 36; 36; 104; 105; 106; 36; 107; 108; 109; 110; 111;
   112; 113; 114; 115; 116; 55; 36; 117; 36; 36; 36; 36; 36; 36; 36; 36; 36; 36; 36; 36; 36; 36; 36; 36; 36;
   36; 36; 36; 36; 36; 36; 36; 36; 36; 36; 36; 36; 36; 36; 36; 36; 36; 36; 36; 36; 36; 36; 36; 36; 36; 36; 36;
   36; 36; 36; 36; 36; 36; 36; 36; 36; 36; 36; 36; 36; 36; 36; 36; 36; 36; 36; 36; 36; 36; 36; 36; 36; 36; 36;
   36; 36; 36; 36; 36; 36; 36; 36; 36; 36; 36; 36; 36; 36; 36; 36; 36; 36; 36; 36; 36; 36; 36; 36; 36; 36; 36;
   36; 36; 36; 36; 36; 36; 36; 36; 36; 36; 36; 36; 36; 36; 36; 36; 36; 36; 36; 36; 36; 36; 36; 36; 36; 36; 36;
   36; 36; 36; 36; 36; 36; 36; 36; 36; 36; 36; 36; 36; 36; 36; 36; 36; 36; 36; 36; 36; 36; 36; 36; 36; 36; 36;
   36; 36; 36; 36; 36; 36; 36; 36; 36; 36; 36; 36; 36; 36; 36; 36; 36; 36; 36; 36; 36; 36; 96; 118; 60; 60; 60;
   60; 60; 60; 60; 60; 60; 60; 60; 60; 60; 60; 60; 60; 60; 60; 60; 60; 60; 60; 60; 60; 60; 60; 60; 60; 60; 60;
   60; 60; 60; 60; 60; 60; 60; 60; 60; 60; 60; 60; 60; 60; 60; 60; 60; 60; 60; 60; 60; 60; 60; 60; 60; 60; 60;
   60; 60; 60; 60; 60; 60; 60; 60; 60; 60; 60; 60; 60; 60; 60; 60; 60; 60; 60; 60; 60; 60; 60; 60; 60; 60; 60;
   60; 60; 60; 60; 60; 60; 60; 60; 60; 60; 60; 60; 60; 60; 60; 60; 60; 60; 60; 60; 60; 60; 60; 60; 60; 60; 60;
   60; 60; 60; 60; 60; 60; 60; 60; 60; 60; 60; 60; 60; 60; 60; 60; 60; 60; 60; 60; 60; 36; 36; 36; 36; 36; 119;
   36; 120; 121; 122; 36; 123; 36; 36; 36; 36; 36; 36; 124; 125; 126; 127; 36; 128; 92; 36; 129; 130]
  [0x7fff0110043fffff; 0xffff07ff41ffffff; 0xffffffff00007fff; 0x00000000000003ff; 0xebfffffffffffff8;
   0xfffffff3ff01de01; 0xa3c5fdfffff99fed; 0x3fffffc3b0005981; 0xc36dfdfffff987e8; 0x005cffc05e000001;
   0xe3edfdfffffbbfe8; 0x0203ffc300011a01; 0x23edfdfffff99fec; 0x00ffffc3b0001981; 0x83ffc718d63dc7e8;
   0x07ffffc000011dc6; 0x23fffdfffffddfee; 0xff80ffc32700001e; 0x63effdfffffddffd; 0x0006ffc360000d9b;
   0xa7fffffffffddffc; 0xffffffc3ff70ddc1; 0x2ffbfffffc7fffec; 0x001cffc07f03007f; 0x800dfffffffffffe;
   0x000000000fff807f; 0x200dffaffffff7d6; 0x00000000f3ff005f; 0xfd5ffffffcffffff; 0x80001ffffffffeff;
   0xc000000000001f20; 0x0000000007ffdfbf; 0x99021fffffffffff; 0xffe1fffe3cffffff; 0xffffffffdfffdf9b;
   0xffffffffffff20bf; 0xffffffffffffffff; 0xffffffff3d7f3dff; 0x7f3dffffffff3dff; 0xffffffffff7fff3d;
   0xffffffffff3dffff; 0x1fffffff07ffffff; 0xffffffff03ffffff; 0x3f3fffffffffffff; 0xffffffff1fffffff;
   0x01ffffffffffffff; 0x0073ffff8023ffff; 0x0001dfff0003ffff; 0xc04fffffffffffff; 0x03ff03ff1ff001bf;
   0xffffffff03ff07ff; 0xffff05ffffffff9f; 0x003fffffffffffff; 0x01fb0e787fffffff; 0x001f3ffffffffff1;
   0xffff0fffffffffff; 0xffffffffc7ff03ff; 0xffffffffc67fffff; 0x0007e01a00bfffff; 0x00003fff03ff03ff;
   0x0000000000000000; 0xe80ffffffffffff0; 0x7ff007ffffff1ffb; 0xffffc4c3fffffffc; 0xf00c5cbfffffffff;
   0xf8300fffffffffff; 0xffffffffffffe3ff; 0xe7ffffffffff01ff; 0x04efde02000800ff; 0xffffffff3f3fffff;
   0x3fffffffaaff3f3f; 0xffdfffffffffffff; 0x7fdcffffefcfffdf; 0xffff80ffffff07ff; 0xfff30000ffffffff;
   0xffffffff1fff7fff; 0x0000000000000001; 0xffffffffffff0fff; 0x0000007fffffffff; 0xffffffff000007ff;
   0xffcfffffffffffff; 0xffffffffffbfffff; 0xfe0c7fffffffffff; 0xffff20bfffffffff; 0x000180ffffffffff;
   0x7f7f7f7f007fffff; 0x000000007f7f7f7f; 0x000000003fffffff; 0xfffffffffbffffff; 0x000fffffffffffff;
   0x0fff0000003fffff; 0xffff03ffffffffff; 0xfffffffffffffffe; 0xfffffffff87fffff; 0xfffeffffffffffe0;
   0xffffffffffff7fff; 0xffff000fffffffff; 0xffffffff7fffffff; 0xffffffffffff1fff; 0xffffffffffff007f;
   0x00000fffffffffff; 0xc0087fffffffffff; 0xffffffff3fffffff; 0x00fcffffffffffff; 0xfffc000003eb07ff;
   0x03ff0f9ffffff7bb; 0x00ffffffffffffff; 0x7ffc000003ffc00f; 0xffffc03fffffffff; 0x1fffffff800c007f;
   0xcc37fffffffffff8; 0x7fffffdfc3ffbfff; 0x001981ffffffffff; 0xeffffffff3ff2ff7; 0x3e62ffffffffffff;
   0x003fcffff8000005; 0xffff7f7f007e7e7e; 0x03ff1edfffffffff; 0x0ffffffffffff87f; 0xffff3fffffffffff;
   0x0000000003ffffff; 0x5f7fffffa0f8007f; 0xffffffffffffffdb; 0xfffffffffff80007; 0xfffffffffffcffff;
   0xffff0000000080ff; 0xffff000003ff0000; 0xffdf0f7ffff7ffff; 0x1fffffffffffffff; 0x7fffffff3fffffff;
   0x30007f7f1cfcfcfc]
  [1; 2; 3; 4; 5; 6; 7; 8; 5; 9; 10; 11; 12; 13; 14; 7; 7; 7; 7; 7; 7; 7; 7; 7; 7; 15; 16; 17; 7; 18; 19; 7;
   20; 5; 5; 5; 5; 5; 5; 5; 5; 5; 5; 5; 5; 5; 5; 5; 5; 5; 5; 5; 5; 5; 5; 5; 5; 5; 5; 5; 5; 5; 5; 5; 5; 5; 5; 5;
   5; 5; 5; 5; 5; 5; 5; 5; 5; 5; 5; 5; 5; 5; 5; 5; 5; 5; 5; 5; 5; 5; 5; 5; 5; 5; 5; 5; 5; 5; 5; 5; 5; 5; 5; 5;
   5; 5; 5; 5; 5; 5; 5; 5; 5; 5; 5; 5; 5; 5; 5; 5; 5; 5; 5; 5; 5; 5; 5; 5; 5; 5; 5; 5; 5; 5; 5; 5; 5; 5; 5; 5;
   5; 5; 5; 5; 5; 5; 5; 5; 5; 5; 5; 5; 5; 5; 5; 5; 5; 5; 5; 5; 5; 5; 5; 5; 5; 5; 5; 5; 5; 5; 5; 5; 5; 5; 5; 5;
   5; 5; 5; 5; 5; 5; 5; 5; 5; 5; 5; 5; 5; 5; 5; 5; 5; 5; 5; 5; 5; 5; 5; 5; 5; 5; 5; 5; 5; 5; 5; 5; 5; 5; 5; 5;
   5; 5; 5; 5; 5; 5; 5; 5; 5; 5; 5; 5; 5; 5; 5; 5; 5; 5; 5; 5; 5; 5; 5; 5; 5; 5; 5; 5; 5; 5; 5; 5; 5; 5; 5; 5;
   5; 5; 5; 5; 5; 5; 5]
  [1; 2; 3; 4; 2; 5; 6; 7; 7; 8; 9; 10; 11; 12; 13; 2; 2; 14; 15; 16; 17; 18; 7; 2; 2; 2; 2; 19; 20; 21; 7; 22;
   23; 24; 25; 26; 7; 27; 28; 29; 30; 31; 32; 33; 34; 35; 7; 2; 36; 37; 38; 39; 7; 7; 7; 7; 40; 41; 7; 16; 42;
   43; 44; 45; 46; 47; 48; 49; 50; 51; 52; 53; 7; 54; 55; 56; 57; 7; 7; 58; 59; 60; 61; 7; 7; 62; 63; 64; 65;
   66; 67; 68; 69; 7; 7; 70; 7; 71; 72; 73; 74; 75; 76; 77; 78; 79; 80; 7; 7; 7; 7; 81; 82; 83; 7; 84; 85; 86;
   7; 7; 7; 7; 87; 7; 7; 88; 89; 2; 2; 2; 2; 2; 2; 2; 2; 2; 2; 2; 2; 2; 2; 90; 7; 2; 91; 2; 2; 2; 92; 7; 7; 7;
   7; 7; 7; 7; 7; 7; 7; 7; 7; 7; 7; 7; 7; 7; 7; 7; 7; 7; 7; 7; 7; 7; 7; 7; 7; 7; 7; 7; 7; 7; 7; 7; 7; 7; 7; 7;
   7; 93; 37; 2; 2; 2; 2; 2; 2; 2; 2; 2; 2; 2; 2; 2; 2; 2; 2; 94; 7; 7; 7; 7; 7; 7; 7; 7; 7; 7; 7; 7; 7; 7; 7;
   7; 7; 7; 7; 7; 7; 7; 7; 7; 7; 7; 7; 7; 7; 7; 7; 7; 7; 7; 7; 7; 7; 7; 7; 7; 7; 7; 7; 7; 7; 7; 7; 7; 7; 7; 7;
   7; 7; 7; 7; 7; 7; 7; 7; 7; 7; 7; 7; 2; 2; 2; 2; 2; 2; 2; 2; 2; 69; 7; 7; 7; 7; 7; 7; 7; 7; 7; 7; 7; 7; 7; 7;
   7; 7; 7; 7; 7; 7; 7; 7; 7; 7; 7; 7; 7; 7; 7; 7; 7; 7; 7; 7; 7; 7; 7; 7; 7; 7; 7; 7; 7; 7; 7; 7; 7; 7; 7; 7;
   7; 7; 7; 7; 7; 7; 7; 7; 7; 7; 7; 7; 7; 7; 7; 7; 7; 7; 7; 7; 7; 7; 7; 7; 7; 7; 7; 7; 7; 7; 7; 7; 7; 7; 7; 7;
   7; 7; 7; 7; 7; 7; 7; 7; 7; 7; 7; 7; 7; 7; 7; 7; 7; 7; 7; 7; 7; 7; 7; 7; 7; 7; 7; 7; 7; 7; 7; 7; 7; 7; 7; 7;
   7; 7; 7; 7; 7; 7; 7; 7; 7; 7; 7; 7; 2; 2; 2; 2; 2; 2; 2; 2; 80; 95; 96; 97; 98; 99; 100; 7; 7; 7; 7; 7; 7;
   7; 7; 7; 7; 2; 101; 7; 2; 102; 103; 104; 2; 2; 2; 2; 2; 2; 2; 2; 2; 2; 2; 2; 2; 2; 2; 2; 2; 2; 2; 2; 2; 2;
   2; 2; 2; 2; 2; 2; 2; 2; 2; 2; 2; 2; 2; 2; 2; 2; 2; 2; 2; 2; 2; 2; 2; 2; 2; 2; 2; 2; 2; 2; 2; 2; 2; 2; 2; 2;
   2; 2; 2; 2; 2; 2; 2; 2; 2; 2; 2; 2; 2; 2; 2; 2; 2; 2; 2; 2; 2; 2; 2; 2; 2; 2; 2; 2; 2; 2; 2; 2; 2; 2; 2; 2;
   2; 58; 2; 2; 2; 2; 2; 2; 2; 2; 2; 2; 2; 2; 2; 2; 2; 2; 2; 2; 2; 105; 36; 7; 7; 7; 7; 7; 7; 7; 7; 7; 7; 7; 7;
   7; 7; 7; 7; 7; 7; 7; 7; 7; 7; 7; 7; 7; 7; 7; 7; 7; 7; 7; 7; 7; 7; 7; 7; 7; 7; 7; 7; 7; 7; 7; 7; 7; 7; 7; 7;
   7; 7; 7; 7; 7; 7; 7; 7; 7; 7; 7; 7; 7; 7; 7; 7; 7; 7; 7; 7; 7; 7; 7; 7; 7; 7; 106; 2; 2; 2; 2; 107; 108; 2;
   2; 2; 2; 2; 109; 7; 7; 7; 7; 7; 7; 7; 7; 7; 7; 7; 7; 7; 7; 7; 7; 7; 7; 7; 7; 7; 7; 7; 7; 7; 7; 7; 7; 7; 7;
   7; 7; 7; 7; 7; 7; 2; 110; 111; 7; 7; 7; 7; 7; 7; 7; 7; 7; 7; 7; 7; 7; 7; 7; 7; 7; 7; 7; 7; 7; 7; 7; 7; 7; 7;
   7; 7; 7; 7; 7; 7; 7; 7; 7; 7; 7; 7; 7; 7; 7; 7; 7; 7; 7; 7; 7; 7; 7; 7; 7; 7; 7; 7; 7; 7; 7; 7; 7; 7; 7; 7;
   7; 7; 7; 7; 7; 7; 7; 7; 7; 7; 7; 7; 93; 2; 92; 2; 2; 2; 112; 113; 114; 115; 116; 2; 117; 7; 118; 2; 119; 7;
   7; 2; 120; 121; 122; 123; 124; 2; 2; 2; 2; 125; 2; 2; 2; 2; 126; 2; 2; 2; 2; 2; 2; 2; 2; 127; 128; 129; 7;
   7; 7; 7; 7; 7; 7; 7; 7; 7; 7; 7; 7; 7; 7; 7; 7; 130; 7; 7; 7; 7; 7; 7; 7; 131; 132; 7; 7; 7; 7; 133; 134; 7;
   7; 7; 7; 7; 7; 7; 7; 7; 7; 7; 7; 7; 7; 7; 7; 7; 7; 7; 135; 2; 2; 2; 136; 2; 137; 7; 7; 7; 7; 7; 7; 7; 7; 7;
   7; 7; 138; 139; 7; 140; 7; 7; 7; 141; 142; 143; 144; 7; 7; 7; 7; 145; 2; 146; 147; 2; 2; 148; 149; 150; 151;
   7; 7; 2; 2; 2; 2; 2; 2; 2; 2; 2; 2; 2; 2; 2; 2; 2; 152; 2; 153; 2; 154; 155; 156; 157; 7; 2; 2; 2; 2; 2;
   158; 159; 160; 2; 2; 161; 162; 7; 7; 7; 7; 7; 7; 7; 7; 7; 7; 7; 7; 7; 7; 7; 7; 2; 2; 2; 2; 2; 2; 2; 2; 2; 2;
   2; 2; 2; 2; 2; 2; 2; 2; 2; 2; 2; 2; 2; 2; 2; 2; 2; 31; 2; 2; 2; 2; 2; 2; 2; 2; 2; 2; 2; 2; 2; 2; 2; 2; 2; 2;
   2; 2; 2; 2; 2; 2; 2; 2; 2; 2; 2; 2; 2; 2; 2; 2; 2; 2; 2; 2; 2; 2; 2; 2; 2; 2; 2; 2; 2; 2; 2; 2; 2; 2; 2; 2;
   2; 2; 2; 2; 2; 2; 2; 2; 2; 2; 80; 2; 2; 2; 163; 2; 2; 2; 2; 2; 2; 2; 2; 2; 2; 2; 2; 2; 2; 2; 2; 2; 2; 2; 2;
   2; 2; 2; 2; 2; 2; 2; 2; 2; 2; 2; 2; 2; 2; 2; 2; 2; 2; 2; 2; 2; 2; 2; 2; 2; 2; 2; 2; 2; 2; 2; 2; 2; 2; 2; 2;
   2; 2; 2; 2; 2; 2; 2; 2; 2; 2; 2; 2; 2; 2; 2; 2; 2; 2; 2; 2; 2; 2; 2; 2; 2; 2; 2; 2; 2; 2; 2; 2; 2; 164; 2;
   2; 2; 2; 2; 2; 2; 2; 2; 2; 2; 2; 2; 2; 2; 2; 2; 2; 2; 2; 2; 2; 2; 2; 2; 2; 2; 2; 2; 2; 2; 2; 2; 2; 2; 2; 2;
   2; 2; 2; 2; 2; 2; 2; 2; 2; 2; 2; 2; 2; 2; 2; 165; 7; 7; 7; 7; 7; 7; 7; 7; 7; 7; 7; 7; 7; 7; 7; 7; 7; 7; 7;
   7; 7; 7; 7; 7; 7; 7; 7; 7; 7; 7; 7; 7; 7; 7; 7; 7; 7; 7; 7; 7; 7; 7; 7; 7; 7; 7; 7; 7; 2; 2; 2; 2; 2; 2; 2;
   2; 166; 7; 7; 7; 7; 7; 7; 7; 7; 7; 7; 7; 7; 7; 7; 7; 7; 7; 7; 7; 7; 7; 7; 7; 2; 2; 2; 2; 2; 2; 2; 2; 2; 2;
   2; 2; 2; 167; 7; 7; 7; 7; 7; 7; 7; 7; 7; 7; 7; 7; 7; 7; 7; 7; 7; 7; 7; 7; 7; 7; 7; 7; 7; 7; 7; 7; 7; 7; 7;
   7; 7; 7; 7; 7; 7; 7; 7; 7; 7; 7; 7; 7; 7; 7; 7; 7; 7; 7]
  [0xb7ffff7fffffefff; 0x000000003fff3fff; 0xffffffffffffffff; 0x07ffffffffffffff; 0xff8fffffffffff87;
   0x000000011fff7fff; 0x1fffffffffff0000; 0x0000000000000000; 0xffffffff1fffffff; 0x0ffffffe0001ffff;
   0xffffe00fffffffff; 0x003fffffffff07ff; 0xffffffffbfffffff; 0x00000000003fff0f; 0xffff03ff3fffffff;
   0x0fffffffff0fffff; 0xffff00ffffffffff; 0xf7ff800fffffffff; 0x1bfbfffbffb7f7ff; 0x007fffffffffffff;
   0x000000ff003fffff; 0x07fdffffffffffbf; 0x91bffffffffffd3f; 0xffffffffffbfffff; 0x0000ff807fffffff;
   0xf837ffff00000000; 0x83ffffff8fffffff; 0xf0ffffffffffffff; 0xfffffffffffcffff; 0x003ffffffeef0001;
   0xffffffff01ff01ff; 0x00000000ffffffff; 0x007ff81fffffffff; 0xfe3fffffffffffff; 0xff07ffffff3fffff;
   0x0000fe001e03ffff; 0x00000000000001ff; 0x0007ffffffffffff; 0xfc07ffffffffffff; 0x03ff000fffffffff;
   0x7fffffff00000000; 0x000323ffffffffff; 0xffff000003fe003f; 0xffff0000000003c3; 0x007fffff00000fff;
   0x00fffffffffffffd; 0x0026fffffffc3f80; 0xd987fffffffffffc; 0x03ff01ffffff0003; 0xffc0107ffffffff8;
   0x0077ffffffff00ff; 0x803ffffffffffffc; 0x001ffffeffff61ff; 0x3f2c7ffffffbffff; 0xffff03ffbfffbd7f;
   0x03ff00077fffffff; 0xa3edfdfffff99fec; 0x0000000fe001399e; 0x00ffffffffffffff; 0x00000003afffffa3;
   0x5a06ffffffffffff; 0x0000000003ff00f2; 0x4f037fffffffffff; 0x000000000ffffffe; 0x5807ffffffffffff;
   0x00001fff03ff001e; 0x0340d7ffffffffff; 0x00000000000003ff; 0xffff004307ffffff; 0x000000000000007f;
   0x09007fffffffffff; 0xffffffff00000000; 0x8007ffffffffffff; 0xa1beffffff6ff27f; 0x0000000003ff0077;
   0xfffffcff00000000; 0x0000001ef00fffff; 0x8607fffffffff801; 0xfffffffff181007f; 0xffff0007fc8003ff;
   0x01ffffffffffffff; 0x4000fffffffffdff; 0xffff1fffffff003f; 0x001202000000ffff; 0x0001fffffffffb7f;
   0xfffffdbf03ff0040; 0x000003ff01587fff; 0x01e7ffff00000000; 0x0001000000000000; 0x8003ffffffffffff;
   0x0000000003ffffff; 0x001f7fffffffffff; 0x000000000000000f; 0xffffffffffff0000; 0x00007fffffffffff;
   0xffffc3ff7fffffff; 0x7fffffffffffffff; 0x00203fffffff03ff; 0xff80ffffffffffff; 0xe0fffffbfbff003f;
   0x000000000000ffff; 0x0000000007ffffff; 0xffffffffffff07ff; 0x00000000fff800ff; 0x0003000f00000000;
   0x00000000003fffff; 0x6fef000000000000; 0x00000007ffffffff; 0xffff00f000070000; 0x0fffffffffffffff;
   0x1fff07ffffffffff; 0x0000000093ff01ff; 0x003fffffffffffff; 0xfffffe7fffffffff; 0x00003c5fffffffff;
   0xffffc3fffffff018; 0x000007ffffffffff; 0x0000000000000023; 0x000fffff00000000; 0x01ffffff007fffff;
   0xffffffffffdfffff; 0xebffde64dfffffff; 0xffffffffffffffef; 0x7bffffffdfdfe7bf; 0xfffffffffffdfc5f;
   0xffffff3fffffffff; 0xffffffffffffcfff; 0x0780000000000000; 0xffdfe00000000000; 0x0000000000000fef;
   0x000000007fffffff; 0x3f801fffffffffff; 0x000000000000c3ff; 0x00003fffffff0000; 0x83ff0fffffffffff;
   0x7fff6f7f00000000; 0x000000000000ff9f; 0x00000000c3ff080f; 0xfffe000000000000; 0x001fffffffffffff;
   0x3ffffffffffffffe; 0x0af7fe96ffffffef; 0x5ef7f796aa96ea84; 0x0ffffbee0ffffbff; 0x0003000000000000;
   0xffff0fffffffffff; 0xfffe7fff000fffff; 0x003ffffffffefffe; 0x00003fffffffffff; 0xffffffc000000000;
   0x0fffffffffff0007; 0x0000003f000301ff; 0x1fff1fffe0ffffff; 0x000fffffffffffff; 0x00010fff01ffffff;
   0xffffffffffff0fff; 0xffffffff03ff00ff; 0x00033fffffff00ff; 0x1f1f3fff000fffff; 0x07ff1fffffff007f;
   0x007f00ff03ff003f; 0xfffffffffff7ffff; 0x03ff0000000007ff; 0xffffffff3fffffff; 0xffff0003ffffffff;
   0x00000001ffffffff; 0x000000003fffffff; 0x00000000000007ff].
(** unicode-db.hpp lines 6179-6181. *)
Definition prop_hex_data : list Z :=
  [0x00000000; 0x00003001; 0x00003a00; 0x00004101; 0x00004700; 0x00006101; 0x00006700; 0x00ff1001; 0x00ff1a00;
   0x00ff2101; 0x00ff2700; 0x00ff4101; 0x00ff4700].
(** unicode-db.hpp lines 6182-6188. *)
Definition prop_ideo_data : list Z :=
  [0x00000000; 0x00300601; 0x00300800; 0x00302101; 0x00302a00; 0x00303801; 0x00303b00; 0x00340001; 0x004dc000;
   0x004e0001; 0x00a00000; 0x00f90001; 0x00fa6e00; 0x00fa7001; 0x00fada00; 0x016fe401; 0x016fe500; 0x01700001;
   0x0187f800; 0x01880001; 0x018cd600; 0x018d0001; 0x018d0900; 0x01b17001; 0x01b2fc00; 0x02000001; 0x02a6e000;
   0x02a70001; 0x02b73900; 0x02b74001; 0x02b81e00; 0x02b82001; 0x02cea200; 0x02ceb001; 0x02ebe100; 0x02f80001;
   0x02fa1e00; 0x03000001; 0x03134b00].
(** unicode-db.hpp lines 6189-6190. *)
Definition prop_idsb_data : list Z :=
  [0x00000000; 0x002ff001; 0x002ff200; 0x002ff401; 0x002ffc00].
(** unicode-db.hpp lines 6191-6191. *)
Definition prop_idst_data : list Z :=
  [0x2ff2; 0x2ff3].
(** unicode-db.hpp lines 6192-6192. *)
Definition prop_join_c_data : list Z :=
  [0x200c; 0x200d].
(** unicode-db.hpp lines 6193-6196. *)
Definition prop_loe_data : list Z :=
  [0x00000000; 0x000e4001; 0x000e4500; 0x000ec001; 0x000ec500; 0x0019b501; 0x0019b800; 0x0019ba01; 0x0019bb00;
   0x00aab501; 0x00aab700; 0x00aab901; 0x00aaba00; 0x00aabb01; 0x00aabd00].
(** unicode-db.hpp lines 6197-6301. *)
Definition prop_oalpha_data : bool_trie := mkTrie 32 991 1 57 255 1 378 13 48
  [0x0000000000000000; 0x0000000000000000; 0x0000000000000000; 0x0000000000000000; 0x0000000000000000;
   0x0000000000000000; 0x0000000000000000; 0x0000000000000000; 0x0000000000000000; 0x0000000000000000;
   0x0000000000000000; 0x0000000000000000; 0x0000000000000000; 0x0000000000000020; 0x0000000000000000;
   0x0000000000000000; 0x0000000000000000; 0x0000000000000000; 0x0000000000000000; 0x0000000000000000;
   0x0000000000000000; 0x0000000000000000; 0xbfff000000000000; 0x00000000000000b6; 0x0000000007ff0000;
   0x00010000fefff800; 0x0000000000000000; 0x0000219e1fc00000; 0xffff000000020000; 0x0000000000000000;
   0x0001ffc000000000; 0x0000000000000000]
  [1; 1; 2; 3; 4; 5; 6; 5; 7; 5; 8; 5; 9; 10; 11; 12; 13; 5; 13; 12; 14; 15; 16; 17; 18; 19; 18; 1; 20; 21; 1;
   22; 23; 24; 1; 1; 1; 1; 1; 1; 1; 1; 1; 1; 1; 1; 1; 1; 1; 1; 1; 1; 1; 1; 1; 1; 1; 1; 1; 25; 25; 26; 27; 1; 1;
   28; 1; 29; 1; 1; 1; 30; 31; 32; 33; 34; 35; 36; 37; 38; 1; 1; 1; 1; 1; 1; 39; 1; 1; 1; 1; 1; 1; 1; 1; 1; 1;
   1; 1; 1; 1; 1; 1; 1; 1; 1; 1; 1; 1; 1; 1; 1; 1; 26; 40; 1; 1; 1; 1; 1; 1; 1; 1; 1; 1; 1; 1; 1; 1; 1; 1; 1;
   1; 1; 1; 1; 1; 1; 1; 1; 1; 1; 1; 1; 1; 1; 1; 1; 1; 1; 41; 1; 1; 1; 1; 1; 1; 1; 1; 1; 1; 1; 1; 1; 1; 1; 1; 1;
   1; 1; 1; 1; 1; 1; 1; 1; 1; 1; 1; 1; 1; 1; 1; 1; 1; 1; 1; 1; 1; 1; 1; 1; 1; 1; 1; 1; 1; 1; 1; 1; 1; 1; 1; 1;
   1; 1; 1; 1; 1; 1; 1; 1; 1; 1; 1; 1; 1; 1; 1; 1; 1; 1; 1; 1; 1; 1; 1; 1; 1; 1; 1; 1; 1; 1; 1; 1; 1; 1; 1; 1;
   1; 1; 1; 1; 1; 1; 1; 1; 1; 1; 1; 1; 1; 1; 1; 1; 1; 1; 1; 1; 1; 1; 1; 1; 1; 1; 1; 1; 1; 1; 1; 1; 1; 1; 1; 1;
   1; 1; 1; 1; 1; 1; 1; 1; 1; 1; 1; 1; 1; 1; 1; 1; 1; 1; 1; 1; 1; 1; 1; 1; 1; 1; 1; 1; 1; 1; 1; 1; 1; 1; 1; 1;
   1; 1; 1; 1; 1; 1; 1; 1; 1; 1; 1; 1; 1; 1; 1; 1; 1; 1; 1; 1; 1; 1; 1; 1; 1; 1; 1; 1; 1; 1; 1; 1; 1; 1; 1; 1;
   1; 1; 1; 1; 1; 1; 1; 1; 1; 1; 1; 1; 1; 1; 1; 1; 1; 1; 1; 1; 1; 1; 1; 1; 1; 1; 1; 1; 1; 1; 1; 1; 1; 1; 1; 1;
   1; 1; 1; 1; 1; 1; 1; 1; 1; 1; 1; 1; 1; 1; 1; 1; 1; 1; 1; 1; 1; 1; 1; 1; 1; 1; 1; 1; 1; 1; 1; 1; 1; 1; 1; 1;
   1; 1; 1; 1; 1; 1; 1; 1; 1; 1; 1; 1; 1; 1; 1; 1; 1; 1; 1; 1; 1; 1; 1; 1; 1; 1; 1; 1; 1; 1; 1; 1; 1; 1; 1; 1;
   1; 1; 1; 1; 1; 1; 1; 1; 1; 1; 1; 1; 1; 1; 1; 1; 1; 1; 1; 1; 1; 1; 1; 1; 1; 1; 1; 1; 1; 1; 1; 1; 1; 1; 1; 1;
   1; 1; 1; 1; 1; 1; 1; 1; 1; 1; 1; 1; 1; 1; 1; 1; 1; 1; 1; 1; 1; 1; 1; 1; 1; 1; 1; 1; 1; 1; 1; 1; 1; 1; 1; 1;
   1; 1; 1; 1; 1; 1; 1; 1; 1; 1; 1; 1; 1; 1; 1; 1; 1; 1; 1; 1; 1; 1; 1; 1; 1; 1; 1; 1; 1; 1; 1; 1; 1; 1; 1; 1;
   1; 1; 1; 1; 1; 1; 1; 1; 1; 1; 1; 1; 1; 1; 1; 1; 1; 1; 1; 1; 1; 1; 1; 1; 1; 1; 1; 1; 1; 1; 1; 1; 1; 1; 1; 1;
   1; 1; 1; 1; 1; 1; 1; 1; 1; 1; 1; 1; 1; 1; 1; 1; 1; 1; 1; 1; 1; 1; 1; 1; 1; 1; 1; 1; 1; 1; 1; 1; 42; 43; 1;
   1; 1; 1; 1; 44; 1; 45; 46; 47; 48; 49; 50; 51; 52; 53; 54; 1; 1; 1; 55; 1; 1; 1; 1; 1; 1; 1; 1; 1; 1; 1; 1;
   1; 1; 1; 1; 1; 1; 1; 1; 1; 1; 1; 1; 1; 1; 1; 1; 1; 1; 1; 1; 1; 1; 1; 1; 1; 1; 1; 1; 1; 1; 1; 1; 1; 1; 1; 1;
   1; 1; 1; 1; 1; 1; 1; 1; 1; 1; 1; 1; 1; 1; 1; 1; 1; 1; 1; 1; 1; 1; 1; 1; 1; 1; 1; 1; 1; 1; 1; 1; 1; 1; 1; 1;
   1; 1; 1; 1; 1; 1; 1; 1; 1; 1; 1; 1; 1; 1; 1; 1; 1; 1; 1; 1; 1; 1; 1; 1; 1; 1; 1; 1; 1; 1; 1; 1; 1; 1; 1; 1;
   1; 1; 1; 1; 1; 1; 1; 1; 1; 1; 1; 1; 1; 1; 1; 1; 1; 1; 1; 1; 1; 1; 1; 1; 1; 1; 1; 1; 1; 1; 1; 1; 1; 1; 1; 1;
   1; 1; 1; 1; 1; 1; 1; 1; 1; 1; 1; 1; 1; 1; 1; 1; 1; 1; 1; 1; 1; 1; 1; 1; 1; 1; 1; 1; 1; 1; 1; 1; 1; 1; 1; 1;
   1; 1; 1; 1; 1; 1; 1; 1; 1; 1; 1; 1; 1; 1; 1; 1; 1; 1; 1; 1; 1; 1; 1; 1; 1; 1; 1; 1; 1; 1; 1; 1; 1; 1; 1; 1;
   1; 1; 1; 1; 1; 1; 1; 1; 1; 1; 1; 1; 1; 1; 1; 1; 1; 1; 1; 1; 1; 1; 1; 1; 1; 1; 1; 1; 1; 1; 1; 1; 1; 1; 1; 1;
   1; 1; 1; 1; 1; 1; 1; 1; 1; 1; 1; 1; 1; 1; 1; 1; 1; 1; 1; 1; 1; 1; 1; 1; 1; 1; 1; 1; 1; 1; 1; 1; 1; 1; 1; 1;
   1; 1; 1; 1; 1; 1; 1; 1; 1; 1; 1; 1; 1; 1; 1; 1; 56; 1; 1; 1; 1; 1; 1; 1; 1; 1; 1; 1; 1; 1; 1; 1; 1; 1; 1; 1]
  [0x00001eeff8c00000; 0x0000000000000000; 0xffff03f8fff00000; 0xcc0000000000000f; 0x0000000c00e0dfff;
   0xc00000000000000e; 0x0000000c0080199f; 0x0023000000021987; 0x1c00000c00001bbf; 0x0000000c00c0199f;
   0xc000000000000004; 0x0000000000801dc7; 0xc00000000000000f; 0x0000000c00601ddf; 0x0000000c00801ddf;
   0x000000000000000e; 0x000c0000ff5f8000; 0x07f2000000000000; 0x0000000000002000; 0x1bf2000000000000;
   0xfffe000000000000; 0x1ffffffffeffe003; 0x797ff80000000000; 0x001e3f9dc3c00000; 0x000000003c00bffc;
   0x000c0000000c0000; 0xffc0000000000000; 0x00000000000001ff; 0x0000020000000060; 0x01ff0fff00000000;
   0x000000000f800000; 0x001ffffe7fe00000; 0x8000000000000000; 0x0000000000007001; 0xffe000000000001f;
   0x000000000000000f; 0x000033fe00000007; 0x0003ff8000000000; 0x007ffff000000000; 0x001fff8000000000;
   0x000003ffffffffff; 0xffffffff00000000; 0x0ff0000000000000; 0x00000000c0000000; 0x000000f800000804;
   0xfff0000000000003; 0x800000000000002f; 0x000007c000000000; 0x000000000007ff80; 0xfff000000000000f;
   0x0000002000000000; 0x007ffe0000000000; 0x3800000000003008; 0x419d000000000000; 0x0020f80000000000;
   0x000007f800000000; 0x0000000040000000]
  [1; 2; 2; 2; 2; 3; 2; 2; 2; 2; 4; 2; 2; 5; 6; 2; 2; 2; 2; 2; 2; 2; 2; 2; 2; 2; 2; 2; 2; 2; 2; 2; 2; 2; 2; 2;
   2; 2; 2; 2; 2; 2; 2; 2; 2; 2; 2; 2; 2; 2; 2; 2; 2; 2; 2; 2; 2; 2; 2; 2; 2; 2; 2; 2; 2; 2; 2; 2; 2; 2; 2; 2;
   2; 2; 2; 2; 2; 2; 2; 2; 2; 2; 2; 2; 2; 2; 2; 2; 2; 2; 2; 2; 2; 2; 2; 2; 2; 2; 2; 2; 2; 2; 2; 2; 2; 2; 2; 2;
   2; 2; 2; 2; 2; 2; 2; 2; 2; 2; 2; 2; 2; 2; 2; 2; 2; 2; 2; 2; 2; 2; 2; 2; 2; 2; 2; 2; 2; 2; 2; 2; 2; 2; 2; 2;
   2; 2; 2; 2; 2; 2; 2; 2; 2; 2; 2; 2; 2; 2; 2; 2; 2; 2; 2; 2; 2; 2; 2; 2; 2; 2; 2; 2; 2; 2; 2; 2; 2; 2; 2; 2;
   2; 2; 2; 2; 2; 2; 2; 2; 2; 2; 2; 2; 2; 2; 2; 2; 2; 2; 2; 2; 2; 2; 2; 2; 2; 2; 2; 2; 2; 2; 2; 2; 2; 2; 2; 2;
   2; 2; 2; 2; 2; 2; 2; 2; 2; 2; 2; 2; 2; 2; 2; 2; 2; 2; 2; 2; 2; 2; 2; 2; 2; 2; 2; 2; 2; 2; 2; 2; 2; 2; 2; 2;
   2; 2; 2]
  [1; 0; 0; 0; 0; 0; 0; 0; 0; 0; 0; 0; 0; 0; 0; 0; 0; 0; 0; 0; 0; 0; 0; 0; 0; 0; 0; 2; 0; 0; 0; 0; 0; 0; 0; 0;
   0; 0; 0; 3; 0; 0; 0; 0; 0; 4; 0; 0; 0; 0; 0; 5; 6; 7; 8; 9; 10; 11; 12; 13; 0; 0; 14; 15; 16; 0; 0; 17; 18;
   19; 20; 0; 0; 21; 22; 23; 24; 25; 0; 26; 0; 0; 0; 27; 0; 0; 0; 28; 29; 0; 30; 31; 32; 33; 0; 0; 0; 0; 0; 34;
   0; 35; 0; 36; 37; 38; 0; 0; 0; 0; 39; 0; 0; 0; 0; 0; 0; 0; 0; 0; 0; 0; 0; 0; 0; 0; 0; 0; 0; 0; 0; 0; 0; 0;
   0; 0; 0; 0; 0; 0; 0; 0; 0; 0; 0; 0; 0; 0; 0; 0; 0; 0; 0; 0; 0; 0; 0; 0; 0; 0; 0; 0; 0; 0; 0; 0; 0; 0; 0; 0;
   0; 0; 0; 0; 0; 0; 0; 0; 0; 0; 0; 0; 0; 0; 0; 0; 0; 0; 0; 0; 0; 0; 0; 0; 0; 0; 0; 0; 0; 0; 0; 0; 0; 0; 0; 0;
   0; 0; 0; 0; 0; 0; 0; 0; 0; 0; 0; 0; 0; 0; 0; 0; 0; 0; 0; 0; 0; 0; 0; 0; 0; 0; 0; 0; 0; 0; 0; 0; 0; 0; 40;
   41; 42; 0; 0; 0; 0; 0; 0; 0; 0; 0; 0; 0; 0; 0; 0; 0; 0; 0; 0; 0; 0; 0; 0; 0; 0; 0; 0; 0; 0; 0; 0; 0; 0; 0;
   0; 0; 0; 0; 0; 0; 0; 0; 0; 0; 0; 0; 0; 0; 0; 0; 0; 43; 0; 0; 0; 0; 0; 0; 0; 0; 0; 0; 0; 0; 0; 44; 0; 0; 0;
   0; 0; 0; 0; 0; 0; 0; 0; 0; 0; 0; 0; 0; 0; 0; 0; 0; 0; 0; 0; 0; 0; 0; 0; 0; 0; 0; 0; 0; 0; 0; 0; 0; 45; 0; 0;
   0; 0; 0; 0; 0; 0; 0; 0; 0; 0; 0; 0; 0; 0; 0; 0; 0; 0; 0; 0; 0; 0; 0; 0; 0; 0; 0; 0; 19; 46; 47]
  [0x0000000000000000; 0x07c0000000000000; 0x000000000000f06e; 0x000000f000000000; 0x0000180000000000;
   0xff00000000000007; 0x001800000000003f; 0x01ff000000000004; 0x0000000000000004; 0x0007ff8000000007;
   0x0000000000000060; 0xfff8000000000007; 0x000000000000c000; 0x409ff00000000000; 0x000001ff80000000;
   0xc00000000000000f; 0x0000000c0080199f; 0xffe0000000000000; 0x000000000000003b; 0xffff000000000000;
   0x0000000000000003; 0x7f3f800000000000; 0x0000000030000000; 0x7fff000000000000; 0x0000000000000001;
   0x003ff80000000000; 0x000007ffe0000000; 0x01fff00000000000; 0x19bf000000000000; 0x0000000000000005;
   0x00000010fcfe0000; 0x7be00000000007fe; 0x000000000ffe0000; 0x0000000000fffc00; 0x7f7f800000000000;
   0x007ffefffffc0000; 0xb47e000000000000; 0x000000000000008b; 0x00000000007b7c00; 0x0078000000000000;
   0xfffffffffffe8000; 0x00000000000780ff; 0x0003000000000000; 0x0000000040000000; 0x000007dbf9ffff7f;
   0x0000000000000080; 0xffff03ffffff03ff; 0x00000000000003ff].
(** unicode-db.hpp lines 6302-6303. *)
Definition prop_odi_data : list Z :=
  [0x1160; 0xffa0; 0x3164; 0x034f; 0x17b4; 0x17b5; 0x115f].
(** unicode-db.hpp lines 6304-6355. *)
Definition prop_ogr_ext_data : bool_trie := mkTrie 0 985 6 9 208 1 118 76 9
  []
  [1; 2; 0; 0; 0; 0; 1; 2; 1; 2; 0; 0; 0; 3; 1; 2; 0; 4; 0; 0; 0; 0; 0; 0; 0; 0; 0; 0; 0; 0; 0; 0; 0; 0; 0; 0;
   0; 0; 0; 0; 0; 0; 0; 0; 0; 0; 0; 0; 0; 0; 0; 0; 0; 0; 0; 0; 0; 0; 0; 0; 0; 0; 0; 0; 0; 0; 0; 0; 0; 0; 5; 0;
   0; 0; 0; 0; 0; 0; 0; 0; 0; 0; 0; 0; 0; 0; 0; 0; 0; 0; 6; 0; 0; 0; 0; 0; 0; 0; 0; 0; 0; 0; 0; 0; 0; 0; 0; 0;
   0; 0; 0; 0; 0; 0; 0; 0; 0; 0; 0; 0; 0; 0; 0; 0; 0; 0; 0; 0; 0; 0; 0; 0; 0; 0; 0; 0; 0; 0; 0; 0; 0; 0; 0; 0;
   0; 0; 0; 0; 0; 0; 0; 0; 0; 0; 7; 0; 0; 0; 0; 0; 0; 0; 0; 0; 0; 0; 0; 0; 0; 0; 0; 0; 0; 0; 0; 0; 0; 0; 0; 0;
   0; 0; 0; 0; 0; 0; 0; 0; 0; 0; 0; 0; 0; 0; 0; 0; 0; 0; 0; 0; 0; 0; 0; 0; 0; 0; 0; 0; 0; 0; 0; 0; 0; 0; 0; 0;
   0; 0; 0; 0; 0; 0; 0; 0; 0; 0; 0; 0; 0; 0; 0; 0; 0; 0; 0; 0; 0; 0; 0; 0; 0; 0; 0; 0; 0; 0; 0; 0; 0; 0; 0; 0;
   0; 0; 0; 0; 0; 0; 0; 0; 0; 0; 0; 0; 0; 0; 0; 0; 0; 0; 0; 0; 0; 0; 0; 0; 0; 0; 0; 0; 0; 0; 0; 0; 0; 0; 0; 0;
   0; 0; 0; 0; 0; 0; 0; 0; 0; 0; 0; 0; 0; 0; 0; 0; 0; 0; 0; 0; 0; 0; 0; 0; 0; 0; 0; 0; 0; 0; 0; 0; 0; 0; 0; 0;
   0; 0; 0; 0; 0; 0; 0; 0; 0; 0; 0; 0; 0; 0; 0; 0; 0; 0; 0; 0; 0; 0; 0; 0; 0; 0; 0; 0; 0; 0; 0; 0; 0; 0; 0; 0;
   0; 0; 0; 0; 0; 0; 0; 0; 0; 0; 0; 0; 0; 0; 0; 0; 0; 0; 0; 0; 0; 0; 0; 0; 0; 0; 0; 0; 0; 0; 0; 0; 0; 0; 0; 0;
   0; 0; 0; 0; 0; 0; 0; 0; 0; 0; 0; 0; 0; 0; 0; 0; 0; 0; 0; 0; 0; 0; 0; 0; 0; 0; 0; 0; 0; 0; 0; 0; 0; 0; 0; 0;
   0; 0; 0; 0; 0; 0; 0; 0; 0; 0; 0; 0; 0; 0; 0; 0; 0; 0; 0; 0; 0; 0; 0; 0; 0; 0; 0; 0; 0; 0; 0; 0; 0; 0; 0; 0;
   0; 0; 0; 0; 0; 0; 0; 0; 0; 0; 0; 0; 0; 0; 0; 0; 0; 0; 0; 0; 0; 0; 0; 0; 0; 0; 0; 0; 0; 0; 0; 0; 0; 0; 0; 0;
   0; 0; 0; 0; 0; 0; 0; 0; 0; 0; 0; 0; 0; 0; 0; 0; 0; 0; 0; 0; 0; 0; 0; 0; 0; 0; 0; 0; 0; 0; 0; 0; 0; 0; 0; 0;
   0; 0; 0; 0; 0; 0; 0; 0; 0; 0; 0; 0; 0; 0; 0; 0; 0; 0; 0; 0; 0; 0; 0; 0; 0; 0; 0; 0; 0; 0; 0; 0; 0; 0; 0; 0;
   0; 0; 0; 0; 0; 0; 0; 0; 0; 0; 0; 0; 0; 0; 0; 0; 0; 0; 0; 0; 0; 0; 0; 0; 0; 0; 0; 0; 0; 0; 0; 0; 0; 0; 0; 0;
   0; 0; 0; 0; 0; 0; 0; 0; 0; 0; 0; 0; 0; 0; 0; 0; 0; 0; 0; 0; 0; 0; 0; 0; 0; 0; 0; 0; 0; 0; 0; 0; 0; 0; 0; 0;
   0; 0; 0; 0; 0; 0; 0; 0; 0; 0; 0; 0; 0; 0; 0; 0; 0; 0; 0; 0; 0; 0; 0; 0; 0; 0; 0; 0; 0; 0; 0; 0; 0; 0; 0; 0;
   0; 0; 0; 0; 0; 0; 0; 0; 0; 0; 0; 0; 0; 0; 0; 0; 0; 0; 0; 0; 0; 0; 0; 0; 0; 0; 0; 0; 0; 0; 0; 0; 0; 0; 0; 0;
   0; 0; 0; 0; 0; 0; 0; 0; 0; 0; 0; 0; 0; 0; 0; 0; 0; 0; 0; 0; 0; 0; 0; 0; 0; 0; 0; 0; 0; 0; 0; 0; 0; 0; 0; 0;
   0; 0; 0; 0; 0; 0; 0; 0; 0; 0; 0; 0; 0; 0; 0; 0; 0; 0; 0; 0; 0; 0; 0; 0; 0; 0; 0; 0; 0; 0; 0; 0; 0; 0; 0; 0;
   0; 0; 0; 0; 0; 0; 0; 0; 0; 0; 0; 0; 0; 0; 0; 0; 0; 0; 0; 0; 0; 0; 0; 0; 0; 0; 0; 0; 0; 0; 0; 0; 0; 0; 0; 0;
   0; 0; 0; 0; 0; 0; 0; 0; 0; 0; 0; 0; 0; 0; 0; 0; 0; 0; 0; 0; 0; 0; 0; 0; 0; 0; 0; 0; 0; 0; 0; 0; 0; 0; 0; 0;
   0; 0; 0; 0; 0; 0; 0; 0; 0; 0; 0; 0; 0; 0; 0; 0; 0; 0; 0; 0; 0; 0; 0; 0; 0; 0; 0; 0; 0; 0; 0; 0; 0; 0; 0; 0;
   0; 0; 0; 0; 0; 0; 0; 0; 0; 0; 0; 0; 0; 0; 0; 0; 0; 0; 0; 0; 0; 0; 0; 0; 0; 0; 0; 0; 0; 0; 0; 0; 0; 0; 0; 0;
   0; 0; 0; 0; 0; 0; 0; 0; 0; 0; 0; 0; 0; 0; 0; 0; 0; 0; 0; 0; 0; 0; 0; 0; 0; 0; 0; 0; 0; 0; 0; 0; 0; 0; 0; 0;
   0; 0; 0; 0; 0; 0; 0; 0; 0; 0; 0; 0; 8]
  [0x0000000000000000; 0x4000000000000000; 0x0000000000800000; 0x0000000000600004; 0x0000000080008000;
   0x0020000000000000; 0x0000000000001000; 0x0000c00000000000; 0x00000000c0000000]
  [1; 0; 0; 0; 0; 0; 0; 0; 0; 0; 0; 0; 2; 0; 0; 0; 0; 0; 0; 0; 0; 0; 0; 0; 0; 0; 0; 0; 0; 0; 0; 0; 0; 0; 0; 0;
   0; 0; 0; 0; 0; 0; 0; 0; 0; 0; 0; 0; 0; 0; 0; 0; 0; 0; 0; 0; 0; 0; 0; 0; 0; 0; 0; 0; 0; 0; 0; 0; 0; 0; 0; 0;
   0; 0; 0; 0; 0; 0; 0; 0; 0; 0; 0; 0; 0; 0; 0; 0; 0; 0; 0; 0; 0; 0; 0; 0; 0; 0; 0; 0; 0; 0; 0; 0; 0; 0; 0; 0;
   0; 0; 0; 0; 0; 0; 0; 0; 0; 0; 0; 0; 0; 0; 0; 0; 0; 0; 0; 0; 0; 0; 0; 0; 0; 0; 0; 0; 0; 0; 0; 0; 0; 0; 0; 0;
   0; 0; 0; 0; 0; 0; 0; 0; 0; 0; 0; 0; 0; 0; 0; 0; 0; 0; 0; 0; 0; 0; 0; 0; 0; 0; 0; 0; 0; 0; 0; 0; 0; 0; 0; 0;
   0; 0; 0; 0; 0; 0; 0; 0; 0; 0; 0; 0; 0; 0; 0; 0; 0; 0; 0; 0; 0; 0; 0; 0; 0; 0; 0; 3]
  [1; 2; 0; 0; 0; 0; 3; 0; 0; 0; 4; 0; 0; 0; 0; 0; 0; 0; 0; 0; 0; 0; 0; 0; 5; 0; 0; 0; 0; 0; 0; 0; 0; 0; 0; 0;
   0; 0; 0; 0; 0; 0; 0; 0; 0; 0; 0; 0; 0; 0; 0; 0; 0; 0; 0; 0; 0; 6; 0; 0; 0; 0; 0; 0; 0; 0; 0; 0; 0; 0; 0; 0;
   0; 0; 0; 0; 0; 0; 0; 0; 0; 0; 0; 0; 0; 0; 0; 0; 0; 0; 0; 0; 0; 0; 0; 0; 0; 0; 0; 0; 0; 0; 0; 0; 0; 0; 0; 0;
   0; 0; 0; 0; 0; 0; 0; 0; 7; 8]
  [0x0000000000000000; 0x4000000000000000; 0x0000000000800000; 0x2001000000000000; 0x0000800000000000;
   0x0001000000000000; 0x0007c02000000000; 0xffffffff00000000; 0xffffffffffffffff].
(** unicode-db.hpp lines 6356-6358. *)
Definition prop_oidc_data : list Z :=
  [0x00000000; 0x0000b701; 0x0000b800; 0x00038701; 0x00038800; 0x00136901; 0x00137200; 0x0019da01; 0x0019db00].
(** unicode-db.hpp lines 6359-6359. *)
Definition prop_oids_data : list Z :=
  [0x1885; 0x1886; 0x212e; 0x2118; 0x309b; 0x309c].
(** unicode-db.hpp lines 6360-6367. *)
Definition prop_olower_data : list Z :=
  [0x00000000; 0x0000aa01; 0x0000ab00; 0x0000ba01; 0x0000bb00; 0x0002b001; 0x0002b900; 0x0002c001; 0x0002c200;
   0x0002e001; 0x0002e500; 0x00034501; 0x00034600; 0x00037a01; 0x00037b00; 0x001d2c01; 0x001d6b00; 0x001d7801;
   0x001d7900; 0x001d9b01; 0x001dc000; 0x00207101; 0x00207200; 0x00207f01; 0x00208000; 0x00209001; 0x00209d00;
   0x00217001; 0x00218000; 0x0024d001; 0x0024ea00; 0x002c7c01; 0x002c7e00; 0x00a69c01; 0x00a69e00; 0x00a77001;
   0x00a77100; 0x00a7f801; 0x00a7fa00; 0x00ab5c01; 0x00ab6000; 0x01078001; 0x01078100; 0x01078301; 0x01078600;
   0x01078701; 0x0107b100; 0x0107b201; 0x0107bb00].
(** unicode-db.hpp lines 6368-6425. *)
Definition prop_omath_data : bool_trie := mkTrie 32 893 96 21 2 13 107 80 16
  [0x0000000000000000; 0x0000000040000000; 0x0000000000000000; 0x0000000000000000; 0x0000000000000000;
   0x0000000000000000; 0x0000000000000000; 0x0000000000000000; 0x0000000000000000; 0x0000000000000000;
   0x0000000000000000; 0x0000000000000000; 0x0000000000000000; 0x0000000000000000; 0x0000000000000000;
   0x0033000000270000; 0x0000000000000000; 0x0000000000000000; 0x0000000000000000; 0x0000000000000000;
   0x0000000000000000; 0x0000000000000000; 0x0000000000000000; 0x0000000000000000; 0x0000000000000000;
   0x0000000000000000; 0x0000000000000000; 0x0000000000000000; 0x0000000000000000; 0x0000000000000000;
   0x0000000000000000; 0x0000000000000000]
  [1; 2; 3; 4; 5; 6; 7; 8; 0; 0; 0; 0; 9; 0; 10; 11; 0; 0; 0; 0; 0; 0; 12; 13; 14; 15; 0; 0; 0; 0; 0; 16; 0; 0;
   0; 0; 0; 0; 17; 18; 0; 0; 0; 0; 0; 0; 0; 0; 0; 0; 0; 0; 0; 0; 0; 0; 0; 0; 0; 0; 0; 0; 0; 0; 0; 0; 0; 0; 0;
   0; 0; 0; 0; 0; 0; 0; 0; 0; 0; 0; 0; 0; 0; 0; 0; 0; 0; 0; 0; 0; 0; 0; 0; 0; 0; 0; 0; 0; 0; 0; 0; 0; 0; 0; 0;
   0; 0; 0; 0; 0; 0; 0; 0; 0; 0; 0; 0; 0; 0; 0; 0; 0; 0; 0; 0; 0; 0; 0; 0; 0; 0; 0; 0; 0; 0; 0; 0; 0; 0; 0; 0;
   0; 0; 0; 0; 0; 0; 0; 0; 0; 0; 0; 0; 0; 0; 0; 0; 0; 0; 0; 0; 0; 0; 0; 0; 0; 0; 0; 0; 0; 0; 0; 0; 0; 0; 0; 0;
   0; 0; 0; 0; 0; 0; 0; 0; 0; 0; 0; 0; 0; 0; 0; 0; 0; 0; 0; 0; 0; 0; 0; 0; 0; 0; 0; 0; 0; 0; 0; 0; 0; 0; 0; 0;
   0; 0; 0; 0; 0; 0; 0; 0; 0; 0; 0; 0; 0; 0; 0; 0; 0; 0; 0; 0; 0; 0; 0; 0; 0; 0; 0; 0; 0; 0; 0; 0; 0; 0; 0; 0;
   0; 0; 0; 0; 0; 0; 0; 0; 0; 0; 0; 0; 0; 0; 0; 0; 0; 0; 0; 0; 0; 0; 0; 0; 0; 0; 0; 0; 0; 0; 0; 0; 0; 0; 0; 0;
   0; 0; 0; 0; 0; 0; 0; 0; 0; 0; 0; 0; 0; 0; 0; 0; 0; 0; 0; 0; 0; 0; 0; 0; 0; 0; 0; 0; 0; 0; 0; 0; 0; 0; 0; 0;
   0; 0; 0; 0; 0; 0; 0; 0; 0; 0; 0; 0; 0; 0; 0; 0; 0; 0; 0; 0; 0; 0; 0; 0; 0; 0; 0; 0; 0; 0; 0; 0; 0; 0; 0; 0;
   0; 0; 0; 0; 0; 0; 0; 0; 0; 0; 0; 0; 0; 0; 0; 0; 0; 0; 0; 0; 0; 0; 0; 0; 0; 0; 0; 0; 0; 0; 0; 0; 0; 0; 0; 0;
   0; 0; 0; 0; 0; 0; 0; 0; 0; 0; 0; 0; 0; 0; 0; 0; 0; 0; 0; 0; 0; 0; 0; 0; 0; 0; 0; 0; 0; 0; 0; 0; 0; 0; 0; 0;
   0; 0; 0; 0; 0; 0; 0; 0; 0; 0; 0; 0; 0; 0; 0; 0; 0; 0; 0; 0; 0; 0; 0; 0; 0; 0; 0; 0; 0; 0; 0; 0; 0; 0; 0; 0;
   0; 0; 0; 0; 0; 0; 0; 0; 0; 0; 0; 0; 0; 0; 0; 0; 0; 0; 0; 0; 0; 0; 0; 0; 0; 0; 0; 0; 0; 0; 0; 0; 0; 0; 0; 0;
   0; 0; 0; 0; 0; 0; 0; 0; 0; 0; 0; 0; 0; 0; 0; 0; 0; 0; 0; 0; 0; 0; 0; 0; 0; 0; 0; 0; 0; 0; 0; 0; 0; 0; 0; 0;
   0; 0; 0; 0; 0; 0; 0; 0; 0; 0; 0; 0; 0; 0; 0; 0; 0; 0; 0; 0; 0; 0; 0; 0; 0; 0; 0; 0; 0; 0; 0; 0; 0; 0; 0; 0;
   0; 0; 0; 0; 0; 0; 0; 0; 0; 0; 0; 0; 0; 0; 0; 0; 0; 0; 0; 0; 0; 0; 0; 0; 0; 0; 0; 0; 0; 0; 0; 0; 0; 0; 0; 0;
   0; 0; 0; 0; 0; 0; 0; 0; 0; 0; 0; 0; 0; 0; 0; 0; 0; 0; 0; 0; 0; 0; 0; 0; 0; 0; 0; 0; 0; 0; 0; 0; 0; 0; 0; 0;
   0; 0; 0; 0; 0; 0; 0; 0; 0; 0; 0; 0; 0; 0; 0; 0; 0; 0; 0; 0; 0; 0; 0; 0; 0; 0; 0; 0; 0; 0; 0; 0; 0; 0; 0; 0;
   0; 0; 0; 0; 0; 0; 0; 0; 0; 0; 0; 0; 0; 0; 0; 0; 0; 0; 0; 0; 0; 0; 0; 0; 0; 0; 0; 0; 0; 0; 0; 0; 0; 0; 0; 0;
   0; 0; 0; 0; 0; 0; 0; 0; 0; 0; 0; 0; 0; 0; 0; 0; 0; 0; 0; 0; 0; 0; 0; 0; 0; 0; 0; 0; 0; 0; 0; 0; 0; 0; 0; 0;
   0; 0; 0; 0; 0; 0; 0; 0; 0; 0; 0; 0; 0; 0; 0; 0; 0; 0; 0; 0; 0; 0; 0; 0; 0; 0; 0; 0; 0; 0; 0; 0; 0; 0; 0; 0;
   0; 0; 0; 0; 0; 0; 0; 0; 0; 0; 0; 0; 0; 0; 0; 0; 0; 0; 0; 0; 0; 0; 0; 0; 0; 0; 0; 0; 0; 0; 0; 0; 0; 0; 0; 0;
   0; 0; 0; 0; 0; 0; 0; 0; 0; 0; 0; 0; 0; 0; 0; 0; 0; 0; 0; 0; 0; 0; 0; 0; 0; 0; 0; 0; 0; 0; 0; 0; 0; 0; 0; 0;
   0; 0; 0; 0; 0; 0; 0; 0; 0; 0; 0; 0; 0; 0; 0; 0; 0; 0; 0; 0; 0; 0; 0; 0; 0; 0; 0; 0; 19; 0; 0; 20]
  [0x0000000000000000; 0x001c000000400000; 0x6000001e00000001; 0x0000000000006000; 0x0000f8621fff0000;
   0xf1fbb3103e2ffc84; 0x00000000000003e0; 0xf0c33eb6f3e00000; 0x000000302feb3fff; 0x0000000000000f00;
   0x00b0000000000000; 0x0000000400010000; 0xf07fc00300000000; 0x00001f94000f8cc1; 0x0000000000000060;
   0x0000600f00000005; 0x0000ffc000000060; 0x0000000001fffff8; 0x300000000f000000; 0x0000010a00000000;
   0x5000000000000000]
  [1; 2]
  [1; 2; 3; 4; 5; 6; 1; 1; 1; 1; 7; 8; 9; 10; 11; 12; 0; 0; 0; 0; 0; 0; 0; 0; 0; 0; 0; 0; 0; 0; 0; 0; 0; 0; 0;
   0; 0; 0; 0; 0; 0; 0; 0; 0; 0; 0; 0; 0; 0; 0; 0; 0; 0; 0; 0; 0; 0; 0; 0; 0; 0; 0; 0; 0; 0; 0; 0; 0; 0; 0; 0;
   0; 0; 0; 0; 0; 0; 0; 0; 0; 0; 0; 0; 0; 0; 0; 0; 0; 0; 0; 0; 0; 0; 0; 0; 0; 0; 0; 0; 0; 0; 0; 0; 0; 13; 14;
   15]
  [0x0000000000000000; 0xffffffffffffffff; 0xffffffffffdfffff; 0xebffde64dfffffff; 0xffffffffffffffef;
   0x7bffffffdfdfe7bf; 0xfffffffffffdfc5f; 0xffffff3fffffffff; 0xf7fffffff7fffffd; 0xffdfffffffdfffff;
   0xffff7fffffff7fff; 0xfffffdfffffffdff; 0xffffffffffffcff7; 0x0af7fe96ffffffef; 0x5ef7f796aa96ea84;
   0x0ffffbee0ffffbff].
(** unicode-db.hpp lines 6426-6428. *)
Definition prop_oupper_data : list Z :=
  [0x00000000; 0x00216001; 0x00217000; 0x0024b601; 0x0024d000; 0x01f13001; 0x01f14a00; 0x01f15001; 0x01f16a00;
   0x01f17001; 0x01f18a00].
(** unicode-db.hpp lines 6429-6475. *)
Definition prop_pat_syn_data : bool_trie := mkTrie 32 890 96 15 0 0 0 0 0
  [0xfc00fffe00000000; 0x7800000178000001; 0x88435afe00000000; 0x0080000000800000; 0x0000000000000000;
   0x0000000000000000; 0x0000000000000000; 0x0000000000000000; 0x0000000000000000; 0x0000000000000000;
   0x0000000000000000; 0x0000000000000000; 0x0000000000000000; 0x0000000000000000; 0x0000000000000000;
   0x0000000000000000; 0x0000000000000000; 0x0000000000000000; 0x0000000000000000; 0x0000000000000000;
   0x0000000000000000; 0x0000000000000000; 0x0000000000000000; 0x0000000000000000; 0x0000000000000000;
   0x0000000000000000; 0x0000000000000000; 0x0000000000000000; 0x0000000000000000; 0x0000000000000000;
   0x0000000000000000; 0x0000000000000000]
  [1; 2; 0; 0; 0; 0; 3; 4; 4; 4; 4; 4; 4; 4; 4; 4; 5; 6; 0; 0; 4; 4; 4; 4; 4; 4; 4; 4; 4; 7; 8; 4; 4; 4; 4; 4;
   4; 4; 4; 4; 4; 4; 4; 4; 4; 9; 10; 4; 0; 0; 0; 0; 0; 0; 0; 0; 4; 11; 0; 0; 0; 0; 0; 0; 12; 0; 0; 0; 0; 0; 0;
   0; 0; 0; 0; 0; 0; 0; 0; 0; 0; 0; 0; 0; 0; 0; 0; 0; 0; 0; 0; 0; 0; 0; 0; 0; 0; 0; 0; 0; 0; 0; 0; 0; 0; 0; 0;
   0; 0; 0; 0; 0; 0; 0; 0; 0; 0; 0; 0; 0; 0; 0; 0; 0; 0; 0; 0; 0; 0; 0; 0; 0; 0; 0; 0; 0; 0; 0; 0; 0; 0; 0; 0;
   0; 0; 0; 0; 0; 0; 0; 0; 0; 0; 0; 0; 0; 0; 0; 0; 0; 0; 0; 0; 0; 0; 0; 0; 0; 0; 0; 0; 0; 0; 0; 0; 0; 0; 0; 0;
   0; 0; 0; 0; 0; 0; 0; 0; 0; 0; 0; 0; 0; 0; 0; 0; 0; 0; 0; 0; 0; 0; 0; 0; 0; 0; 0; 0; 0; 0; 0; 0; 0; 0; 0; 0;
   0; 0; 0; 0; 0; 0; 0; 0; 0; 0; 0; 0; 0; 0; 0; 0; 0; 0; 0; 0; 0; 0; 0; 0; 0; 0; 0; 0; 0; 0; 0; 0; 0; 0; 0; 0;
   0; 0; 0; 0; 0; 0; 0; 0; 0; 0; 0; 0; 0; 0; 0; 0; 0; 0; 0; 0; 0; 0; 0; 0; 0; 0; 0; 0; 0; 0; 0; 0; 0; 0; 0; 0;
   0; 0; 0; 0; 0; 0; 0; 0; 0; 0; 0; 0; 0; 0; 0; 0; 0; 0; 0; 0; 0; 0; 0; 0; 0; 0; 0; 0; 0; 0; 0; 0; 0; 0; 0; 0;
   0; 0; 0; 0; 0; 0; 0; 0; 0; 0; 0; 0; 0; 0; 0; 0; 0; 0; 0; 0; 0; 0; 0; 0; 0; 0; 0; 0; 0; 0; 0; 0; 0; 0; 0; 0;
   0; 0; 0; 0; 0; 0; 0; 0; 0; 0; 0; 0; 0; 0; 0; 0; 0; 0; 0; 0; 0; 0; 0; 0; 0; 0; 0; 0; 0; 0; 0; 0; 0; 0; 0; 0;
   0; 0; 0; 0; 0; 0; 0; 0; 0; 0; 0; 0; 0; 0; 0; 0; 0; 0; 0; 0; 0; 0; 0; 0; 0; 0; 0; 0; 0; 0; 0; 0; 0; 0; 0; 0;
   0; 0; 0; 0; 0; 0; 0; 0; 0; 0; 0; 0; 0; 0; 0; 0; 0; 0; 0; 0; 0; 0; 0; 0; 0; 0; 0; 0; 0; 0; 0; 0; 0; 0; 0; 0;
   0; 0; 0; 0; 0; 0; 0; 0; 0; 0; 0; 0; 0; 0; 0; 0; 0; 0; 0; 0; 0; 0; 0; 0; 0; 0; 0; 0; 0; 0; 0; 0; 0; 0; 0; 0;
   0; 0; 0; 0; 0; 0; 0; 0; 0; 0; 0; 0; 0; 0; 0; 0; 0; 0; 0; 0; 0; 0; 0; 0; 0; 0; 0; 0; 0; 0; 0; 0; 0; 0; 0; 0;
   0; 0; 0; 0; 0; 0; 0; 0; 0; 0; 0; 0; 0; 0; 0; 0; 0; 0; 0; 0; 0; 0; 0; 0; 0; 0; 0; 0; 0; 0; 0; 0; 0; 0; 0; 0;
   0; 0; 0; 0; 0; 0; 0; 0; 0; 0; 0; 0; 0; 0; 0; 0; 0; 0; 0; 0; 0; 0; 0; 0; 0; 0; 0; 0; 0; 0; 0; 0; 0; 0; 0; 0;
   0; 0; 0; 0; 0; 0; 0; 0; 0; 0; 0; 0; 0; 0; 0; 0; 0; 0; 0; 0; 0; 0; 0; 0; 0; 0; 0; 0; 0; 0; 0; 0; 0; 0; 0; 0;
   0; 0; 0; 0; 0; 0; 0; 0; 0; 0; 0; 0; 0; 0; 0; 0; 0; 0; 0; 0; 0; 0; 0; 0; 0; 0; 0; 0; 0; 0; 0; 0; 0; 0; 0; 0;
   0; 0; 0; 0; 0; 0; 0; 0; 0; 0; 0; 0; 0; 0; 0; 0; 0; 0; 0; 0; 0; 0; 0; 0; 0; 0; 0; 0; 0; 0; 0; 0; 0; 0; 0; 0;
   0; 0; 0; 0; 0; 0; 0; 0; 0; 0; 0; 0; 0; 0; 0; 0; 0; 0; 0; 0; 0; 0; 0; 0; 0; 0; 0; 0; 0; 0; 0; 0; 0; 0; 0; 0;
   0; 0; 0; 0; 0; 0; 0; 0; 0; 0; 0; 0; 0; 0; 0; 0; 0; 0; 0; 0; 0; 0; 0; 0; 0; 0; 0; 0; 0; 0; 0; 0; 0; 0; 0; 0;
   0; 0; 0; 0; 0; 0; 0; 0; 0; 0; 0; 0; 0; 0; 0; 0; 0; 0; 0; 0; 0; 0; 0; 0; 0; 0; 0; 0; 0; 0; 0; 0; 0; 0; 0; 0;
   0; 0; 0; 0; 0; 0; 0; 0; 0; 0; 0; 0; 0; 0; 0; 0; 0; 0; 0; 0; 0; 0; 0; 0; 0; 0; 0; 0; 0; 0; 0; 0; 0; 0; 0; 0;
   0; 0; 0; 0; 0; 0; 0; 0; 0; 0; 0; 0; 0; 0; 0; 0; 0; 0; 0; 0; 0; 13; 0; 0; 0; 0; 14]
  [0x0000000000000000; 0x7fff00ffffff0000; 0x000000007feffffe; 0xffffffffffff0000; 0xffffffffffffffff;
   0x0000007fffffffff; 0x00000000000007ff; 0x003fffffffffffff; 0xfffffffffff00000; 0xffcfffffffffffff;
   0xffffffffffbfffff; 0x000000003fffffff; 0x00010001ffffff0e; 0xc000000000000000; 0x0000000000000060]
  []
  []
  [].
(** unicode-db.hpp lines 6476-6477. *)
Definition prop_pat_ws_data : list Z :=
  [0x0020; 0x0085; 0x2028; 0x0009; 0x000a; 0x000b; 0x000c; 0x000d; 0x200e; 0x200f; 0x2029].
(** unicode-db.hpp lines 6478-6480. *)
Definition prop_pcm_data : list Z :=
  [0x0600; 0x0601; 0x0602; 0x0603; 0x0604; 0x0605; 0x08e2; 0x110cd; 0x070f; 0x0890; 0x0891; 0x110bd; 0x06dd].
(** unicode-db.hpp lines 6481-6485. *)
Definition prop_qmark_data : list Z :=
  [0x00000000; 0x00002201; 0x00002300; 0x00002701; 0x00002800; 0x0000ab01; 0x0000ac00; 0x0000bb01; 0x0000bc00;
   0x00201801; 0x00202000; 0x00203901; 0x00203b00; 0x002e4201; 0x002e4300; 0x00300c01; 0x00301000; 0x00301d01;
   0x00302000; 0x00fe4101; 0x00fe4500; 0x00ff0201; 0x00ff0300; 0x00ff0701; 0x00ff0800; 0x00ff6201; 0x00ff6400].
(** unicode-db.hpp lines 6486-6487. *)
Definition prop_radical_data : list Z :=
  [0x00000000; 0x002e8001; 0x002e9a00; 0x002e9b01; 0x002ef400; 0x002f0001; 0x002fd600].
(** unicode-db.hpp lines 6488-6488. *)
Definition prop_ri_data : list Z :=
  [0x00000000; 0x01f1e601; 0x01f20000].
(** unicode-db.hpp lines 6489-6494. *)
Definition prop_sd_data : list Z :=
  [0x1d48a; 0x1d48b; 0x1d58e; 0x1d58f; 0x1d692; 0x1d693; 0x1d96; 0x1df1a; 0x029d; 0x1d422; 0x1d423; 0x1da4;
   0x1d526; 0x1d527; 0x1da8; 0x1d62a; 0x1d62b; 0x1e2d; 0x012f; 0x02b2; 0x1d4be; 0x1d4bf; 0x1d5c2; 0x1d5c3;
   0x2148; 0x2149; 0x0249; 0x1ecb; 0x0456; 0x1d456; 0x0458; 0x1d457; 0x1d55a; 0x1d55b; 0x1d65e; 0x1d65f;
   0x1d62; 0x0268; 0x0069; 0x006a; 0x2071; 0x1d4f2; 0x03f3; 0x1d4f3; 0x1d5f6; 0x1d5f7; 0x2c7c].
(** unicode-db.hpp lines 6495-6580. *)
Definition prop_sterm_data : bool_trie := mkTrie 32 991 1 30 255 1 322 41 25
  [0x8000400200000000; 0x0000000000000000; 0x0000000000000000; 0x0000000000000000; 0x0000000000000000;
   0x0000000000000000; 0x0000000000000000; 0x0000000000000000; 0x0000000000000000; 0x0000000000000000;
   0x0000000000000000; 0x0000000000000000; 0x0000000000000000; 0x0000000000000000; 0x0000000000000000;
   0x0000000000000000; 0x0000000000000000; 0x0000000000000000; 0x0000000000000000; 0x0000000000000000;
   0x0000000000000000; 0x0000000000000000; 0x0000000000000200; 0x0000000000000000; 0x00000000e0000000;
   0x0000000000000000; 0x0000000000000000; 0x0000000000100000; 0x0000000000000007; 0x0000000000000000;
   0x0000000000000000; 0x0200000000000000]
  [1; 1; 1; 1; 2; 1; 1; 1; 1; 1; 1; 1; 1; 1; 1; 1; 1; 1; 1; 1; 1; 1; 1; 1; 1; 1; 1; 1; 1; 1; 1; 1; 3; 1; 1; 1;
   1; 1; 1; 1; 1; 1; 1; 1; 4; 1; 1; 1; 1; 1; 1; 1; 1; 1; 1; 1; 5; 1; 1; 6; 1; 1; 1; 7; 1; 1; 1; 1; 8; 1; 1; 1;
   1; 9; 1; 1; 10; 1; 1; 11; 12; 1; 1; 1; 1; 1; 1; 1; 1; 1; 1; 1; 1; 1; 1; 13; 14; 1; 1; 1; 1; 1; 1; 1; 1; 1;
   1; 1; 1; 1; 1; 1; 1; 1; 1; 1; 1; 1; 1; 1; 1; 1; 1; 1; 1; 1; 1; 1; 1; 1; 1; 1; 1; 1; 1; 1; 1; 1; 1; 1; 1; 1;
   1; 1; 1; 1; 1; 1; 1; 1; 1; 15; 16; 1; 1; 1; 1; 1; 1; 17; 1; 1; 1; 1; 1; 1; 1; 1; 1; 1; 1; 1; 1; 1; 1; 1; 1;
   1; 1; 1; 1; 1; 1; 1; 1; 1; 1; 1; 1; 1; 1; 1; 1; 1; 1; 1; 1; 1; 1; 1; 1; 1; 1; 1; 1; 1; 1; 1; 1; 1; 1; 1; 1;
   1; 1; 1; 1; 1; 1; 1; 1; 1; 1; 1; 1; 1; 1; 1; 1; 1; 1; 1; 1; 1; 1; 1; 1; 1; 1; 1; 1; 1; 1; 1; 1; 1; 1; 1; 1;
   1; 1; 1; 1; 1; 1; 1; 1; 1; 1; 1; 1; 1; 1; 1; 1; 1; 1; 1; 1; 1; 1; 1; 1; 1; 1; 1; 1; 1; 1; 1; 1; 1; 1; 1; 1;
   1; 1; 1; 1; 1; 1; 1; 1; 1; 1; 1; 1; 1; 1; 1; 1; 1; 1; 1; 1; 1; 1; 1; 1; 1; 1; 1; 1; 1; 1; 1; 1; 1; 1; 1; 1;
   1; 1; 1; 1; 1; 1; 1; 1; 1; 1; 1; 1; 1; 1; 1; 1; 1; 1; 1; 1; 1; 1; 1; 1; 1; 1; 1; 1; 1; 1; 1; 1; 1; 1; 1; 1;
   1; 1; 1; 1; 1; 1; 1; 1; 1; 1; 1; 1; 1; 1; 1; 1; 1; 1; 1; 1; 1; 1; 1; 1; 1; 1; 1; 1; 1; 1; 1; 1; 1; 1; 1; 1;
   1; 1; 1; 1; 1; 1; 1; 1; 1; 1; 1; 1; 1; 1; 1; 1; 1; 1; 1; 1; 1; 1; 1; 1; 1; 1; 1; 1; 1; 1; 1; 1; 1; 1; 1; 1;
   1; 1; 1; 1; 1; 1; 1; 1; 1; 1; 1; 1; 1; 1; 1; 1; 1; 1; 1; 1; 1; 1; 1; 1; 1; 1; 1; 1; 1; 1; 1; 1; 1; 1; 1; 1;
   1; 1; 1; 1; 1; 1; 1; 1; 1; 1; 1; 1; 1; 1; 1; 1; 1; 1; 1; 1; 1; 1; 1; 1; 1; 1; 1; 1; 1; 1; 1; 1; 1; 1; 1; 1;
   1; 1; 1; 1; 1; 1; 1; 1; 1; 1; 1; 1; 1; 1; 1; 1; 1; 1; 1; 1; 1; 1; 1; 1; 1; 1; 1; 1; 1; 1; 1; 1; 1; 1; 1; 1;
   1; 1; 1; 1; 1; 1; 1; 1; 1; 1; 1; 1; 1; 1; 1; 1; 1; 1; 1; 1; 1; 1; 1; 1; 1; 1; 1; 1; 1; 1; 1; 1; 1; 1; 1; 1;
   1; 1; 1; 1; 1; 1; 1; 1; 1; 1; 1; 1; 1; 1; 1; 1; 1; 1; 1; 1; 1; 1; 1; 1; 1; 1; 1; 1; 1; 1; 1; 1; 1; 1; 1; 1;
   1; 1; 1; 1; 1; 1; 1; 1; 1; 1; 1; 1; 1; 1; 1; 1; 1; 18; 1; 1; 1; 1; 19; 1; 1; 20; 1; 1; 1; 1; 1; 21; 1; 19;
   22; 1; 1; 23; 1; 24; 1; 25; 1; 1; 1; 26; 1; 1; 1; 1; 1; 1; 1; 1; 1; 1; 1; 1; 1; 1; 1; 1; 1; 1; 1; 1; 1; 1;
   1; 1; 1; 1; 1; 1; 1; 1; 1; 1; 1; 1; 1; 1; 1; 1; 1; 1; 1; 1; 1; 1; 1; 1; 1; 1; 1; 1; 1; 1; 1; 1; 1; 1; 1; 1;
   1; 1; 1; 1; 1; 1; 1; 1; 1; 1; 1; 1; 1; 1; 1; 1; 1; 1; 1; 1; 1; 1; 1; 1; 1; 1; 1; 1; 1; 1; 1; 1; 1; 1; 1; 1;
   1; 1; 1; 1; 1; 1; 1; 1; 1; 1; 1; 1; 1; 1; 1; 1; 1; 1; 1; 1; 1; 1; 1; 1; 1; 1; 1; 1; 1; 1; 1; 1; 1; 1; 1; 1;
   1; 1; 1; 1; 1; 1; 1; 1; 1; 1; 1; 1; 1; 1; 1; 1; 1; 1; 1; 1; 1; 1; 1; 1; 1; 1; 1; 1; 1; 1; 1; 1; 1; 1; 1; 1;
   1; 1; 1; 1; 1; 1; 1; 1; 1; 1; 1; 1; 1; 1; 1; 1; 1; 1; 1; 1; 1; 1; 1; 1; 1; 1; 1; 1; 1; 1; 1; 1; 1; 1; 1; 1;
   1; 1; 1; 1; 1; 1; 1; 1; 1; 1; 1; 1; 1; 1; 1; 1; 1; 1; 1; 1; 1; 1; 1; 1; 1; 1; 1; 1; 1; 1; 1; 1; 1; 1; 1; 1;
   1; 1; 1; 1; 1; 1; 1; 1; 1; 1; 1; 1; 1; 1; 1; 1; 1; 1; 1; 1; 1; 1; 1; 1; 1; 1; 1; 1; 1; 1; 1; 1; 1; 1; 1; 1;
   1; 1; 1; 1; 1; 1; 1; 1; 1; 1; 1; 1; 1; 1; 1; 1; 1; 1; 1; 1; 1; 1; 1; 1; 1; 1; 1; 1; 1; 1; 1; 1; 1; 1; 1; 1;
   1; 1; 1; 1; 1; 1; 1; 1; 1; 1; 1; 1; 1; 1; 1; 1; 1; 1; 1; 27; 1; 1; 28; 29; 1; 1]
  [0x6280000000000000; 0x0000000000000000; 0x0000003000000000; 0x0000000000000c00; 0x0000018400000000;
   0x0000400000000000; 0x0060000000000000; 0x0000000000000208; 0x0000000000000030; 0x00000f0000000000;
   0x60000000cc000000; 0x1800000000000000; 0xc000000000000000; 0x3000000000000000; 0x0000000000000380;
   0x1000400000000000; 0x0000000000180000; 0x0000000000000004; 0x8000000000000000; 0x000000000000c000;
   0x0088000000000000; 0x00c0000000000000; 0x0000800000000000; 0x0000000000000300; 0x00000000e0000000;
   0x0003000000000000; 0x0000080000000000; 0x0000000000c40000; 0x0000000080004002; 0x0000000200000000]
  [1; 2; 2; 2; 2; 3; 2; 2; 2; 2; 4; 2; 5; 2; 2; 2; 2; 2; 2; 2; 2; 2; 2; 2; 2; 2; 2; 2; 2; 2; 2; 2; 2; 2; 2; 2;
   2; 2; 2; 2; 2; 2; 2; 2; 2; 2; 2; 2; 2; 2; 2; 2; 2; 2; 2; 2; 2; 2; 2; 2; 2; 2; 2; 2; 2; 2; 2; 2; 2; 2; 2; 2;
   2; 2; 2; 2; 2; 2; 2; 2; 2; 2; 2; 2; 2; 2; 2; 2; 2; 2; 2; 2; 2; 2; 2; 2; 2; 2; 2; 2; 2; 2; 2; 2; 2; 2; 2; 2;
   2; 2; 2; 2; 2; 2; 2; 2; 2; 2; 2; 2; 2; 2; 2; 2; 2; 2; 2; 2; 2; 2; 2; 2; 2; 2; 2; 2; 2; 2; 2; 2; 2; 2; 2; 2;
   2; 2; 2; 2; 2; 2; 2; 2; 2; 2; 2; 2; 2; 2; 2; 2; 2; 2; 2; 2; 2; 2; 2; 2; 2; 2; 2; 2; 2; 2; 2; 2; 2; 2; 2; 2;
   2; 2; 2; 2; 2; 2; 2; 2; 2; 2; 2; 2; 2; 2; 2; 2; 2; 2; 2; 2; 2; 2; 2; 2; 2; 2; 2; 2; 2; 2; 2; 2; 2; 2; 2; 2;
   2; 2; 2; 2; 2; 2; 2; 2; 2; 2; 2; 2; 2; 2; 2; 2; 2; 2; 2; 2; 2; 2; 2; 2; 2; 2; 2; 2; 2; 2; 2; 2; 2; 2; 2; 2;
   2; 2; 2]
  [1; 0; 0; 0; 0; 0; 0; 0; 0; 0; 0; 0; 0; 0; 0; 0; 0; 0; 0; 0; 2; 3; 0; 0; 4; 5; 6; 0; 7; 0; 8; 9; 0; 10; 0; 0;
   0; 0; 0; 0; 11; 0; 0; 0; 0; 0; 12; 0; 13; 0; 0; 14; 0; 0; 0; 0; 0; 0; 0; 0; 15; 0; 0; 0; 16; 17; 0; 0; 0; 0;
   0; 0; 13; 0; 0; 0; 0; 0; 0; 0; 0; 0; 18; 0; 0; 0; 0; 0; 0; 0; 0; 0; 0; 0; 0; 0; 0; 0; 0; 0; 0; 0; 0; 0; 0;
   0; 0; 0; 0; 0; 0; 0; 0; 0; 0; 0; 0; 0; 0; 0; 0; 0; 0; 0; 0; 0; 0; 0; 0; 0; 0; 0; 0; 0; 0; 0; 0; 0; 0; 0; 0;
   0; 0; 0; 0; 0; 0; 0; 0; 0; 0; 0; 0; 0; 0; 0; 0; 0; 0; 0; 0; 0; 0; 0; 0; 0; 0; 0; 0; 0; 0; 0; 0; 0; 0; 0; 0;
   0; 0; 0; 0; 0; 0; 0; 0; 0; 0; 0; 0; 0; 0; 0; 19; 0; 20; 18; 21; 0; 0; 0; 0; 0; 0; 0; 0; 0; 0; 0; 0; 22; 0;
   0; 0; 0; 0; 0; 0; 0; 0; 0; 0; 0; 0; 0; 0; 0; 0; 0; 0; 0; 0; 0; 0; 0; 0; 0; 0; 0; 0; 0; 0; 0; 0; 0; 0; 0; 0;
   0; 0; 0; 0; 0; 0; 0; 0; 0; 0; 0; 0; 0; 0; 0; 0; 0; 0; 23; 0; 0; 0; 0; 0; 0; 0; 0; 0; 0; 0; 0; 0; 0; 0; 0; 0;
   0; 0; 0; 0; 0; 0; 0; 0; 0; 0; 0; 0; 0; 0; 0; 0; 0; 0; 0; 0; 0; 0; 0; 0; 0; 0; 0; 0; 0; 0; 0; 0; 0; 0; 0; 0;
   0; 0; 24]
  [0x0000000000000000; 0x0000000000c00000; 0x0000000003e00000; 0x00000000000003c0; 0x0000000000000180;
   0xc000000000000000; 0x0000000000000003; 0x000000000000000e; 0x00000000c0002060; 0x1b00000000000000;
   0x0000020000000000; 0x0000000000001800; 0x0000000000fffe0c; 0x0000000000000006; 0x7000000000000000;
   0x0000000000000050; 0x000000000000000c; 0x0000000018000000; 0x0180000000000000; 0x0000c00000000000;
   0x0020000000000000; 0x0000000000000010; 0x0000000001000000; 0x0000000080000000; 0x0000000000000100].
(** unicode-db.hpp lines 6581-6672. *)
Definition prop_term_data : bool_trie := mkTrie 32 991 1 34 255 1 413 14 33
  [0x8c00500200000000; 0x0000000000000000; 0x0000000000000000; 0x0000000000000000; 0x0000000000000000;
   0x0000000000000000; 0x0000000000000000; 0x0000000000000000; 0x0000000000000000; 0x0000000000000000;
   0x0000000000000000; 0x0000000000000000; 0x0000000000000000; 0x4000000000000000; 0x0000000000000080;
   0x0000000000000000; 0x0000000000000000; 0x0000000000000000; 0x0000000000000000; 0x0000000000000000;
   0x0000000000000000; 0x0000000000000000; 0x0000000000000200; 0x0000000000000008; 0x00000000e8001000;
   0x0000000000000000; 0x0000000000000000; 0x0000000000100000; 0x00000000000017ff; 0x0000000000000000;
   0x0000000000000000; 0x0300000000000000]
  [1; 2; 2; 2; 3; 2; 2; 2; 2; 2; 2; 2; 2; 2; 2; 2; 2; 2; 2; 2; 2; 2; 2; 2; 4; 2; 2; 5; 2; 2; 2; 2; 6; 2; 2; 2;
   2; 2; 2; 2; 2; 2; 2; 2; 7; 2; 2; 2; 2; 2; 2; 2; 2; 2; 2; 2; 8; 2; 9; 10; 2; 2; 11; 12; 2; 2; 2; 2; 13; 2; 2;
   2; 2; 14; 2; 2; 15; 2; 2; 16; 17; 2; 2; 2; 2; 2; 2; 2; 2; 2; 2; 2; 2; 2; 2; 18; 19; 2; 2; 2; 2; 2; 2; 2; 2;
   2; 2; 2; 2; 2; 2; 2; 2; 2; 2; 2; 2; 2; 2; 2; 2; 2; 2; 2; 2; 2; 2; 2; 2; 2; 2; 2; 2; 2; 2; 2; 2; 2; 2; 2; 2;
   2; 2; 2; 2; 2; 2; 2; 2; 2; 2; 20; 21; 2; 2; 2; 2; 2; 2; 22; 2; 2; 2; 2; 2; 2; 2; 2; 2; 2; 2; 2; 2; 2; 2; 2;
   2; 2; 2; 2; 2; 2; 2; 2; 2; 2; 2; 2; 2; 2; 2; 2; 2; 2; 2; 2; 2; 2; 2; 2; 2; 2; 2; 2; 2; 2; 2; 2; 2; 2; 2; 2;
   2; 2; 2; 2; 2; 2; 2; 2; 2; 2; 2; 2; 2; 2; 2; 2; 2; 2; 2; 2; 2; 2; 2; 2; 2; 2; 2; 2; 2; 2; 2; 2; 2; 2; 2; 2;
   2; 2; 2; 2; 2; 2; 2; 2; 2; 2; 2; 2; 2; 2; 2; 2; 2; 2; 2; 2; 2; 2; 2; 2; 2; 2; 2; 2; 2; 2; 2; 2; 2; 2; 2; 2;
   2; 2; 2; 2; 2; 2; 2; 2; 2; 2; 2; 2; 2; 2; 2; 2; 2; 2; 2; 2; 2; 2; 2; 2; 2; 2; 2; 2; 2; 2; 2; 2; 2; 2; 2; 2;
   2; 2; 2; 2; 2; 2; 2; 2; 2; 2; 2; 2; 2; 2; 2; 2; 2; 2; 2; 2; 2; 2; 2; 2; 2; 2; 2; 2; 2; 2; 2; 2; 2; 2; 2; 2;
   2; 2; 2; 2; 2; 2; 2; 2; 2; 2; 2; 2; 2; 2; 2; 2; 2; 2; 2; 2; 2; 2; 2; 2; 2; 2; 2; 2; 2; 2; 2; 2; 2; 2; 2; 2;
   2; 2; 2; 2; 2; 2; 2; 2; 2; 2; 2; 2; 2; 2; 2; 2; 2; 2; 2; 2; 2; 2; 2; 2; 2; 2; 2; 2; 2; 2; 2; 2; 2; 2; 2; 2;
   2; 2; 2; 2; 2; 2; 2; 2; 2; 2; 2; 2; 2; 2; 2; 2; 2; 2; 2; 2; 2; 2; 2; 2; 2; 2; 2; 2; 2; 2; 2; 2; 2; 2; 2; 2;
   2; 2; 2; 2; 2; 2; 2; 2; 2; 2; 2; 2; 2; 2; 2; 2; 2; 2; 2; 2; 2; 2; 2; 2; 2; 2; 2; 2; 2; 2; 2; 2; 2; 2; 2; 2;
   2; 2; 2; 2; 2; 2; 2; 2; 2; 2; 2; 2; 2; 2; 2; 2; 2; 2; 2; 2; 2; 2; 2; 2; 2; 2; 2; 2; 2; 2; 2; 2; 2; 2; 2; 2;
   2; 2; 2; 2; 2; 2; 2; 2; 2; 2; 2; 2; 2; 2; 2; 2; 2; 2; 2; 2; 2; 2; 2; 2; 2; 2; 2; 2; 2; 2; 2; 2; 2; 2; 2; 2;
   2; 2; 2; 2; 2; 2; 2; 2; 2; 2; 2; 2; 2; 2; 2; 2; 2; 2; 2; 2; 2; 2; 2; 2; 2; 2; 2; 2; 2; 2; 2; 2; 2; 2; 2; 2;
   2; 2; 2; 2; 2; 2; 2; 2; 2; 2; 2; 2; 2; 2; 2; 2; 2; 2; 17; 2; 2; 2; 2; 23; 2; 2; 24; 2; 2; 2; 2; 2; 25; 2;
   26; 27; 2; 2; 19; 2; 28; 2; 29; 2; 2; 2; 30; 2; 2; 2; 2; 2; 2; 2; 2; 2; 2; 2; 2; 2; 2; 2; 2; 2; 2; 2; 2; 2;
   2; 2; 2; 2; 2; 2; 2; 2; 2; 2; 2; 2; 2; 2; 2; 2; 2; 2; 2; 2; 2; 2; 2; 2; 2; 2; 2; 2; 2; 2; 2; 2; 2; 2; 2; 2;
   2; 2; 2; 2; 2; 2; 2; 2; 2; 2; 2; 2; 2; 2; 2; 2; 2; 2; 2; 2; 2; 2; 2; 2; 2; 2; 2; 2; 2; 2; 2; 2; 2; 2; 2; 2;
   2; 2; 2; 2; 2; 2; 2; 2; 2; 2; 2; 2; 2; 2; 2; 2; 2; 2; 2; 2; 2; 2; 2; 2; 2; 2; 2; 2; 2; 2; 2; 2; 2; 2; 2; 2;
   2; 2; 2; 2; 2; 2; 2; 2; 2; 2; 2; 2; 2; 2; 2; 2; 2; 2; 2; 2; 2; 2; 2; 2; 2; 2; 2; 2; 2; 2; 2; 2; 2; 2; 2; 2;
   2; 2; 2; 2; 2; 2; 2; 2; 2; 2; 2; 2; 2; 2; 2; 2; 2; 2; 2; 2; 2; 2; 2; 2; 2; 2; 2; 2; 2; 2; 2; 2; 2; 2; 2; 2;
   2; 2; 2; 2; 2; 2; 2; 2; 2; 2; 2; 2; 2; 2; 2; 2; 2; 2; 2; 2; 2; 2; 2; 2; 2; 2; 2; 2; 2; 2; 2; 2; 2; 2; 2; 2;
   2; 2; 2; 2; 2; 2; 2; 2; 2; 2; 2; 2; 2; 2; 2; 2; 2; 2; 2; 2; 2; 2; 2; 2; 2; 2; 2; 2; 2; 2; 2; 2; 2; 2; 2; 2;
   2; 2; 2; 2; 2; 2; 2; 2; 2; 2; 2; 2; 2; 2; 2; 2; 2; 2; 2; 2; 2; 2; 2; 2; 2; 2; 2; 2; 2; 2; 2; 2; 2; 2; 2; 2;
   2; 2; 2; 2; 2; 2; 2; 2; 2; 2; 2; 2; 2; 2; 2; 2; 2; 2; 2; 2; 31; 2; 2; 32; 33; 2; 2]
  [0x7fff000000000000; 0x0000000040000000; 0x0000000000000000; 0x0000003000000000; 0x000000000c000000;
   0x000000000007e100; 0x0000000000000c00; 0x000001fe00000000; 0x0000400000000000; 0x0000380000000000;
   0x0060000000000000; 0x0000000004700000; 0x000000000000033c; 0x0000000000000030; 0x00000f0000000000;
   0x60000000ec000000; 0xf800000000000000; 0xc000000000000000; 0x3000000000000000; 0x0000000000000380;
   0x1000400000000000; 0x000000000018d002; 0x0000000000000006; 0x000000000000e000; 0x00f8000000000000;
   0x00c0000000000000; 0x000000000000c000; 0x0000800000000000; 0x00000000e0000000; 0x0003000080000000;
   0x0000080000000000; 0x0000000000f70000; 0x000000008c005002; 0x0000001200000000]
  [1; 2; 3; 3; 3; 4; 3; 3; 3; 3; 5; 3; 6; 3; 3; 3; 3; 3; 3; 3; 3; 3; 3; 3; 3; 3; 3; 3; 3; 3; 3; 3; 3; 3; 3; 3;
   3; 3; 3; 3; 3; 3; 3; 3; 3; 3; 3; 3; 3; 3; 3; 3; 3; 3; 3; 3; 3; 3; 3; 3; 3; 3; 3; 3; 3; 3; 3; 3; 3; 3; 3; 3;
   3; 3; 3; 3; 3; 3; 3; 3; 3; 3; 3; 3; 3; 3; 3; 3; 3; 3; 3; 3; 3; 3; 3; 3; 3; 3; 3; 3; 3; 3; 3; 3; 3; 3; 3; 3;
   3; 3; 3; 3; 3; 3; 3; 3; 3; 3; 3; 3; 3; 3; 3; 3; 3; 3; 3; 3; 3; 3; 3; 3; 3; 3; 3; 3; 3; 3; 3; 3; 3; 3; 3; 3;
   3; 3; 3; 3; 3; 3; 3; 3; 3; 3; 3; 3; 3; 3; 3; 3; 3; 3; 3; 3; 3; 3; 3; 3; 3; 3; 3; 3; 3; 3; 3; 3; 3; 3; 3; 3;
   3; 3; 3; 3; 3; 3; 3; 3; 3; 3; 3; 3; 3; 3; 3; 3; 3; 3; 3; 3; 3; 3; 3; 3; 3; 3; 3; 3; 3; 3; 3; 3; 3; 3; 3; 3;
   3; 3; 3; 3; 3; 3; 3; 3; 3; 3; 3; 3; 3; 3; 3; 3; 3; 3; 3; 3; 3; 3; 3; 3; 3; 3; 3; 3; 3; 3; 3; 3; 3; 3; 3; 3;
   3; 3; 3]
  [1; 2; 0; 0; 0; 0; 0; 0; 0; 0; 0; 0; 0; 0; 0; 0; 0; 0; 0; 3; 0; 0; 1; 0; 0; 0; 0; 4; 0; 5; 6; 0; 7; 0; 0; 0;
   0; 0; 0; 0; 0; 0; 0; 0; 0; 0; 0; 8; 9; 0; 0; 10; 11; 12; 0; 13; 0; 14; 15; 0; 16; 0; 0; 0; 0; 0; 0; 17; 0;
   0; 0; 0; 0; 18; 0; 19; 0; 0; 20; 0; 0; 0; 0; 0; 0; 0; 0; 21; 0; 0; 0; 22; 23; 0; 0; 0; 0; 0; 0; 24; 0; 0; 0;
   0; 0; 0; 0; 0; 0; 25; 0; 0; 0; 0; 0; 0; 0; 0; 0; 0; 0; 0; 0; 0; 0; 0; 0; 0; 0; 0; 0; 26; 0; 0; 0; 0; 0; 0;
   0; 0; 0; 0; 0; 0; 0; 0; 0; 0; 0; 0; 0; 0; 0; 0; 0; 0; 0; 0; 0; 0; 0; 0; 0; 0; 0; 0; 0; 0; 0; 0; 0; 0; 0; 0;
   0; 0; 0; 0; 0; 0; 0; 0; 0; 0; 0; 0; 0; 0; 0; 0; 0; 0; 0; 0; 0; 0; 0; 0; 0; 0; 0; 0; 0; 0; 0; 0; 0; 0; 0; 0;
   0; 0; 0; 0; 0; 0; 0; 0; 0; 0; 0; 0; 0; 0; 0; 0; 0; 0; 0; 0; 0; 0; 0; 0; 0; 0; 0; 0; 0; 0; 0; 0; 0; 0; 0; 0;
   0; 0; 0; 0; 0; 0; 0; 0; 0; 0; 0; 0; 0; 0; 0; 0; 0; 0; 0; 0; 0; 0; 0; 0; 0; 0; 0; 0; 0; 0; 0; 0; 0; 0; 0; 0;
   0; 27; 0; 28; 29; 30; 0; 0; 0; 0; 0; 0; 0; 0; 0; 0; 0; 0; 31; 0; 0; 0; 0; 0; 0; 0; 0; 0; 0; 0; 0; 0; 0; 0;
   0; 0; 0; 0; 0; 0; 0; 0; 0; 0; 0; 0; 0; 0; 0; 0; 0; 0; 0; 0; 0; 0; 0; 0; 0; 0; 0; 0; 0; 0; 0; 0; 0; 0; 0; 0;
   0; 0; 0; 0; 1; 0; 0; 0; 0; 0; 0; 0; 0; 0; 0; 0; 0; 0; 0; 0; 0; 0; 0; 0; 0; 0; 0; 0; 0; 0; 0; 0; 0; 0; 0; 0;
   0; 0; 0; 0; 0; 0; 0; 0; 0; 0; 0; 0; 0; 0; 0; 0; 0; 0; 0; 0; 0; 0; 0; 0; 32]
  [0x0000000000000000; 0x0000000080000000; 0x0000000000010000; 0x0000000000800000; 0x0000000000c00000;
   0x003f000000000000; 0xfc00000000000000; 0x000000001e000000; 0x0000000003e00000; 0x00000000000003c0;
   0x0000000000003f80; 0xc000000000000000; 0x0000000000000003; 0x000000000000000e; 0x00000000c0002060;
   0x1f00000000000000; 0x0000020000000000; 0x000000000c003800; 0x0000000000fffe3c; 0x0000000000000006;
   0x7000000000000000; 0x0000000000000050; 0x000000000000000c; 0x0000000618000000; 0x000200000000000e;
   0x0180000000000000; 0x001f000000000000; 0x0000c00000000000; 0x0020000000000000; 0x0380000000000000;
   0x0000000000000010; 0x0000000001800000; 0x0000000000000780].
(** unicode-db.hpp lines 6673-6678. *)
Definition prop_uideo_data : list Z :=
  [0x00000000; 0x00340001; 0x004dc000; 0x004e0001; 0x00a00000; 0x00fa0e01; 0x00fa1000; 0x00fa1101; 0x00fa1200;
   0x00fa1301; 0x00fa1500; 0x00fa1f01; 0x00fa2000; 0x00fa2101; 0x00fa2200; 0x00fa2301; 0x00fa2500; 0x00fa2701;
   0x00fa2a00; 0x02000001; 0x02a6e000; 0x02a70001; 0x02b73900; 0x02b74001; 0x02b81e00; 0x02b82001; 0x02cea200;
   0x02ceb001; 0x02ebe100; 0x03000001; 0x03134b00].
(** unicode-db.hpp lines 6679-6681. *)
Definition prop_vs_data : list Z :=
  [0x00000000; 0x00180b01; 0x00180e00; 0x00180f01; 0x00181000; 0x00fe0001; 0x00fe1000; 0x0e010001; 0x0e01f000].
(** unicode-db.hpp lines 6682-6685. *)
Definition prop_wspace_data : list Z :=
  [0x00000000; 0x00000901; 0x00000e00; 0x00002001; 0x00002100; 0x00008501; 0x00008600; 0x0000a001; 0x0000a100;
   0x00168001; 0x00168100; 0x00200001; 0x00200b00; 0x00202801; 0x00202a00; 0x00202f01; 0x00203000; 0x00205f01;
   0x00206000; 0x00300001; 0x00300100].
(** unicode-db.hpp lines 6686-6901. *)
Definition prop_xidc_data : bool_trie := mkTrie 32 991 1 127 255 1 1407 1 134
  [0x03ff000000000000; 0x07fffffe87fffffe; 0x04a0040000000000; 0xff7fffffff7fffff; 0xffffffffffffffff;
   0xffffffffffffffff; 0xffffffffffffffff; 0xffffffffffffffff; 0xffffffffffffffff; 0xffffffffffffffff;
   0xffffffffffffffff; 0x0000501f0003ffc3; 0xffffffffffffffff; 0xb8dfffffffffffff; 0xfffffffbffffd7c0;
   0xffbfffffffffffff; 0xffffffffffffffff; 0xffffffffffffffff; 0xfffffffffffffcfb; 0xffffffffffffffff;
   0xfffeffffffffffff; 0xffffffff027fffff; 0xbffffffffffe01ff; 0x000787ffffff00b6; 0xffffffff07ff0000;
   0xffffc3ffffffffff; 0xffffffffffffffff; 0x9ffffdff9fefffff; 0xffffffffffff0000; 0xffffffffffffe7ff;
   0x0003ffffffffffff; 0x243fffffffffffff]
  [1; 2; 3; 4; 5; 6; 7; 8; 9; 10; 11; 12; 13; 14; 15; 16; 17; 18; 19; 20; 21; 22; 23; 24; 25; 26; 27; 28; 29;
   30; 31; 4; 32; 33; 34; 4; 4; 4; 4; 4; 35; 36; 37; 38; 39; 40; 41; 42; 4; 4; 4; 4; 4; 4; 4; 4; 43; 44; 45;
   46; 47; 4; 48; 49; 50; 51; 52; 53; 54; 55; 56; 57; 58; 59; 60; 4; 61; 4; 62; 63; 64; 65; 66; 4; 4; 4; 4; 4;
   4; 4; 4; 67; 68; 69; 70; 71; 72; 73; 74; 75; 76; 77; 78; 78; 78; 78; 78; 78; 78; 78; 78; 78; 78; 78; 78; 78;
   78; 78; 78; 78; 78; 78; 78; 78; 78; 78; 78; 78; 78; 78; 78; 78; 78; 78; 78; 78; 78; 78; 78; 78; 78; 78; 78;
   4; 4; 4; 79; 80; 81; 82; 83; 78; 78; 78; 78; 78; 78; 78; 78; 84; 42; 85; 86; 87; 4; 88; 89; 78; 78; 78; 78;
   78; 78; 78; 78; 4; 4; 4; 4; 4; 4; 4; 4; 4; 4; 4; 4; 4; 4; 4; 4; 4; 4; 4; 4; 4; 4; 4; 4; 4; 4; 4; 4; 4; 4; 4;
   4; 4; 4; 4; 4; 4; 4; 4; 4; 4; 4; 4; 4; 4; 4; 4; 4; 4; 4; 4; 4; 4; 4; 4; 4; 4; 4; 4; 4; 4; 4; 4; 4; 4; 4; 4;
   4; 4; 4; 4; 4; 4; 4; 4; 4; 4; 4; 4; 4; 4; 4; 4; 4; 4; 4; 4; 4; 4; 4; 4; 4; 4; 4; 4; 4; 4; 4; 4; 4; 4; 4; 4;
   78; 4; 4; 4; 4; 4; 4; 4; 4; 4; 4; 4; 4; 4; 4; 4; 4; 4; 4; 4; 4; 4; 4; 4; 4; 4; 4; 4; 4; 4; 4; 4; 4; 4; 4; 4;
   4; 4; 4; 4; 4; 4; 4; 4; 4; 4; 4; 4; 4; 4; 4; 4; 4; 4; 4; 4; 4; 4; 4; 4; 4; 4; 4; 4; 4; 4; 4; 4; 4; 4; 4; 4;
   4; 4; 4; 4; 4; 4; 4; 4; 4; 4; 4; 4; 4; 4; 4; 4; 4; 4; 4; 4; 4; 4; 4; 4; 4; 4; 4; 4; 4; 4; 4; 4; 4; 4; 4; 4;
   4; 4; 4; 4; 4; 4; 4; 4; 4; 4; 4; 4; 4; 4; 4; 4; 4; 4; 4; 4; 4; 4; 4; 4; 4; 4; 4; 4; 4; 4; 4; 4; 4; 4; 4; 4;
   4; 4; 4; 4; 4; 4; 4; 4; 4; 4; 4; 4; 4; 4; 4; 4; 4; 4; 4; 4; 4; 4; 4; 4; 4; 4; 4; 4; 4; 4; 4; 4; 4; 4; 4; 4;
   4; 4; 4; 4; 4; 4; 4; 4; 4; 4; 4; 4; 4; 4; 4; 4; 4; 4; 4; 4; 4; 4; 4; 4; 4; 4; 4; 4; 4; 4; 4; 4; 4; 4; 4; 4;
   4; 4; 4; 4; 4; 4; 4; 4; 4; 4; 4; 4; 4; 4; 4; 4; 4; 4; 4; 4; 4; 4; 4; 4; 4; 4; 4; 4; 4; 4; 4; 4; 4; 4; 4; 4;
   4; 4; 4; 4; 4; 4; 4; 4; 4; 4; 4; 4; 4; 4; 4; 4; 4; 4; 4; 4; 4; 4; 4; 4; 4; 4; 4; 4; 4; 4; 4; 4; 4; 4; 4; 4;
   4; 4; 4; 4; 4; 4; 4; 4; 4; 4; 4; 4; 4; 4; 4; 4; 4; 4; 4; 4; 4; 4; 4; 4; 4; 4; 4; 4; 4; 4; 4; 4; 4; 4; 4; 4;
   4; 4; 4; 4; 4; 4; 4; 4; 4; 4; 4; 4; 4; 4; 4; 4; 4; 4; 4; 4; 4; 4; 4; 90; 91; 4; 4; 4; 4; 92; 93; 4; 94; 95;
   4; 96; 97; 98; 62; 4; 99; 100; 101; 4; 102; 103; 104; 4; 105; 106; 107; 4; 108; 4; 4; 4; 4; 4; 4; 4; 4; 4;
   4; 4; 4; 4; 4; 4; 4; 4; 4; 4; 4; 4; 4; 4; 4; 4; 4; 4; 4; 4; 4; 4; 4; 4; 4; 4; 4; 4; 4; 4; 4; 4; 4; 4; 4; 4;
   4; 4; 4; 4; 4; 4; 4; 4; 4; 4; 4; 4; 4; 4; 4; 4; 4; 4; 4; 4; 4; 4; 4; 4; 4; 4; 4; 4; 4; 4; 4; 4; 4; 4; 4; 4;
   4; 4; 4; 4; 4; 4; 4; 4; 4; 4; 4; 4; 4; 4; 4; 4; 4; 4; 4; 4; 4; 4; 4; 4; 4; 4; 4; 4; 4; 4; 4; 4; 4; 4; 4; 4;
   4; 4; 4; 4; 4; 4; 4; 4; 4; 4; 4; 4; 4; 4; 4; 4; 4; 4; 4; 4; 4; 4; 4; 4; 4; 4; 4; 4; 4; 4; 4; 4; 4; 4; 4; 4;
   4; 4; 4; 4; 4; 4; 4; 4; 4; 4; 4; 4; 4; 4; 4; 4; 4; 4; 4; 4; 4; 109; 110; 78; 78; 78; 78; 78; 78; 78; 78; 78;
   78; 78; 78; 78; 78; 78; 78; 78; 78; 78; 78; 78; 78; 78; 78; 78; 78; 78; 78; 78; 78; 78; 78; 78; 78; 78; 78;
   78; 78; 78; 78; 78; 78; 78; 78; 78; 78; 78; 78; 78; 78; 78; 78; 78; 78; 78; 78; 78; 78; 78; 78; 78; 78; 78;
   78; 78; 78; 78; 78; 78; 78; 78; 78; 78; 78; 78; 78; 78; 78; 78; 78; 78; 78; 78; 78; 78; 78; 78; 78; 78; 78;
   78; 78; 78; 78; 78; 78; 78; 78; 78; 78; 78; 78; 78; 78; 78; 78; 78; 78; 78; 78; 78; 78; 78; 78; 78; 78; 78;
   78; 78; 78; 78; 78; 78; 78; 78; 78; 78; 78; 78; 78; 78; 78; 4; 4; 4; 4; 4; 100; 4; 111; 112; 113; 94; 114;
   4; 115; 4; 4; 116; 117; 118; 119; 120; 121; 4; 122; 123; 124; 125; 126]
  [0x00003fffffffffff; 0xffff07ff0fffffff; 0xffffffffff007eff; 0xfffffffbffffffff; 0xffffffffffffffff;
   0xfffeffcfffffffff; 0xf3c5fdfffff99fef; 0x5003ffcfb080799f; 0xd36dfdfffff987ee; 0x003fffc05e023987;
   0xf3edfdfffffbbfee; 0xfe00ffcf00013bbf; 0xf3edfdfffff99fee; 0x0002ffcfb0e0399f; 0xc3ffc718d63dc7ec;
   0x0000ffc000813dc7; 0xf3fffdfffffddfff; 0x0000ffcf27603ddf; 0xf3effdfffffddfef; 0x0006ffcf60603ddf;
   0xfffffffffffddfff; 0xfc00ffcf80f07ddf; 0x2ffbfffffc7fffee; 0x000cffc0ff5f847f; 0x07fffffffffffffe;
   0x0000000003ff7fff; 0x3fffffaffffff7d6; 0x00000000f3ff3f5f; 0xc2a003ff03000001; 0xfffe1ffffffffeff;
   0x1ffffffffeffffdf; 0x0000000000000040; 0xffffffffffff03ff; 0xffffffff3fffffff; 0xf7ffffffffff20bf;
   0xffffffff3d7f3dff; 0x7f3dffffffff3dff; 0xffffffffff7fff3d; 0xffffffffff3dffff; 0x0003fe00e7ffffff;
   0xffffffff0000ffff; 0x3f3fffffffffffff; 0xfffffffffffffffe; 0xffff9fffffffffff; 0xffffffff07fffffe;
   0x01ffc7ffffffffff; 0x001fffff803fffff; 0x000ddfff000fffff; 0x000003ff308fffff; 0xffffffff03ffb800;
   0x01ffffffffffffff; 0xffff07ffffffffff; 0x003fffffffffffff; 0x0fff0fff7fffffff; 0x001f3fffffffffc0;
   0xffff0fffffffffff; 0x0000000007ff03ff; 0xffffffff0fffffff; 0x9fffffff7fffffff; 0xbfff008003ff03ff;
   0x0000000000007fff; 0x000ff80003ff1fff; 0x000fffffffffffff; 0x00ffffffffffffff; 0x3fffffffffffe3ff;
   0xe7ffffffffff01ff; 0x07fffffffff70000; 0xffffffff3f3fffff; 0x3fffffffaaff3f3f; 0x5fdfffffffffffff;
   0x1fdc1fff0fcf1fdc; 0x8000000000000000; 0x8002000000100001; 0x000000001fff0000; 0x0001ffe21fff0000;
   0xf3fffd503f2ffc84; 0xffffffff000043e0; 0x00000000000001ff; 0x0000000000000000; 0x000ff81fffffffff;
   0xffff20bfffffffff; 0x800080ffffffffff; 0x7f7f7f7f007fffff; 0xffffffff7f7f7f7f; 0x1f3efffe000000e0;
   0xfffffffee67fffff; 0xf7ffffffffffffff; 0xfffeffffffffffe0; 0xffffffff00007fff; 0xffff000000000000;
   0x0000000000001fff; 0x3fffffffffff0000; 0x00000fffffff1fff; 0xbff0ffffffffffff; 0x0003ffffffffffff;
   0xfffffffcff800000; 0xfffffffffffff9ff; 0xfffc000003eb07ff; 0x000010ffffffffff; 0xe8ffffff03ff003f;
   0xffff3fffffffffff; 0x1fffffff000fffff; 0x7fffffff03ff8001; 0x007fffffffffffff; 0xfc7fffff03ff3fff;
   0x007cffff38000007; 0xffff7f7f007e7e7e; 0xffff03fff7ffffff; 0x03ff37ffffffffff; 0xffff000fffffffff;
   0x0ffffffffffff87f; 0x0000000003ffffff; 0x5f7ffdffe0f8007f; 0xffffffffffffffdb; 0xfffffffffff80000;
   0xfffffff03fffffff; 0x3fffffffffffffff; 0xffffffffffff0000; 0xfffffffffffcffff; 0x03ff0000000000ff;
   0x0018ffff0000ffff; 0xaa8a00000000e000; 0x1fffffffffffffff; 0x87fffffe03ff0000; 0xffffffc007fffffe;
   0x7fffffffffffffff; 0x000000001cfcfcfc]
  [1; 2; 3; 4; 5; 6; 7; 8; 5; 9; 10; 11; 12; 13; 14; 7; 7; 7; 7; 7; 7; 7; 7; 7; 7; 15; 16; 17; 7; 18; 19; 7;
   20; 5; 5; 5; 5; 5; 5; 5; 5; 5; 5; 5; 5; 5; 5; 5; 5; 5; 5; 5; 5; 5; 5; 5; 5; 5; 5; 5; 5; 5; 5; 5; 5; 5; 5; 5;
   5; 5; 5; 5; 5; 5; 5; 5; 5; 5; 5; 5; 5; 5; 5; 5; 5; 5; 5; 5; 5; 5; 5; 5; 5; 5; 5; 5; 5; 5; 5; 5; 5; 5; 5; 5;
   5; 5; 5; 5; 5; 5; 5; 5; 5; 5; 5; 5; 5; 5; 5; 5; 5; 5; 5; 5; 5; 5; 5; 5; 5; 5; 5; 5; 5; 5; 5; 5; 5; 5; 5; 5;
   5; 5; 5; 5; 5; 5; 5; 5; 5; 5; 5; 5; 5; 5; 5; 5; 5; 5; 5; 5; 5; 5; 5; 5; 5; 5; 5; 5; 5; 5; 5; 5; 5; 5; 5; 5;
   5; 5; 5; 5; 5; 5; 5; 5; 5; 5; 5; 5; 5; 5; 5; 5; 5; 5; 5; 5; 5; 5; 5; 5; 5; 5; 5; 5; 5; 5; 5; 21; 5; 5; 5; 5;
   5; 5; 5; 5; 5; 5; 5; 5; 5; 5; 5; 5; 5; 5; 5; 5; 5; 5; 5; 5; 5; 5; 5; 5; 5; 5; 5; 5; 5; 5; 5; 5; 5; 5; 5; 5;
   5; 5; 5; 5; 5; 5; 5]
  [1; 2; 3; 4; 5; 4; 6; 4; 4; 7; 8; 9; 10; 11; 12; 2; 2; 13; 14; 15; 16; 17; 4; 2; 2; 2; 2; 18; 19; 20; 4; 21;
   22; 23; 24; 25; 4; 26; 4; 27; 28; 29; 30; 31; 32; 33; 4; 2; 34; 35; 35; 36; 4; 4; 4; 4; 4; 37; 4; 38; 39;
   40; 41; 2; 42; 3; 43; 44; 45; 2; 46; 47; 4; 48; 49; 50; 51; 4; 4; 2; 52; 2; 53; 4; 4; 54; 55; 2; 56; 57; 58;
   59; 60; 4; 4; 3; 4; 61; 62; 63; 64; 65; 66; 67; 68; 69; 57; 4; 4; 4; 4; 70; 71; 72; 4; 73; 74; 75; 4; 4; 4;
   4; 76; 4; 4; 77; 4; 2; 2; 2; 2; 2; 2; 2; 2; 2; 2; 2; 2; 2; 2; 78; 4; 2; 79; 2; 2; 2; 80; 4; 4; 4; 4; 4; 4;
   4; 4; 4; 4; 4; 4; 4; 4; 4; 4; 4; 4; 4; 4; 4; 4; 4; 4; 4; 4; 4; 4; 4; 4; 4; 4; 4; 4; 4; 4; 4; 4; 4; 4; 81;
   82; 2; 2; 2; 2; 2; 2; 2; 2; 2; 2; 2; 2; 2; 2; 2; 2; 79; 4; 4; 4; 4; 4; 4; 4; 4; 4; 4; 4; 4; 4; 4; 4; 4; 4;
   4; 4; 4; 4; 4; 4; 4; 4; 4; 4; 4; 4; 4; 4; 4; 4; 4; 4; 4; 4; 4; 4; 4; 4; 4; 4; 4; 4; 4; 4; 4; 4; 4; 4; 4; 4;
   4; 4; 4; 4; 4; 4; 4; 4; 4; 4; 2; 2; 2; 2; 2; 2; 2; 2; 2; 60; 4; 4; 4; 4; 4; 4; 4; 4; 4; 4; 4; 4; 4; 4; 4; 4;
   4; 4; 4; 4; 4; 4; 4; 4; 4; 4; 4; 4; 4; 4; 4; 4; 4; 4; 4; 4; 4; 4; 4; 4; 4; 4; 4; 4; 4; 4; 4; 4; 4; 4; 4; 4;
   4; 4; 4; 4; 4; 4; 4; 4; 4; 4; 4; 4; 4; 4; 4; 4; 4; 4; 4; 4; 4; 4; 4; 4; 4; 4; 4; 4; 4; 4; 4; 4; 4; 4; 4; 4;
   4; 4; 4; 4; 4; 4; 4; 4; 4; 4; 4; 4; 4; 4; 4; 4; 4; 4; 4; 4; 4; 4; 4; 4; 4; 4; 4; 4; 4; 4; 4; 4; 4; 4; 4; 4;
   4; 4; 4; 4; 4; 4; 4; 4; 4; 4; 2; 2; 2; 2; 2; 2; 2; 2; 57; 83; 67; 84; 18; 85; 86; 4; 4; 4; 4; 4; 4; 4; 4; 4;
   4; 2; 4; 4; 2; 87; 88; 89; 2; 2; 2; 2; 2; 2; 2; 2; 2; 2; 2; 2; 2; 2; 2; 2; 2; 2; 2; 2; 2; 2; 2; 2; 2; 2; 2;
   2; 2; 2; 2; 2; 2; 2; 2; 2; 2; 2; 2; 2; 2; 2; 2; 2; 2; 2; 2; 2; 2; 2; 2; 2; 2; 2; 2; 2; 2; 2; 2; 2; 2; 2; 2;
   2; 2; 2; 2; 2; 2; 2; 2; 2; 2; 2; 2; 2; 2; 2; 2; 2; 2; 2; 2; 2; 2; 2; 2; 2; 2; 2; 2; 2; 2; 2; 2; 90; 2; 2; 2;
   2; 2; 2; 2; 2; 2; 2; 2; 2; 2; 2; 2; 2; 2; 2; 2; 91; 34; 4; 4; 4; 4; 4; 4; 4; 4; 4; 4; 4; 4; 4; 4; 4; 4; 4;
   4; 4; 4; 4; 4; 4; 4; 4; 4; 4; 4; 4; 4; 4; 4; 4; 4; 4; 4; 4; 4; 4; 4; 4; 4; 4; 4; 4; 4; 4; 4; 4; 4; 4; 4; 4;
   4; 4; 4; 4; 4; 4; 4; 4; 4; 4; 4; 4; 4; 4; 4; 4; 4; 4; 4; 4; 4; 92; 2; 2; 2; 2; 93; 94; 2; 2; 2; 2; 2; 95; 4;
   4; 4; 4; 4; 4; 4; 4; 4; 4; 4; 4; 4; 4; 4; 4; 4; 4; 4; 4; 4; 4; 4; 4; 4; 4; 4; 4; 4; 4; 4; 4; 4; 4; 4; 4; 2;
   96; 97; 4; 4; 4; 4; 4; 4; 4; 4; 4; 4; 4; 4; 4; 4; 4; 4; 4; 4; 4; 4; 4; 4; 4; 4; 4; 4; 4; 4; 4; 4; 4; 4; 4;
   4; 4; 4; 4; 4; 4; 4; 4; 4; 4; 4; 4; 4; 4; 4; 4; 4; 4; 4; 4; 4; 4; 4; 4; 4; 4; 4; 4; 4; 4; 4; 4; 4; 4; 4; 4;
   4; 4; 4; 4; 98; 60; 4; 4; 4; 4; 4; 4; 4; 99; 100; 4; 4; 101; 4; 4; 4; 4; 4; 4; 2; 102; 103; 104; 105; 106;
   2; 2; 2; 2; 107; 108; 109; 110; 111; 112; 4; 4; 4; 4; 4; 4; 4; 4; 113; 114; 115; 4; 4; 4; 4; 4; 4; 4; 4; 4;
   4; 4; 4; 4; 4; 4; 4; 4; 23; 4; 4; 4; 116; 4; 4; 4; 117; 118; 4; 4; 4; 4; 119; 120; 4; 4; 4; 4; 4; 4; 4; 4;
   4; 4; 4; 4; 4; 4; 4; 4; 4; 4; 4; 121; 2; 2; 2; 122; 2; 123; 4; 4; 4; 4; 4; 4; 4; 4; 4; 4; 4; 4; 4; 4; 4; 4;
   4; 4; 124; 125; 126; 4; 4; 4; 4; 4; 4; 4; 4; 4; 4; 4; 4; 4; 4; 4; 4; 4; 4; 4; 4; 4; 4; 4; 4; 4; 4; 4; 4; 4;
   4; 4; 4; 4; 4; 4; 4; 4; 4; 4; 4; 4; 4; 4; 4; 4; 4; 4; 4; 4; 4; 4; 4; 127; 4; 4; 4; 4; 4; 4; 4; 4; 4; 4; 4;
   4; 4; 4; 4; 4; 2; 2; 2; 2; 2; 2; 2; 2; 2; 2; 2; 2; 2; 2; 2; 2; 2; 2; 2; 2; 2; 2; 2; 2; 2; 2; 2; 128; 2; 2;
   2; 2; 2; 2; 2; 2; 2; 2; 2; 2; 2; 2; 2; 2; 2; 2; 2; 2; 2; 2; 2; 2; 2; 2; 2; 2; 2; 2; 2; 2; 2; 2; 2; 2; 2; 2;
   2; 2; 2; 2; 2; 2; 2; 2; 2; 2; 2; 2; 2; 2; 2; 2; 2; 2; 2; 2; 2; 2; 2; 2; 2; 2; 57; 2; 2; 2; 11; 2; 2; 2; 2;
   2; 2; 2; 2; 2; 2; 2; 2; 2; 2; 2; 2; 2; 2; 2; 2; 2; 2; 2; 2; 2; 2; 2; 2; 2; 2; 2; 2; 2; 2; 2; 2; 2; 2; 2; 2;
   2; 2; 2; 2; 2; 2; 2; 2; 2; 2; 2; 2; 2; 2; 2; 2; 2; 2; 2; 2; 2; 2; 2; 2; 2; 2; 2; 2; 2; 2; 2; 2; 2; 2; 2; 2;
   2; 2; 2; 2; 2; 2; 2; 2; 2; 2; 2; 2; 2; 129; 2; 2; 2; 2; 2; 2; 2; 2; 2; 2; 2; 2; 2; 2; 2; 2; 2; 2; 2; 2; 2;
   2; 2; 2; 2; 2; 2; 2; 2; 2; 2; 2; 2; 2; 2; 2; 2; 2; 2; 2; 2; 2; 2; 2; 2; 2; 2; 2; 2; 2; 2; 2; 130; 4; 4; 4;
   4; 4; 4; 4; 4; 4; 4; 4; 4; 4; 4; 4; 4; 4; 4; 4; 4; 4; 4; 4; 4; 4; 4; 4; 4; 4; 4; 4; 4; 4; 4; 4; 4; 4; 4; 4;
   4; 4; 4; 4; 4; 4; 4; 4; 4; 2; 2; 2; 2; 2; 2; 2; 2; 131; 4; 4; 4; 4; 4; 4; 4; 4; 4; 4; 4; 4; 4; 4; 4; 4; 4;
   4; 4; 4; 4; 4; 4; 2; 2; 2; 2; 2; 2; 2; 2; 2; 2; 2; 2; 2; 132; 4; 4; 4; 4; 4; 4; 4; 4; 4; 4; 4; 4; 4; 4; 4;
   4; 4; 4; 4; 4; 4; 4; 4; 4; 4; 4; 4; 4; 4; 4; 4; 4; 4; 4; 4; 4; 4; 4; 4; 4; 4; 4; 4; 4; 4; 4; 4; 4; 4; 4; 4;
   4; 4; 4; 2; 2; 2; 133; 4; 4; 4; 4; 4; 4; 4; 4; 4; 4; 4; 4; 4; 4; 4; 4; 4; 4; 4; 4; 4; 4; 4; 4; 4; 4; 4; 4;
   4; 4; 4; 4; 4; 4; 4; 4; 4; 4; 4; 4; 4; 4; 4; 4; 4; 4; 4; 4; 4; 4; 4; 4; 4; 4; 4; 4]
  [0xb7ffff7fffffefff; 0x000000003fff3fff; 0xffffffffffffffff; 0x07ffffffffffffff; 0x0000000000000000;
   0x001fffffffffffff; 0x2000000000000000; 0xffffffff1fffffff; 0x000000010001ffff; 0xffffe000ffffffff;
   0x07ffffffffff07ff; 0xffffffff3fffffff; 0x00000000003eff0f; 0xffff03ff3fffffff; 0x0fffffffff0fffff;
   0xffff00ffffffffff; 0xf7ff000fffffffff; 0x1bfbfffbffb7f7ff; 0x007fffffffffffff; 0x000000ff003fffff;
   0x07fdffffffffffbf; 0x91bffffffffffd3f; 0x007fffff003fffff; 0x000000007fffffff; 0x0037ffff00000000;
   0x03ffffff003fffff; 0xc0ffffffffffffff; 0x873ffffffeeff06f; 0x1fffffff00000000; 0x000000001fffffff;
   0x0000007ffffffeff; 0x003fffffffffffff; 0x0007ffff003fffff; 0x000000000003ffff; 0x00000000000001ff;
   0x0007ffffffffffff; 0x03ff00ffffffffff; 0x00031bffffffffff; 0xffff00801fffffff; 0xffff00000001ffff;
   0xffff00000000003f; 0x007fffff0000001f; 0x803fffc00000007f; 0x03ff01ffffff0004; 0xffdfffffffffffff;
   0x004fffffffff00f0; 0x0000000017ffde1f; 0x40fffffffffbffff; 0xffff01ffbfffbd7f; 0x03ff07ffffffffff;
   0xfbedfdfffff99fef; 0x001f1fcfe081399f; 0x00000003c3ff07ff; 0x0000000003ff00bf; 0xff3fffffffffffff;
   0x000000003f000001; 0x0000000003ff0011; 0x01ffffffffffffff; 0x00000000000003ff; 0x03ff0fffe7ffffff;
   0x000000000000007f; 0xffffffff00000000; 0x800003ffffffffff; 0xf9bfffffff6ff27f; 0x0000000003ff000f;
   0xfffffcff00000000; 0x0000001bfcffffff; 0x7fffffffffffffff; 0xffffffffffff0080; 0xffff000023ffffff;
   0xff7ffffffffffdff; 0xfffc000003ff0001; 0x007ffefffffcffff; 0xb47ffffffffffb7f; 0xfffffdbf03ff00ff;
   0x000003ff01fb7fff; 0x007fffff00000000; 0x0001000000000000; 0x0000000003ffffff; 0x00007fffffffffff;
   0x000000000000000f; 0xffffffffffff0000; 0x0001ffffffffffff; 0xffff03ff7fffffff; 0x001f3fffffff03ff;
   0xe0fffff803ff000f; 0x000000000000ffff; 0xffffffffffff87ff; 0x00000000ffff80ff; 0x0003001b00000000;
   0x00ffffffffffffff; 0x00000000003fffff; 0x6fef000000000000; 0x00000007ffffffff; 0xffff00f000070000;
   0x0fffffffffffffff; 0x1fff07ffffffffff; 0x0000000063ff01ff; 0xffff3fffffffffff; 0xf807e3e000000000;
   0x00003c0000000fe7; 0x000000000000001c; 0xffffffffffdfffff; 0xebffde64dfffffff; 0xffffffffffffffef;
   0x7bffffffdfdfe7bf; 0xfffffffffffdfc5f; 0xffffff3fffffffff; 0xf7fffffff7fffffd; 0xffdfffffffdfffff;
   0xffff7fffffff7fff; 0xfffffdfffffffdff; 0xffffffffffffcff7; 0xf87fffffffffffff; 0x00201fffffffffff;
   0x0000fffef8000010; 0x000007dbf9ffff7f; 0x3fff1fffffffffff; 0x00000000000043ff; 0x00007fffffff0000;
   0x03ffffffffffffff; 0x7fff6f7f00000000; 0x00000000007f001f; 0x0000000003ff0fff; 0x0af7fe96ffffffef;
   0x5ef7f796aa96ea84; 0x0ffffbee0ffffbff; 0x03ff000000000000; 0x00000000ffffffff; 0xffff0003ffffffff;
   0x00000001ffffffff; 0x000000003fffffff; 0x00000000000007ff; 0x0000ffffffffffff].
(** unicode-db.hpp lines 6902-7104. *)
Definition prop_xids_data : bool_trie := mkTrie 32 991 1 131 255 1 1215 1 124
  [0x0000000000000000; 0x07fffffe07fffffe; 0x0420040000000000; 0xff7fffffff7fffff; 0xffffffffffffffff;
   0xffffffffffffffff; 0xffffffffffffffff; 0xffffffffffffffff; 0xffffffffffffffff; 0xffffffffffffffff;
   0xffffffffffffffff; 0x0000501f0003ffc3; 0x0000000000000000; 0xb8df000000000000; 0xfffffffbffffd740;
   0xffbfffffffffffff; 0xffffffffffffffff; 0xffffffffffffffff; 0xfffffffffffffc03; 0xffffffffffffffff;
   0xfffeffffffffffff; 0xffffffff027fffff; 0x00000000000001ff; 0x000787ffffff0000; 0xffffffff00000000;
   0xfffec000000007ff; 0xffffffffffffffff; 0x9c00c060002fffff; 0x0000fffffffd0000; 0xffffffffffffe000;
   0x0002003fffffffff; 0x043007fffffffc00]
  [1; 2; 3; 4; 5; 6; 7; 8; 9; 10; 11; 12; 13; 14; 15; 16; 17; 18; 19; 20; 21; 22; 23; 24; 23; 25; 26; 27; 28;
   29; 30; 31; 32; 33; 34; 35; 35; 35; 35; 35; 36; 37; 38; 39; 40; 41; 42; 43; 35; 35; 35; 35; 35; 35; 35; 35;
   44; 45; 46; 47; 48; 49; 50; 51; 52; 53; 54; 55; 56; 57; 3; 58; 59; 60; 30; 61; 62; 63; 64; 65; 66; 67; 68;
   35; 35; 35; 30; 35; 35; 35; 35; 69; 70; 71; 72; 30; 73; 74; 30; 75; 76; 77; 30; 30; 30; 30; 30; 30; 30; 30;
   30; 30; 30; 30; 30; 30; 30; 30; 30; 30; 30; 30; 30; 30; 30; 30; 30; 30; 30; 30; 30; 30; 30; 30; 30; 30; 30;
   30; 30; 30; 30; 30; 30; 35; 35; 35; 78; 79; 80; 81; 82; 30; 30; 30; 30; 30; 30; 30; 30; 83; 43; 84; 85; 86;
   35; 87; 88; 30; 30; 30; 30; 30; 30; 30; 30; 35; 35; 35; 35; 35; 35; 35; 35; 35; 35; 35; 35; 35; 35; 35; 35;
   35; 35; 35; 35; 35; 35; 35; 35; 35; 35; 35; 35; 35; 35; 35; 35; 35; 35; 35; 35; 35; 35; 35; 35; 35; 35; 35;
   35; 35; 35; 35; 35; 35; 35; 35; 35; 35; 35; 35; 35; 35; 35; 35; 35; 35; 35; 35; 35; 35; 35; 35; 35; 35; 35;
   35; 35; 35; 35; 35; 35; 35; 35; 35; 35; 35; 35; 35; 35; 35; 35; 35; 35; 35; 35; 35; 35; 35; 35; 35; 35; 35;
   35; 35; 35; 35; 35; 35; 30; 35; 35; 35; 35; 35; 35; 35; 35; 35; 35; 35; 35; 35; 35; 35; 35; 35; 35; 35; 35;
   35; 35; 35; 35; 35; 35; 35; 35; 35; 35; 35; 35; 35; 35; 35; 35; 35; 35; 35; 35; 35; 35; 35; 35; 35; 35; 35;
   35; 35; 35; 35; 35; 35; 35; 35; 35; 35; 35; 35; 35; 35; 35; 35; 35; 35; 35; 35; 35; 35; 35; 35; 35; 35; 35;
   35; 35; 35; 35; 35; 35; 35; 35; 35; 35; 35; 35; 35; 35; 35; 35; 35; 35; 35; 35; 35; 35; 35; 35; 35; 35; 35;
   35; 35; 35; 35; 35; 35; 35; 35; 35; 35; 35; 35; 35; 35; 35; 35; 35; 35; 35; 35; 35; 35; 35; 35; 35; 35; 35;
   35; 35; 35; 35; 35; 35; 35; 35; 35; 35; 35; 35; 35; 35; 35; 35; 35; 35; 35; 35; 35; 35; 35; 35; 35; 35; 35;
   35; 35; 35; 35; 35; 35; 35; 35; 35; 35; 35; 35; 35; 35; 35; 35; 35; 35; 35; 35; 35; 35; 35; 35; 35; 35; 35;
   35; 35; 35; 35; 35; 35; 35; 35; 35; 35; 35; 35; 35; 35; 35; 35; 35; 35; 35; 35; 35; 35; 35; 35; 35; 35; 35;
   35; 35; 35; 35; 35; 35; 35; 35; 35; 35; 35; 35; 35; 35; 35; 35; 35; 35; 35; 35; 35; 35; 35; 35; 35; 35; 35;
   35; 35; 35; 35; 35; 35; 35; 35; 35; 35; 35; 35; 35; 35; 35; 35; 35; 35; 35; 35; 35; 35; 35; 35; 35; 35; 35;
   35; 35; 35; 35; 35; 35; 35; 35; 35; 35; 35; 35; 35; 35; 35; 35; 35; 35; 35; 35; 35; 35; 35; 35; 35; 35; 35;
   35; 35; 35; 35; 35; 35; 35; 35; 35; 35; 35; 35; 35; 35; 35; 35; 35; 35; 35; 35; 35; 35; 35; 35; 35; 35; 35;
   35; 35; 35; 35; 35; 35; 35; 35; 35; 35; 35; 35; 35; 35; 35; 35; 35; 35; 35; 35; 35; 35; 35; 35; 35; 35; 35;
   35; 35; 89; 90; 35; 35; 35; 35; 91; 92; 93; 94; 95; 35; 96; 97; 98; 49; 99; 100; 101; 102; 103; 104; 105;
   106; 107; 108; 109; 110; 35; 111; 35; 35; 35; 35; 35; 35; 35; 35; 35; 35; 35; 35; 35; 35; 35; 35; 35; 35;
   35; 35; 35; 35; 35; 35; 35; 35; 35; 35; 35; 35; 35; 35; 35; 35; 35; 35; 35; 35; 35; 35; 35; 35; 35; 35; 35;
   35; 35; 35; 35; 35; 35; 35; 35; 35; 35; 35; 35; 35; 35; 35; 35; 35; 35; 35; 35; 35; 35; 35; 35; 35; 35; 35;
   35; 35; 35; 35; 35; 35; 35; 35; 35; 35; 35; 35; 35; 35; 35; 35; 35; 35; 35; 35; 35; 35; 35; 35; 35; 35; 35;
   35; 35; 35; 35; 35; 35; 35; 35; 35; 35; 35; 35; 35; 35; 35; 35; 35; 35; 35; 35; 35; 35; 35; 35; 35; 35; 35;
   35; 35; 35; 35; 35; 35; 35; 35; 35; 35; 35; 35; 35; 35; 35; 35; 35; 35; 35; 35; 35; 35; 35; 35; 35; 35; 35;
   35; 35; 35; 35; 35; 35; 35; 35; 35; 35; 35; 35; 35; 35; 35; 35; 35; 35; 35; 35; 35; 112; 113; 30; 30; 30;
   30; 30; 30; 30; 30; 30; 30; 30; 30; 30; 30; 30; 30; 30; 30; 30; 30; 30; 30; 30; 30; 30; 30; 30; 30; 30; 30;
   30; 30; 30; 30; 30; 30; 30; 30; 30; 30; 30; 30; 30; 30; 30; 30; 30; 30; 30; 30; 30; 30; 30; 30; 30; 30; 30;
   30; 30; 30; 30; 30; 30; 30; 30; 30; 30; 30; 30; 30; 30; 30; 30; 30; 30; 30; 30; 30; 30; 30; 30; 30; 30; 30;
   30; 30; 30; 30; 30; 30; 30; 30; 30; 30; 30; 30; 30; 30; 30; 30; 30; 30; 30; 30; 30; 30; 30; 30; 30; 30; 30;
   30; 30; 30; 30; 30; 30; 30; 30; 30; 30; 30; 30; 30; 30; 30; 30; 30; 30; 30; 30; 30; 35; 35; 35; 35; 35; 114;
   35; 115; 116; 117; 118; 119; 35; 120; 35; 35; 121; 122; 123; 124; 30; 125; 35; 126; 127; 128; 129; 130]
  [0x00000110043fffff; 0xffff07ff01ffffff; 0xffffffff00007eff; 0x00000000000003ff; 0x23fffffffffffff0;
   0xfffe0003ff010000; 0x23c5fdfffff99fe1; 0x10030003b0004000; 0x036dfdfffff987e0; 0x001c00005e000000;
   0x23edfdfffffbbfe0; 0x0200000300010000; 0x23edfdfffff99fe0; 0x00020003b0000000; 0x03ffc718d63dc7e8;
   0x0000000000010000; 0x23fffdfffffddfe0; 0x0000000327000000; 0x23effdfffffddfe1; 0x0006000360000000;
   0x27fffffffffddff0; 0xfc00000380704000; 0x2ffbfffffc7fffe0; 0x000000000000007f; 0x0005fffffffffffe;
   0x2005ffaffffff7d6; 0x00000000f000005f; 0x0000000000000001; 0x00001ffffffffeff; 0x0000000000001f00;
   0x0000000000000000; 0x800007ffffffffff; 0xffe1c0623c3f0000; 0xffffffff00004003; 0xf7ffffffffff20bf;
   0xffffffffffffffff; 0xffffffff3d7f3dff; 0x7f3dffffffff3dff; 0xffffffffff7fff3d; 0xffffffffff3dffff;
   0x0000000007ffffff; 0xffffffff0000ffff; 0x3f3fffffffffffff; 0xfffffffffffffffe; 0xffff9fffffffffff;
   0xffffffff07fffffe; 0x01ffc7ffffffffff; 0x0003ffff8003ffff; 0x0001dfff0003ffff; 0x000fffffffffffff;
   0x0000000010800000; 0xffffffff00000000; 0x01ffffffffffffff; 0xffff05ffffffffff; 0x003fffffffffffff;
   0x000000007fffffff; 0x001f3fffffff0000; 0xffff0fffffffffff; 0xffffffff007fffff; 0x00000000001fffff;
   0x0000008000000000; 0x000fffffffffffe0; 0x0000000000001fe0; 0xfc00c001fffffff8; 0x0000003fffffffff;
   0x0000000fffffffff; 0x3ffffffffc00e000; 0xe7ffffffffff01ff; 0x046fde0000000000; 0xffffffff3f3fffff;
   0x3fffffffaaff3f3f; 0x5fdfffffffffffff; 0x1fdc1fff0fcf1fdc; 0x8002000000000000; 0x000000001fff0000;
   0xf3fffd503f2ffc84; 0xffffffff000043e0; 0x00000000000001ff; 0x000c781fffffffff; 0xffff20bfffffffff;
   0x000080ffffffffff; 0x7f7f7f7f007fffff; 0x000000007f7f7f7f; 0x1f3e03fe000000e0; 0xfffffffee07fffff;
   0xf7ffffffffffffff; 0xfffeffffffffffe0; 0xffffffff00007fff; 0xffff000000000000; 0x0000000000001fff;
   0x3fffffffffff0000; 0x00000c00ffff1fff; 0x80007fffffffffff; 0xffffffff3fffffff; 0x0000ffffffffffff;
   0xfffffffcff800000; 0xfffffffffffff9ff; 0xfffc000003eb07ff; 0x00000007fffff7bb; 0x000ffffffffffffc;
   0x68fc000000000000; 0xffff003ffffffc00; 0x1fffffff0000007f; 0x0007fffffffffff0; 0x7c00ffdf00008000;
   0x000001ffffffffff; 0xc47fffff00000ff7; 0x3e62ffffffffffff; 0x001c07ff38000005; 0xffff7f7f007e7e7e;
   0xffff03fff7ffffff; 0x00000007ffffffff; 0xffff000fffffffff; 0x0ffffffffffff87f; 0xffff3fffffffffff;
   0x0000000003ffffff; 0x5f7ffdffa0f8007f; 0xffffffffffffffdb; 0x0003ffffffffffff; 0xfffffffffff80000;
   0xfffffff03fffffff; 0x3fffffffffffffff; 0xffffffffffff0000; 0xfffffffffffcffff; 0x03ff0000000000ff;
   0xaa8a000000000000; 0x1fffffffffffffff; 0x07fffffe00000000; 0xffffffc007fffffe; 0x7fffffff3fffffff;
   0x000000001cfcfcfc]
  [1; 2; 3; 4; 5; 6; 7; 8; 5; 9; 10; 5; 11; 12; 5; 7; 7; 7; 7; 7; 7; 7; 7; 7; 7; 13; 14; 15; 7; 16; 17; 7; 18;
   5; 5; 5; 5; 5; 5; 5; 5; 5; 5; 5; 5; 5; 5; 5; 5; 5; 5; 5; 5; 5; 5; 5; 5; 5; 5; 5; 5; 5; 5; 5; 5; 5; 5; 5; 5;
   5; 5; 5; 5; 5; 5; 5; 5; 5; 5; 5; 5; 5; 5; 5; 5; 5; 5; 5; 5; 5; 5; 5; 5; 5; 5; 5; 5; 5; 5; 5; 5; 5; 5; 5; 5;
   5; 5; 5; 5; 5; 5; 5; 5; 5; 5; 5; 5; 5; 5; 5; 5; 5; 5; 5; 5; 5; 5; 5; 5; 5; 5; 5; 5; 5; 5; 5; 5; 5; 5; 5; 5;
   5; 5; 5; 5; 5; 5; 5; 5; 5; 5; 5; 5; 5; 5; 5; 5; 5; 5; 5; 5; 5; 5; 5; 5; 5; 5; 5; 5; 5; 5; 5; 5; 5; 5; 5; 5;
   5; 5; 5; 5; 5; 5; 5; 5; 5; 5; 5; 5; 5; 5; 5; 5; 5; 5; 5; 5; 5; 5; 5; 5; 5; 5; 5; 5; 5; 5; 5; 5; 5; 5; 5; 5;
   5; 5; 5; 5; 5; 5; 5; 5; 5; 5; 5; 5; 5; 5; 5; 5; 5; 5; 5; 5; 5; 5; 5; 5; 5; 5; 5; 5; 5; 5; 5; 5; 5; 5; 5; 5;
   5; 5; 5; 5; 5; 5]
  [1; 2; 3; 4; 5; 4; 4; 4; 4; 6; 7; 8; 9; 10; 11; 2; 2; 12; 13; 14; 15; 16; 4; 2; 2; 2; 2; 17; 18; 19; 4; 20;
   21; 22; 23; 24; 4; 25; 4; 26; 27; 28; 29; 30; 31; 32; 4; 2; 33; 34; 34; 35; 4; 4; 4; 4; 4; 36; 4; 37; 38;
   39; 40; 41; 42; 43; 44; 45; 46; 47; 48; 49; 4; 50; 22; 51; 52; 4; 4; 5; 53; 54; 55; 4; 4; 56; 57; 54; 58;
   59; 4; 60; 61; 4; 4; 62; 4; 63; 64; 65; 66; 67; 68; 69; 70; 71; 72; 4; 4; 4; 4; 73; 74; 75; 4; 76; 77; 78;
   4; 4; 4; 4; 79; 4; 4; 80; 4; 2; 2; 2; 2; 2; 2; 2; 2; 2; 2; 2; 2; 2; 2; 81; 4; 2; 56; 2; 2; 2; 82; 4; 4; 4;
   4; 4; 4; 4; 4; 4; 4; 4; 4; 4; 4; 4; 4; 4; 4; 4; 4; 4; 4; 4; 4; 4; 4; 4; 4; 4; 4; 4; 4; 4; 4; 4; 4; 4; 4; 4;
   4; 83; 84; 2; 2; 2; 2; 2; 2; 2; 2; 2; 2; 2; 2; 2; 2; 2; 2; 56; 4; 4; 4; 4; 4; 4; 4; 4; 4; 4; 4; 4; 4; 4; 4;
   4; 4; 4; 4; 4; 4; 4; 4; 4; 4; 4; 4; 4; 4; 4; 4; 4; 4; 4; 4; 4; 4; 4; 4; 4; 4; 4; 4; 4; 4; 4; 4; 4; 4; 4; 4;
   4; 4; 4; 4; 4; 4; 4; 4; 4; 4; 4; 4; 2; 2; 2; 2; 2; 2; 2; 2; 2; 61; 4; 4; 4; 4; 4; 4; 4; 4; 4; 4; 4; 4; 4; 4;
   4; 4; 4; 4; 4; 4; 4; 4; 4; 4; 4; 4; 4; 4; 4; 4; 4; 4; 4; 4; 4; 4; 4; 4; 4; 4; 4; 4; 4; 4; 4; 4; 4; 4; 4; 4;
   4; 4; 4; 4; 4; 4; 4; 4; 4; 4; 4; 4; 4; 4; 4; 4; 4; 4; 4; 4; 4; 4; 4; 4; 4; 4; 4; 4; 4; 4; 4; 4; 4; 4; 4; 4;
   4; 4; 4; 4; 4; 4; 4; 4; 4; 4; 4; 4; 4; 4; 4; 4; 4; 4; 4; 4; 4; 4; 4; 4; 4; 4; 4; 4; 4; 4; 4; 4; 4; 4; 4; 4;
   4; 4; 4; 4; 4; 4; 4; 4; 4; 4; 4; 4; 2; 2; 2; 2; 2; 2; 2; 2; 72; 85; 86; 87; 54; 88; 75; 4; 4; 4; 4; 4; 4; 4;
   4; 4; 4; 2; 4; 4; 2; 89; 90; 91; 2; 2; 2; 2; 2; 2; 2; 2; 2; 2; 2; 2; 2; 2; 2; 2; 2; 2; 2; 2; 2; 2; 2; 2; 2;
   2; 2; 2; 2; 2; 2; 2; 2; 2; 2; 2; 2; 2; 2; 2; 2; 2; 2; 2; 2; 2; 2; 2; 2; 2; 2; 2; 2; 2; 2; 2; 2; 2; 2; 2; 2;
   2; 2; 2; 2; 2; 2; 2; 2; 2; 2; 2; 2; 2; 2; 2; 2; 2; 2; 2; 2; 2; 2; 2; 2; 2; 2; 2; 2; 2; 2; 2; 2; 2; 2; 92; 2;
   2; 2; 2; 2; 2; 2; 2; 2; 2; 2; 2; 2; 2; 2; 2; 2; 2; 2; 93; 33; 4; 4; 4; 4; 4; 4; 4; 4; 4; 4; 4; 4; 4; 4; 4;
   4; 4; 4; 4; 4; 4; 4; 4; 4; 4; 4; 4; 4; 4; 4; 4; 4; 4; 4; 4; 4; 4; 4; 4; 4; 4; 4; 4; 4; 4; 4; 4; 4; 4; 4; 4;
   4; 4; 4; 4; 4; 4; 4; 4; 4; 4; 4; 4; 4; 4; 4; 4; 4; 4; 4; 4; 4; 4; 4; 94; 2; 2; 2; 2; 95; 96; 2; 2; 2; 2; 2;
   97; 4; 4; 4; 4; 4; 4; 4; 4; 4; 4; 4; 4; 4; 4; 4; 4; 4; 4; 4; 4; 4; 4; 4; 4; 4; 4; 4; 4; 4; 4; 4; 4; 4; 4; 4;
   4; 2; 98; 99; 4; 4; 4; 4; 4; 4; 4; 4; 4; 4; 4; 4; 4; 4; 4; 4; 4; 4; 4; 4; 4; 4; 4; 4; 4; 4; 4; 4; 4; 2; 100;
   101; 102; 103; 104; 2; 2; 2; 2; 105; 106; 107; 108; 109; 110; 4; 4; 4; 4; 4; 4; 4; 4; 4; 4; 4; 4; 4; 4; 4;
   4; 4; 4; 4; 4; 4; 4; 4; 4; 4; 4; 4; 4; 22; 4; 4; 4; 4; 4; 4; 4; 111; 112; 4; 4; 4; 4; 87; 62; 4; 4; 4; 4; 4;
   4; 4; 4; 4; 4; 4; 4; 4; 4; 4; 4; 4; 4; 4; 113; 2; 2; 2; 114; 2; 115; 4; 4; 4; 4; 4; 4; 4; 4; 4; 4; 4; 4; 4;
   4; 4; 4; 4; 4; 116; 117; 118; 4; 4; 4; 4; 4; 2; 2; 2; 2; 2; 2; 2; 2; 2; 2; 2; 2; 2; 2; 2; 2; 2; 2; 2; 2; 2;
   2; 2; 2; 2; 2; 2; 119; 2; 2; 2; 2; 2; 2; 2; 2; 2; 2; 2; 2; 2; 2; 2; 2; 2; 2; 2; 2; 2; 2; 2; 2; 2; 2; 2; 2;
   2; 2; 2; 2; 2; 2; 2; 2; 2; 2; 2; 2; 2; 2; 2; 2; 2; 2; 2; 2; 2; 2; 2; 2; 2; 2; 2; 2; 2; 2; 2; 2; 2; 2; 2; 2;
   72; 2; 2; 2; 10; 2; 2; 2; 2; 2; 2; 2; 2; 2; 2; 2; 2; 2; 2; 2; 2; 2; 2; 2; 2; 2; 2; 2; 2; 2; 2; 2; 2; 2; 2;
   2; 2; 2; 2; 2; 2; 2; 2; 2; 2; 2; 2; 2; 2; 2; 2; 2; 2; 2; 2; 2; 2; 2; 2; 2; 2; 2; 2; 2; 2; 2; 2; 2; 2; 2; 2;
   2; 2; 2; 2; 2; 2; 2; 2; 2; 2; 2; 2; 2; 2; 2; 2; 2; 2; 2; 2; 2; 2; 2; 120; 2; 2; 2; 2; 2; 2; 2; 2; 2; 2; 2;
   2; 2; 2; 2; 2; 2; 2; 2; 2; 2; 2; 2; 2; 2; 2; 2; 2; 2; 2; 2; 2; 2; 2; 2; 2; 2; 2; 2; 2; 2; 2; 2; 2; 2; 2; 2;
   2; 2; 2; 2; 2; 121; 4; 4; 4; 4; 4; 4; 4; 4; 4; 4; 4; 4; 4; 4; 4; 4; 4; 4; 4; 4; 4; 4; 4; 4; 4; 4; 4; 4; 4;
   4; 4; 4; 4; 4; 4; 4; 4; 4; 4; 4; 4; 4; 4; 4; 4; 4; 4; 4; 2; 2; 2; 2; 2; 2; 2; 2; 122; 4; 4; 4; 4; 4; 4; 4;
   4; 4; 4; 4; 4; 4; 4; 4; 4; 4; 4; 4; 4; 4; 4; 4; 2; 2; 2; 2; 2; 2; 2; 2; 2; 2; 2; 2; 2; 123; 4; 4; 4; 4; 4;
   4; 4; 4; 4; 4; 4; 4; 4; 4; 4; 4; 4; 4; 4; 4; 4; 4; 4; 4; 4; 4; 4; 4; 4; 4; 4; 4; 4; 4; 4; 4; 4; 4; 4; 4; 4;
   4; 4; 4; 4; 4; 4; 4; 4; 4]
  [0xb7ffff7fffffefff; 0x000000003fff3fff; 0xffffffffffffffff; 0x07ffffffffffffff; 0x0000000000000000;
   0x001fffffffffffff; 0xffffffff1fffffff; 0x000000000001ffff; 0xffffe000ffffffff; 0x003fffffffff07ff;
   0xffffffff3fffffff; 0x00000000003eff0f; 0xffff00003fffffff; 0x0fffffffff0fffff; 0xffff00ffffffffff;
   0xf7ff000fffffffff; 0x1bfbfffbffb7f7ff; 0x007fffffffffffff; 0x000000ff003fffff; 0x07fdffffffffffbf;
   0x91bffffffffffd3f; 0x007fffff003fffff; 0x000000007fffffff; 0x0037ffff00000000; 0x03ffffff003fffff;
   0xc0ffffffffffffff; 0x003ffffffeef0001; 0x1fffffff00000000; 0x000000001fffffff; 0x0000001ffffffeff;
   0x003fffffffffffff; 0x0007ffff003fffff; 0x000000000003ffff; 0x00000000000001ff; 0x0007ffffffffffff;
   0x0000000fffffffff; 0x000303ffffffffff; 0xffff00801fffffff; 0xffff00000000003f; 0xffff000000000003;
   0x007fffff0000001f; 0x00fffffffffffff8; 0x0026000000000000; 0x0000fffffffffff8; 0x000001ffffff0000;
   0x0000007ffffffff8; 0x0047ffffffff0090; 0x0007fffffffffff8; 0x000000001400001e; 0x00000ffffffbffff;
   0xffff01ffbfffbd7f; 0x23edfdfffff99fe0; 0x00000003e0010000; 0x0000000380000780; 0x0000ffffffffffff;
   0x00000000000000b0; 0x00007fffffffffff; 0x000000000f000000; 0x0000000000000010; 0x010007ffffffffff;
   0x0000000007ffffff; 0x000000000000007f; 0x00000fffffffffff; 0xffffffff00000000; 0x80000000ffffffff;
   0x8000ffffff6ff27f; 0x0000000000000002; 0xfffffcff00000000; 0x0000000a0001ffff; 0x0407fffffffff801;
   0xfffffffff0010000; 0xffff0000200003ff; 0x01ffffffffffffff; 0x00007ffffffffdff; 0xfffc000000000001;
   0x000000000000ffff; 0x0001fffffffffb7f; 0xfffffdbf00000040; 0x00000000010003ff; 0x0007ffff00000000;
   0x0001000000000000; 0x0000000003ffffff; 0x000000000000000f; 0xffffffffffff0000; 0x0001ffffffffffff;
   0xffff00007fffffff; 0x7fffffffffffffff; 0x00003fffffff0000; 0xe0fffff80000000f; 0x00000000000107ff;
   0x00000000fff80000; 0x0000000b00000000; 0x00ffffffffffffff; 0x00000000003fffff; 0x6fef000000000000;
   0x00000007ffffffff; 0xffff00f000070000; 0x0fffffffffffffff; 0x1fff07ffffffffff; 0x0000000003ff01ff;
   0xffffffffffdfffff; 0xebffde64dfffffff; 0xffffffffffffffef; 0x7bffffffdfdfe7bf; 0xfffffffffffdfc5f;
   0xffffff3fffffffff; 0xf7fffffff7fffffd; 0xffdfffffffdfffff; 0xffff7fffffff7fff; 0xfffffdfffffffdff;
   0x0000000000000ff7; 0x3f801fffffffffff; 0x0000000000004000; 0x7fff6f7f00000000; 0x000000000000001f;
   0x000000000000080f; 0x0af7fe96ffffffef; 0x5ef7f796aa96ea84; 0x0ffffbee0ffffbff; 0x00000000ffffffff;
   0xffff0003ffffffff; 0x00000001ffffffff; 0x000000003fffffff; 0x00000000000007ff].

(** unicode-db.hpp lines 4033-4456: [script_data<N>], by [N]. *)
Definition script_data : list (list Z) :=
  [scripts_data_0; scripts_data_1; scripts_data_2; scripts_data_3; scripts_data_4; scripts_data_5; scripts_data_6; scripts_data_7; scripts_data_8; scripts_data_9; scripts_data_10; scripts_data_11; scripts_data_12; scripts_data_13; scripts_data_14; scripts_data_15; scripts_data_16; scripts_data_17; scripts_data_18; scripts_data_19; scripts_data_20; scripts_data_21].
Open Scope string_scope.
Open Scope Z_scope.
(** unicode-db.hpp lines 1281-1284. *)
Definition age_strings : list string :=
  ["unassigned"; "1.1"; "2.0"; "2.1"; "3.0"; "3.1"; "3.2"; "4.0"; "4.1"; "5.0"; "5.1"; "5.2"; "6.0"; "6.1"; "6.2"; "6.3"; "7.0"; "8.0"; "9.0"; "10.0"; "11.0"; "12.0"; "12.1"; "13.0"; "14.0"].
(** unicode-db.hpp lines 1621-1697. *)
Definition categories_names : list (string * Z) :=
  [("c", 0); ("cased_letter", 7); ("cc", 1); ("cf", 2); ("close_punctuation", 24); ("cn", 3); ("co", 4);
   ("connector_punctuation", 22); ("control", 1); ("cs", 5); ("currency_symbol", 30); ("dash_punctuation", 23);
   ("decimal_number", 18); ("enclosing_mark", 15); ("final_punctuation", 25); ("format", 2);
   ("initial_punctuation", 26); ("l", 6); ("lc", 7); ("letter", 6); ("letter_number", 19); ("line_separator",
   35); ("ll", 8); ("lm", 9); ("lo", 10); ("lowercase_letter", 8); ("lt", 11); ("lu", 12); ("m", 13); ("mark",
   13); ("math_symbol", 32); ("mc", 14); ("me", 15); ("mn", 16); ("modifier_letter", 9); ("modifier_symbol",
   31); ("n", 17); ("nd", 18); ("nl", 19); ("no", 20); ("nonspacing_mark", 16); ("number", 17);
   ("open_punctuation", 28); ("other", 0); ("other_letter", 10); ("other_number", 20); ("other_punctuation",
   27); ("other_symbol", 33); ("p", 21); ("paragraph_separator", 36); ("pc", 22); ("pd", 23); ("pe", 24);
   ("pf", 25); ("pi", 26); ("po", 27); ("private_use", 4); ("ps", 28); ("punctuation", 21); ("s", 29); ("sc",
   30); ("separator", 34); ("sk", 31); ("sm", 32); ("so", 33); ("space_separator", 37); ("spacing_mark", 14);
   ("surrogate", 5); ("symbol", 29); ("titlecase_letter", 11); ("unassigned", 3); ("uppercase_letter", 12);
   ("z", 34); ("zl", 35); ("zp", 36); ("zs", 37)].
(** unicode-db.hpp lines 3205-3657. *)
Definition blocks_names : list (string * Z) :=
  [("adlam", 290); ("aegean_numbers", 167); ("ahom", 232); ("alchemical", 303); ("alchemical_symbols", 303);
   ("alphabetic_pf", 155); ("alphabetic_presentation_forms", 155); ("anatolian_hieroglyphs", 254);
   ("ancient_greek_music", 277); ("ancient_greek_musical_notation", 277); ("ancient_greek_numbers", 168);
   ("ancient_symbols", 169); ("arabic", 13); ("arabic_ext_a", 22); ("arabic_ext_b", 21); ("arabic_extended_a",
   22); ("arabic_extended_b", 21); ("arabic_math", 293); ("arabic_mathematical_alphabetic_symbols", 293);
   ("arabic_pf_a", 156); ("arabic_pf_b", 162); ("arabic_presentation_forms_a", 156);
   ("arabic_presentation_forms_b", 162); ("arabic_sup", 15); ("arabic_supplement", 15); ("armenian", 11);
   ("arrows", 79); ("ascii", 1); ("avestan", 201); ("balinese", 59); ("bamum", 127); ("bamum_sup", 255);
   ("bamum_supplement", 255); ("basic_latin", 1); ("bassa_vah", 258); ("batak", 61); ("bengali", 24);
   ("bhaiksuki", 241); ("block_elements", 86); ("bopomofo", 111); ("bopomofo_ext", 114); ("bopomofo_extended",
   114); ("box_drawing", 85); ("brahmi", 215); ("braille", 92); ("braille_patterns", 92); ("buginese", 56);
   ("buhid", 47); ("byzantine_music", 275); ("byzantine_musical_symbols", 275); ("carian", 172);
   ("caucasian_albanian", 184); ("chakma", 218); ("cham", 140); ("cherokee", 41); ("cherokee_sup", 146);
   ("cherokee_supplement", 146); ("chess_symbols", 307); ("chorasmian", 213); ("cjk", 121); ("cjk_compat",
   118); ("cjk_compat_forms", 160); ("cjk_compat_ideographs", 154); ("cjk_compat_ideographs_sup", 315);
   ("cjk_compatibility", 118); ("cjk_compatibility_forms", 160); ("cjk_compatibility_ideographs", 154);
   ("cjk_compatibility_ideographs_supplement", 315); ("cjk_ext_a", 119); ("cjk_ext_b", 310); ("cjk_ext_c",
   311); ("cjk_ext_d", 312); ("cjk_ext_e", 313); ("cjk_ext_f", 314); ("cjk_ext_g", 316); ("cjk_radicals_sup",
   105); ("cjk_radicals_supplement", 105); ("cjk_strokes", 115); ("cjk_symbols", 108);
   ("cjk_symbols_and_punctuation", 108); ("cjk_unified_ideographs", 121);
   ("cjk_unified_ideographs_extension_a", 119); ("cjk_unified_ideographs_extension_b", 310);
   ("cjk_unified_ideographs_extension_c", 311); ("cjk_unified_ideographs_extension_d", 312);
   ("cjk_unified_ideographs_extension_e", 313); ("cjk_unified_ideographs_extension_f", 314);
   ("cjk_unified_ideographs_extension_g", 316); ("combining_diacritical_marks", 7);
   ("combining_diacritical_marks_extended", 58); ("combining_diacritical_marks_for_symbols", 76);
   ("combining_diacritical_marks_supplement", 70); ("combining_half_marks", 159); ("common_indic_number_forms",
   131); ("compat_jamo", 112); ("control_pictures", 82); ("coptic", 99); ("coptic_epact_numbers", 173);
   ("counting_rod", 280); ("counting_rod_numerals", 280); ("cuneiform", 248); ("cuneiform_numbers", 249);
   ("cuneiform_numbers_and_punctuation", 249); ("currency_symbols", 75); ("cypriot_syllabary", 188);
   ("cypro_minoan", 251); ("cyrillic", 9); ("cyrillic_ext_a", 103); ("cyrillic_ext_b", 126); ("cyrillic_ext_c",
   64); ("cyrillic_extended_a", 103); ("cyrillic_extended_b", 126); ("cyrillic_extended_c", 64);
   ("cyrillic_sup", 10); ("cyrillic_supplement", 10); ("deseret", 179); ("devanagari", 23); ("devanagari_ext",
   134); ("devanagari_extended", 134); ("diacriticals", 7); ("diacriticals_ext", 58);
   ("diacriticals_for_symbols", 76); ("diacriticals_sup", 70); ("dingbats", 89); ("dives_akuru", 235);
   ("dogra", 233); ("domino", 295); ("domino_tiles", 295); ("duployan", 272); ("early_dynastic_cuneiform",
   250); ("egyptian_hieroglyph_format_controls", 253); ("egyptian_hieroglyphs", 252); ("elbasan", 183);
   ("elymaic", 214); ("emoticons", 300); ("enclosed_alphanum", 84); ("enclosed_alphanum_sup", 297);
   ("enclosed_alphanumeric_supplement", 297); ("enclosed_alphanumerics", 84); ("enclosed_cjk", 117);
   ("enclosed_cjk_letters_and_months", 117); ("enclosed_ideographic_sup", 298);
   ("enclosed_ideographic_supplement", 298); ("ethiopic", 39); ("ethiopic_ext", 102); ("ethiopic_ext_a", 144);
   ("ethiopic_ext_b", 288); ("ethiopic_extended", 102); ("ethiopic_extended_a", 144); ("ethiopic_extended_b",
   288); ("ethiopic_sup", 40); ("ethiopic_supplement", 40); ("general_punctuation", 73); ("geometric_shapes",
   87); ("geometric_shapes_ext", 304); ("geometric_shapes_extended", 304); ("georgian", 37); ("georgian_ext",
   65); ("georgian_extended", 65); ("georgian_sup", 100); ("georgian_supplement", 100); ("glagolitic", 97);
   ("glagolitic_sup", 284); ("glagolitic_supplement", 284); ("gothic", 175); ("grantha", 225); ("greek", 8);
   ("greek_and_coptic", 8); ("greek_ext", 72); ("greek_extended", 72); ("gujarati", 26); ("gunjala_gondi",
   244); ("gurmukhi", 25); ("half_and_full_forms", 163); ("half_marks", 159); ("halfwidth_and_fullwidth_forms",
   163); ("hangul", 148); ("hangul_compatibility_jamo", 112); ("hangul_jamo", 38); ("hangul_jamo_extended_a",
   137); ("hangul_jamo_extended_b", 149); ("hangul_syllables", 148); ("hanifi_rohingya", 207); ("hanunoo", 46);
   ("hatran", 192); ("hebrew", 12); ("high_private_use_surrogates", 151); ("high_pu_surrogates", 151);
   ("high_surrogates", 150); ("hiragana", 109); ("idc", 107); ("ideographic_description_characters", 107);
   ("ideographic_symbols", 262); ("ideographic_symbols_and_punctuation", 262); ("imperial_aramaic", 189);
   ("indic_number_forms", 131); ("indic_siyaq_numbers", 291); ("inscriptional_pahlavi", 203);
   ("inscriptional_parthian", 202); ("ipa_ext", 5); ("ipa_extensions", 5); ("jamo", 38); ("jamo_ext_a", 137);
   ("jamo_ext_b", 149); ("javanese", 138); ("kaithi", 216); ("kana_ext_a", 269); ("kana_ext_b", 267);
   ("kana_extended_a", 269); ("kana_extended_b", 267); ("kana_sup", 268); ("kana_supplement", 268); ("kanbun",
   113); ("kangxi", 106); ("kangxi_radicals", 106); ("kannada", 30); ("katakana", 110); ("katakana_ext", 116);
   ("katakana_phonetic_extensions", 116); ("kayah_li", 135); ("kharoshthi", 197); ("khitan_small_script", 265);
   ("khmer", 49); ("khmer_symbols", 55); ("khojki", 222); ("khudawadi", 224); ("lao", 34); ("latin_1_sup", 2);
   ("latin_1_supplement", 2); ("latin_ext_a", 3); ("latin_ext_additional", 71); ("latin_ext_b", 4);
   ("latin_ext_c", 98); ("latin_ext_d", 129); ("latin_ext_e", 145); ("latin_ext_f", 187); ("latin_ext_g", 283);
   ("latin_extended_a", 3); ("latin_extended_additional", 71); ("latin_extended_b", 4); ("latin_extended_c",
   98); ("latin_extended_d", 129); ("latin_extended_e", 145); ("latin_extended_f", 187); ("latin_extended_g",
   283); ("lepcha", 62); ("letterlike_symbols", 77); ("limbu", 52); ("linear_a", 186); ("linear_b_ideograms",
   166); ("linear_b_syllabary", 165); ("lisu", 124); ("lisu_sup", 246); ("lisu_supplement", 246);
   ("low_surrogates", 152); ("lycian", 171); ("lydian", 194); ("mahajani", 219); ("mahjong", 294);
   ("mahjong_tiles", 294); ("makasar", 245); ("malayalam", 31); ("mandaic", 19); ("manichaean", 200);
   ("marchen", 242); ("masaram_gondi", 243); ("math_alphanum", 281); ("math_operators", 80);
   ("mathematical_alphanumeric_symbols", 281); ("mathematical_operators", 80); ("mayan_numerals", 278);
   ("medefaidrin", 260); ("meetei_mayek", 147); ("meetei_mayek_ext", 143); ("meetei_mayek_extensions", 143);
   ("mende_kikakui", 289); ("meroitic_cursive", 196); ("meroitic_hieroglyphs", 195); ("miao", 261);
   ("misc_arrows", 96); ("misc_math_symbols_a", 90); ("misc_math_symbols_b", 94); ("misc_pictographs", 299);
   ("misc_symbols", 88); ("misc_technical", 81); ("miscellaneous_mathematical_symbols_a", 90);
   ("miscellaneous_mathematical_symbols_b", 94); ("miscellaneous_symbols", 88);
   ("miscellaneous_symbols_and_arrows", 96); ("miscellaneous_symbols_and_pictographs", 299);
   ("miscellaneous_technical", 81); ("modi", 229); ("modifier_letters", 6); ("modifier_tone_letters", 128);
   ("mongolian", 50); ("mongolian_sup", 230); ("mongolian_supplement", 230); ("mro", 256); ("multani", 223);
   ("music", 276); ("musical_symbols", 276); ("myanmar", 36); ("myanmar_ext_a", 141); ("myanmar_ext_b", 139);
   ("myanmar_extended_a", 141); ("myanmar_extended_b", 139); ("nabataean", 191); ("nandinagari", 236); ("nb",
   0); ("new_tai_lue", 54); ("newa", 226); ("nko", 17); ("no_block", 0); ("number_forms", 78); ("nushu", 271);
   ("nyiakeng_puachue_hmong", 285); ("ocr", 83); ("ogham", 43); ("ol_chiki", 63); ("old_hungarian", 206);
   ("old_italic", 174); ("old_north_arabian", 199); ("old_permic", 176); ("old_persian", 178); ("old_sogdian",
   210); ("old_south_arabian", 198); ("old_turkic", 205); ("old_uyghur", 212);
   ("optical_character_recognition", 83); ("oriya", 27); ("ornamental_dingbats", 301); ("osage", 182);
   ("osmanya", 181); ("ottoman_siyaq_numbers", 292); ("pahawh_hmong", 259); ("palmyrene", 190); ("pau_cin_hau",
   240); ("phags_pa", 132); ("phaistos", 170); ("phaistos_disc", 170); ("phoenician", 193); ("phonetic_ext",
   68); ("phonetic_ext_sup", 69); ("phonetic_extensions", 68); ("phonetic_extensions_supplement", 69);
   ("playing_cards", 296); ("private_use_area", 153); ("psalter_pahlavi", 204); ("pua", 153); ("punctuation",
   73); ("rejang", 136); ("rumi", 208); ("rumi_numeral_symbols", 208); ("runic", 44); ("samaritan", 18);
   ("saurashtra", 133); ("sharada", 220); ("shavian", 180); ("shorthand_format_controls", 273); ("siddham",
   228); ("sinhala", 32); ("sinhala_archaic_numbers", 221); ("small_form_variants", 161); ("small_forms", 161);
   ("small_kana_ext", 270); ("small_kana_extension", 270); ("sogdian", 211); ("sora_sompeng", 217); ("soyombo",
   238); ("spacing_modifier_letters", 6); ("specials", 164); ("sundanese", 60); ("sundanese_sup", 66);
   ("sundanese_supplement", 66); ("sup_arrows_a", 91); ("sup_arrows_b", 93); ("sup_arrows_c", 305);
   ("sup_math_operators", 95); ("sup_pua_a", 319); ("sup_pua_b", 320); ("sup_punctuation", 104);
   ("sup_symbols_and_pictographs", 306); ("super_and_sub", 74); ("superscripts_and_subscripts", 74);
   ("supplemental_arrows_a", 91); ("supplemental_arrows_b", 93); ("supplemental_arrows_c", 305);
   ("supplemental_mathematical_operators", 95); ("supplemental_punctuation", 104);
   ("supplemental_symbols_and_pictographs", 306); ("supplementary_private_use_area_a", 319);
   ("supplementary_private_use_area_b", 320); ("sutton_signwriting", 282); ("syloti_nagri", 130);
   ("symbols_and_pictographs_ext_a", 308); ("symbols_and_pictographs_extended_a", 308);
   ("symbols_for_legacy_computing", 309); ("syriac", 14); ("syriac_sup", 20); ("syriac_supplement", 20);
   ("tagalog", 45); ("tagbanwa", 48); ("tags", 317); ("tai_le", 53); ("tai_tham", 57); ("tai_viet", 142);
   ("tai_xuan_jing", 279); ("tai_xuan_jing_symbols", 279); ("takri", 231); ("tamil", 28); ("tamil_sup", 247);
   ("tamil_supplement", 247); ("tangsa", 257); ("tangut", 263); ("tangut_components", 264); ("tangut_sup",
   266); ("tangut_supplement", 266); ("telugu", 29); ("thaana", 16); ("thai", 33); ("tibetan", 35);
   ("tifinagh", 101); ("tirhuta", 227); ("toto", 286); ("transport_and_map", 302);
   ("transport_and_map_symbols", 302); ("ucas", 42); ("ucas_ext", 51); ("ucas_ext_a", 239); ("ugaritic", 177);
   ("unified_canadian_aboriginal_syllabics", 42); ("unified_canadian_aboriginal_syllabics_extended", 51);
   ("unified_canadian_aboriginal_syllabics_extended_a", 239); ("vai", 125); ("variation_selectors", 157);
   ("variation_selectors_supplement", 318); ("vedic_ext", 67); ("vedic_extensions", 67); ("vertical_forms",
   158); ("vithkuqi", 185); ("vs", 157); ("vs_sup", 318); ("wancho", 287); ("warang_citi", 234); ("yezidi",
   209); ("yi_radicals", 123); ("yi_syllables", 122); ("yijing", 120); ("yijing_hexagram_symbols", 120);
   ("zanabazar_square", 237); ("znamenny_music", 274); ("znamenny_musical_notation", 274)].
(** unicode-db.hpp lines 3713-4032. *)
Definition scripts_names : list (string * Z) :=
  [("adlam", 0); ("adlm", 0); ("aghb", 1); ("ahom", 2); ("anatolian_hieroglyphs", 52); ("arab", 3); ("arabic",
   3); ("armenian", 5); ("armi", 4); ("armn", 5); ("avestan", 6); ("avst", 6); ("bali", 7); ("balinese", 7);
   ("bamu", 8); ("bamum", 8); ("bass", 9); ("bassa_vah", 9); ("batak", 10); ("batk", 10); ("beng", 11);
   ("bengali", 11); ("bhaiksuki", 12); ("bhks", 12); ("bopo", 13); ("bopomofo", 13); ("brah", 14); ("brahmi",
   14); ("brai", 15); ("braille", 15); ("bugi", 16); ("buginese", 16); ("buhd", 17); ("buhid", 17); ("cakm",
   18); ("canadian_aboriginal", 19); ("cans", 19); ("cari", 20); ("carian", 20); ("caucasian_albanian", 1);
   ("chakma", 18); ("cham", 21); ("cher", 22); ("cherokee", 22); ("chorasmian", 23); ("chrs", 23); ("common",
   161); ("copt", 24); ("coptic", 24); ("cpmn", 25); ("cprt", 26); ("cuneiform", 156); ("cypriot", 26);
   ("cypro_minoan", 25); ("cyrillic", 27); ("cyrl", 27); ("deseret", 31); ("deva", 28); ("devanagari", 28);
   ("diak", 29); ("dives_akuru", 29); ("dogr", 30); ("dogra", 30); ("dsrt", 31); ("dupl", 32); ("duployan",
   32); ("egyp", 33); ("egyptian_hieroglyphs", 33); ("elba", 34); ("elbasan", 34); ("elym", 35); ("elymaic",
   35); ("ethi", 36); ("ethiopic", 36); ("geor", 37); ("georgian", 37); ("glag", 38); ("glagolitic", 38);
   ("gong", 39); ("gonm", 40); ("goth", 41); ("gothic", 41); ("gran", 42); ("grantha", 42); ("greek", 43);
   ("grek", 43); ("gujarati", 44); ("gujr", 44); ("gunjala_gondi", 39); ("gurmukhi", 45); ("guru", 45); ("han",
   47); ("hang", 46); ("hangul", 46); ("hani", 47); ("hanifi_rohingya", 116); ("hano", 48); ("hanunoo", 48);
   ("hatr", 49); ("hatran", 49); ("hebr", 50); ("hebrew", 50); ("hira", 51); ("hiragana", 51); ("hluw", 52);
   ("hmng", 53); ("hmnp", 54); ("hrkt", 55); ("hung", 56); ("imperial_aramaic", 4); ("inherited", 160);
   ("inscriptional_pahlavi", 110); ("inscriptional_parthian", 114); ("ital", 57); ("java", 58); ("javanese",
   58); ("kaithi", 66); ("kali", 59); ("kana", 60); ("kannada", 65); ("katakana", 60); ("katakana_or_hiragana",
   55); ("kayah_li", 59); ("khar", 61); ("kharoshthi", 61); ("khitan_small_script", 64); ("khmer", 62);
   ("khmr", 62); ("khoj", 63); ("khojki", 63); ("khudawadi", 125); ("kits", 64); ("knda", 65); ("kthi", 66);
   ("lana", 67); ("lao", 68); ("laoo", 68); ("latin", 69); ("latn", 69); ("lepc", 70); ("lepcha", 70); ("limb",
   71); ("limbu", 71); ("lina", 72); ("linb", 73); ("linear_a", 72); ("linear_b", 73); ("lisu", 74); ("lyci",
   75); ("lycian", 75); ("lydi", 76); ("lydian", 76); ("mahajani", 77); ("mahj", 77); ("maka", 78); ("makasar",
   78); ("malayalam", 86); ("mand", 79); ("mandaic", 79); ("mani", 80); ("manichaean", 80); ("marc", 81);
   ("marchen", 81); ("masaram_gondi", 40); ("medefaidrin", 82); ("medf", 82); ("meetei_mayek", 90); ("mend",
   83); ("mende_kikakui", 83); ("merc", 84); ("mero", 85); ("meroitic_cursive", 84); ("meroitic_hieroglyphs",
   85); ("miao", 113); ("mlym", 86); ("modi", 87); ("mong", 88); ("mongolian", 88); ("mro", 89); ("mroo", 89);
   ("mtei", 90); ("mult", 91); ("multani", 91); ("myanmar", 92); ("mymr", 92); ("nabataean", 95); ("nand", 93);
   ("nandinagari", 93); ("narb", 94); ("nbat", 95); ("new_tai_lue", 137); ("newa", 96); ("nko", 97); ("nkoo",
   97); ("nshu", 98); ("nushu", 98); ("nyiakeng_puachue_hmong", 54); ("ogam", 99); ("ogham", 99); ("ol_chiki",
   100); ("olck", 100); ("old_hungarian", 56); ("old_italic", 57); ("old_north_arabian", 94); ("old_permic",
   108); ("old_persian", 155); ("old_sogdian", 128); ("old_south_arabian", 119); ("old_turkic", 101);
   ("old_uyghur", 105); ("oriya", 102); ("orkh", 101); ("orya", 102); ("osage", 103); ("osge", 103); ("osma",
   104); ("osmanya", 104); ("ougr", 105); ("pahawh_hmong", 53); ("palm", 106); ("palmyrene", 106);
   ("pau_cin_hau", 107); ("pauc", 107); ("perm", 108); ("phag", 109); ("phags_pa", 109); ("phli", 110);
   ("phlp", 111); ("phnx", 112); ("phoenician", 112); ("plrd", 113); ("prti", 114); ("psalter_pahlavi", 111);
   ("rejang", 115); ("rjng", 115); ("rohg", 116); ("runic", 117); ("runr", 117); ("samaritan", 118); ("samr",
   118); ("sarb", 119); ("saur", 120); ("saurashtra", 120); ("sgnw", 121); ("sharada", 123); ("shavian", 122);
   ("shaw", 122); ("shrd", 123); ("sidd", 124); ("siddham", 124); ("signwriting", 121); ("sind", 125); ("sinh",
   126); ("sinhala", 126); ("sogd", 127); ("sogdian", 127); ("sogo", 128); ("sora", 129); ("sora_sompeng",
   129); ("soyo", 130); ("soyombo", 130); ("sund", 131); ("sundanese", 131); ("sylo", 132); ("syloti_nagri",
   132); ("syrc", 133); ("syriac", 133); ("tagalog", 143); ("tagb", 134); ("tagbanwa", 134); ("tai_le", 136);
   ("tai_tham", 67); ("tai_viet", 140); ("takr", 135); ("takri", 135); ("tale", 136); ("talu", 137); ("tamil",
   138); ("taml", 138); ("tang", 139); ("tangsa", 148); ("tangut", 139); ("tavt", 140); ("telu", 141);
   ("telugu", 141); ("tfng", 142); ("tglg", 143); ("thaa", 144); ("thaana", 144); ("thai", 145); ("tibetan",
   146); ("tibt", 146); ("tifinagh", 142); ("tirh", 147); ("tirhuta", 147); ("tnsa", 148); ("toto", 149);
   ("ugar", 150); ("ugaritic", 150); ("unknown", 162); ("vai", 151); ("vaii", 151); ("vith", 152); ("vithkuqi",
   152); ("wancho", 154); ("wara", 153); ("warang_citi", 153); ("wcho", 154); ("xpeo", 155); ("xsux", 156);
   ("yezi", 157); ("yezidi", 157); ("yi", 158); ("yiii", 158); ("zanabazar_square", 159); ("zanb", 159);
   ("zinh", 160); ("zyyy", 161); ("zzzz", 162)].
(** unicode-db.hpp lines 9020-9499. *)
Definition binary_prop_names : list (string * Z) :=
  [("adlam", 86); ("adlm", 86); ("aghb", 87); ("ahex", 0); ("ahom", 88); ("alpha", 1); ("alphabetic", 1);
   ("anatolian_hieroglyphs", 138); ("any", 45); ("arab", 89); ("arabic", 89); ("armenian", 91); ("armi", 90);
   ("armn", 91); ("ascii", 46); ("ascii_hex_digit", 0); ("assigned", 47); ("avestan", 92); ("avst", 92);
   ("bali", 93); ("balinese", 93); ("bamu", 94); ("bamum", 94); ("bass", 95); ("bassa_vah", 95); ("batak", 96);
   ("batk", 96); ("beng", 97); ("bengali", 97); ("bhaiksuki", 98); ("bhks", 98); ("bidi_c", 2);
   ("bidi_control", 2); ("bidi_m", 3); ("bidi_mirrored", 3); ("bopo", 99); ("bopomofo", 99); ("brah", 100);
   ("brahmi", 100); ("brai", 101); ("braille", 101); ("bugi", 102); ("buginese", 102); ("buhd", 103); ("buhid",
   103); ("c", 48); ("cakm", 104); ("canadian_aboriginal", 105); ("cans", 105); ("cari", 106); ("carian", 106);
   ("case_ignorable", 5); ("cased", 4); ("cased_letter", 55); ("caucasian_albanian", 87); ("cc", 49); ("cf",
   50); ("chakma", 104); ("cham", 107); ("cher", 108); ("cherokee", 108); ("chorasmian", 109); ("chrs", 109);
   ("ci", 5); ("close_punctuation", 72); ("cn", 51); ("co", 52); ("common", 247); ("connector_punctuation",
   70); ("control", 49); ("copt", 110); ("coptic", 110); ("cpmn", 111); ("cprt", 112); ("cs", 53);
   ("cuneiform", 242); ("currency_symbol", 78); ("cypriot", 112); ("cypro_minoan", 111); ("cyrillic", 113);
   ("cyrl", 113); ("dash", 6); ("dash_punctuation", 71); ("decimal_number", 66);
   ("default_ignorable_code_point", 8); ("dep", 7); ("deprecated", 7); ("deseret", 117); ("deva", 114);
   ("devanagari", 114); ("di", 8); ("dia", 9); ("diacritic", 9); ("diak", 115); ("dives_akuru", 115); ("dogr",
   116); ("dogra", 116); ("dsrt", 117); ("dupl", 118); ("duployan", 118); ("egyp", 119);
   ("egyptian_hieroglyphs", 119); ("elba", 120); ("elbasan", 120); ("elym", 121); ("elymaic", 121); ("emoji",
   10); ("emoji_component", 11); ("emoji_modifier", 12); ("emoji_modifier_base", 13); ("emoji_presentation",
   14); ("enclosing_mark", 63); ("ethi", 122); ("ethiopic", 122); ("ext", 15); ("extended_pictographic", 16);
   ("extender", 15); ("final_punctuation", 73); ("format", 50); ("geor", 123); ("georgian", 123); ("glag",
   124); ("glagolitic", 124); ("gong", 125); ("gonm", 126); ("goth", 127); ("gothic", 127); ("gr_base", 17);
   ("gr_ext", 18); ("gran", 128); ("grantha", 128); ("grapheme_base", 17); ("grapheme_extend", 18); ("greek",
   129); ("grek", 129); ("gujarati", 130); ("gujr", 130); ("gunjala_gondi", 125); ("gurmukhi", 131); ("guru",
   131); ("han", 133); ("hang", 132); ("hangul", 132); ("hani", 133); ("hanifi_rohingya", 202); ("hano", 134);
   ("hanunoo", 134); ("hatr", 135); ("hatran", 135); ("hebr", 136); ("hebrew", 136); ("hex", 19); ("hex_digit",
   19); ("hira", 137); ("hiragana", 137); ("hluw", 138); ("hmng", 139); ("hmnp", 140); ("hrkt", 141); ("hung",
   142); ("id_continue", 20); ("id_start", 22); ("idc", 20); ("ideo", 21); ("ideographic", 21); ("ids", 22);
   ("ids_binary_operator", 23); ("ids_trinary_operator", 24); ("idsb", 23); ("idst", 24); ("imperial_aramaic",
   90); ("inherited", 246); ("initial_punctuation", 74); ("inscriptional_pahlavi", 196);
   ("inscriptional_parthian", 200); ("ital", 143); ("java", 144); ("javanese", 144); ("join_c", 25);
   ("join_control", 25); ("kaithi", 152); ("kali", 145); ("kana", 146); ("kannada", 151); ("katakana", 146);
   ("katakana_or_hiragana", 141); ("kayah_li", 145); ("khar", 147); ("kharoshthi", 147);
   ("khitan_small_script", 150); ("khmer", 148); ("khmr", 148); ("khoj", 149); ("khojki", 149); ("khudawadi",
   211); ("kits", 150); ("knda", 151); ("kthi", 152); ("l", 54); ("lana", 153); ("lao", 154); ("laoo", 154);
   ("latin", 155); ("latn", 155); ("lc", 55); ("lepc", 156); ("lepcha", 156); ("letter", 54); ("letter_number",
   67); ("limb", 157); ("limbu", 157); ("lina", 158); ("linb", 159); ("line_separator", 83); ("linear_a", 158);
   ("linear_b", 159); ("lisu", 160); ("ll", 56); ("lm", 57); ("lo", 58); ("loe", 26);
   ("logical_order_exception", 26); ("lower", 27); ("lowercase", 27); ("lowercase_letter", 56); ("lt", 59);
   ("lu", 60); ("lyci", 161); ("lycian", 161); ("lydi", 162); ("lydian", 162); ("m", 61); ("mahajani", 163);
   ("mahj", 163); ("maka", 164); ("makasar", 164); ("malayalam", 172); ("mand", 165); ("mandaic", 165);
   ("mani", 166); ("manichaean", 166); ("marc", 167); ("marchen", 167); ("mark", 61); ("masaram_gondi", 126);
   ("math", 28); ("math_symbol", 80); ("mc", 62); ("me", 63); ("medefaidrin", 168); ("medf", 168);
   ("meetei_mayek", 176); ("mend", 169); ("mende_kikakui", 169); ("merc", 170); ("mero", 171);
   ("meroitic_cursive", 170); ("meroitic_hieroglyphs", 171); ("miao", 199); ("mlym", 172); ("mn", 64); ("modi",
   173); ("modifier_letter", 57); ("modifier_symbol", 79); ("mong", 174); ("mongolian", 174); ("mro", 175);
   ("mroo", 175); ("mtei", 176); ("mult", 177); ("multani", 177); ("myanmar", 178); ("mymr", 178); ("n", 65);
   ("nabataean", 181); ("nand", 179); ("nandinagari", 179); ("narb", 180); ("nbat", 181); ("nchar", 29); ("nd",
   66); ("new_tai_lue", 223); ("newa", 182); ("nko", 183); ("nkoo", 183); ("nl", 67); ("no", 68);
   ("noncharacter_code_point", 29); ("nonspacing_mark", 64); ("nshu", 184); ("number", 65); ("nushu", 184);
   ("nyiakeng_puachue_hmong", 140); ("ogam", 185); ("ogham", 185); ("ol_chiki", 186); ("olck", 186);
   ("old_hungarian", 142); ("old_italic", 143); ("old_north_arabian", 180); ("old_permic", 194);
   ("old_persian", 241); ("old_sogdian", 214); ("old_south_arabian", 205); ("old_turkic", 187); ("old_uyghur",
   191); ("open_punctuation", 76); ("oriya", 188); ("orkh", 187); ("orya", 188); ("osage", 189); ("osge", 189);
   ("osma", 190); ("osmanya", 190); ("other", 48); ("other_letter", 58); ("other_number", 68);
   ("other_punctuation", 75); ("other_symbol", 81); ("ougr", 191); ("p", 69); ("pahawh_hmong", 139); ("palm",
   192); ("palmyrene", 192); ("paragraph_separator", 84); ("pat_syn", 30); ("pat_ws", 31); ("pattern_syntax",
   30); ("pattern_white_space", 31); ("pau_cin_hau", 193); ("pauc", 193); ("pc", 70); ("pcm", 32); ("pd", 71);
   ("pe", 72); ("perm", 194); ("pf", 73); ("phag", 195); ("phags_pa", 195); ("phli", 196); ("phlp", 197);
   ("phnx", 198); ("phoenician", 198); ("pi", 74); ("plrd", 199); ("po", 75); ("prepended_concatenation_mark",
   32); ("private_use", 52); ("prti", 200); ("ps", 76); ("psalter_pahlavi", 197); ("punctuation", 69);
   ("qmark", 33); ("quotation_mark", 33); ("radical", 34); ("regional_indicator", 35); ("rejang", 201); ("ri",
   35); ("rjng", 201); ("rohg", 202); ("runic", 203); ("runr", 203); ("s", 77); ("samaritan", 204); ("samr",
   204); ("sarb", 205); ("saur", 206); ("saurashtra", 206); ("sc", 78); ("sd", 36); ("sentence_terminal", 37);
   ("separator", 82); ("sgnw", 207); ("sharada", 209); ("shavian", 208); ("shaw", 208); ("shrd", 209); ("sidd",
   210); ("siddham", 210); ("signwriting", 207); ("sind", 211); ("sinh", 212); ("sinhala", 212); ("sk", 79);
   ("sm", 80); ("so", 81); ("soft_dotted", 36); ("sogd", 213); ("sogdian", 213); ("sogo", 214); ("sora", 215);
   ("sora_sompeng", 215); ("soyo", 216); ("soyombo", 216); ("space", 42); ("space_separator", 85);
   ("spacing_mark", 62); ("sterm", 37); ("sund", 217); ("sundanese", 217); ("surrogate", 53); ("sylo", 218);
   ("syloti_nagri", 218); ("symbol", 77); ("syrc", 219); ("syriac", 219); ("tagalog", 229); ("tagb", 220);
   ("tagbanwa", 220); ("tai_le", 222); ("tai_tham", 153); ("tai_viet", 226); ("takr", 221); ("takri", 221);
   ("tale", 222); ("talu", 223); ("tamil", 224); ("taml", 224); ("tang", 225); ("tangsa", 234); ("tangut",
   225); ("tavt", 226); ("telu", 227); ("telugu", 227); ("term", 38); ("terminal_punctuation", 38); ("tfng",
   228); ("tglg", 229); ("thaa", 230); ("thaana", 230); ("thai", 231); ("tibetan", 232); ("tibt", 232);
   ("tifinagh", 228); ("tirh", 233); ("tirhuta", 233); ("titlecase_letter", 59); ("tnsa", 234); ("toto", 235);
   ("ugar", 236); ("ugaritic", 236); ("uideo", 39); ("unassigned", 51); ("unified_ideograph", 39); ("unknown",
   248); ("upper", 40); ("uppercase", 40); ("uppercase_letter", 60); ("vai", 237); ("vaii", 237);
   ("variation_selector", 41); ("vith", 238); ("vithkuqi", 238); ("vs", 41); ("wancho", 240); ("wara", 239);
   ("warang_citi", 239); ("wcho", 240); ("white_space", 42); ("wspace", 42); ("xid_continue", 43);
   ("xid_start", 44); ("xidc", 43); ("xids", 44); ("xpeo", 241); ("xsux", 242); ("yezi", 243); ("yezidi", 243);
   ("yi", 244); ("yiii", 244); ("z", 82); ("zanabazar_square", 245); ("zanb", 245); ("zinh", 246); ("zl", 83);
   ("zp", 84); ("zs", 85); ("zyyy", 247); ("zzzz", 248)].
