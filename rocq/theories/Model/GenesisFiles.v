(** The contents of genesis/files: the binary files that genesis/genesis.go:54-56 embeds.
    Generated by tools/genesis_files.py from /repo. *)
From Coq Require Import ZArith List.
Import ListNotations.
From Verif.Model Require Import Base Blake2b.
Open Scope Z_scope.

(** genesis/files/test.block.bin *)
Definition test_block_bin : bytes :=
  unpack
    [0x0001000000000000000000000000000000000000000000000000000000000000;
     0x0000000000000000000000000000000000000000000000000000000000000000;
     0x0000f6ba2bbf7e1478a209057000471d73fbdc28df0b717747d929cfde829c41;
     0x20f62e02da3d162e20fa982029dbde9cc20f6b431ab05df1764f34af4c62a4f2;
     0xb33f1f010000000000015ac3185f000134990001000000000000000000000000]
    20%nat 0x000000000000000007546573744e657400000000.
(** genesis/files/test.accounts.bin *)
Definition test_accounts_bin : bytes :=
  unpack
    [0x00646da588646cae6840ee6c5344b4f92311ced1c2490000000236610228efaf;
     0x96fd0771d7c9aa4ee9e7b205c938a08e0f7b4b00000001df68823f7294ac3ba7;
     0x0a75d2993ef78f63165a89c40993d0ed0100000363f08a2af7b5d05077572928;
     0x9baf93eb7519fa5e5174ca9508000000010000168000000363f08a2af7000003;
     0x63f08a2af75ee07ff5a5ac9eb2d44f08436a243023fa9e986301000003e649e2;
     0x1e68d9fe7a95fece5d2557ffea4f3cc87513f57b177300000001000016800000;
     0x03e649e21e68000003e649e21e68f59610d3b74cb438d96630d25e71aca6cc92;
     0x450c000000020bccdd8f69a3be3ca0d940a4ca56736b22657f8ed22ad4956701;
     0x0000025d8fceea3c589a896e740c1d336b0888a542d7c7fb4fe5f11e00000001;
     0x00000b4000000064ed4d270a0000025d8fceea3c5050a51230a7ccbe61933f09;
     0x83d6c0127138dc7901000000f514d44f1c9abec8825ff904e19608ffb95db30e;
     0x4f11d3f7a30000000100001680000000f514d44f1c000000f514d44f1c926764;
     0xd423cb22232441295da9b5af5596e53103010000015bd30a896921556425e540;
     0xe081228f2a42508a4b7896d60ec30000000100000b4000000039f881c1920000;
     0x015bd30a8969ad56cda50eec6e0d0a2f2830a142c2adb75ec01b010000023113;
     0xa123d09f358887df0c1c32985a110490ed7e8692eb55ef000000010000168000;
     0x00023113a123d00000023113a123d052737972f6b29aac44432ed80bd29d7e67;
     0xdd679b0000000159a733d02b9232771c1d9d7b9be8e607a75913815037f5e901;
     0x010000024fbd4d3fbd28c4049b6244aaeaaa1ecf6cc6f10f0923e53b54000000;
     0x01000016800000024fbd4d3fbd0000024fbd4d3fbdebe8386b5ce72f48c56530;
     0x78f1c491a263fc91b701000003c00095dcc4e03d50ee5db2e8bc548eb5cb3a20;
     0x4e848a89fc5a0000000100001680000003c00095dcc4000003c00095dcc4587f;
     0x2b2db2db2a8466df6d6fd1515ae62aad5fcc010000016b9f8fcfb4d59c8cee3c;
     0xa46e0d39413acc59a3bcb7dcaf828f0000000100000b400000003c9a97f7f400;
     0x00016b9f8fcfb4388b6920ce807c245e0c6d04a6828abd970d72a30100000275;
     0x171c9aca1b7fedd3579b9595805a4880cecfd541403887d10000000100000b40;
     0x00000068d92f6f2200000275171c9acac59e3db32da67862f2dd7271b4242744;
     0x2f529f3b00000000ff126f9df34e599fc4c9ae57a9e256a00a2fa570b41159af;
     0xb101000001e55bf8fa42669f5db01fc4d4ec10984e0614775b02144bee9f0000;
     0x000100000b4000000050e4a97f0b000001e55bf8fa4205e992c028334e6ef195;
     0xc76d876bd40e15ec2b7200000000832822885501ce7bb152c16a2550abc34fd1;
     0x4df01bc2849ce6010000008728f756ee01c3a64cf4841d1d112d7f77f2798818;
     0xddd0cc1000000001000016800000008728f756ee0000008728f756ee76c0b6de;
     0x1cdb5fc9623c335ae651fb2a66f33c9000000000b2714427d445b35e54967cbe;
     0x63d4d2ab1f5070c8cb67074f99010000034e8fb3325a9e82fb79b9020704f086;
     0x31c1ea31093e756c64660000000100000b400000008d17f3330f0000034e8fb3;
     0x325a093ca2da434dcb4e1932c22e6e01b9292a67a8ac00000003edb4d4b738a2;
     0xba464f6c81e0822c57c8905327958af1887c4601000000a6b598e6150c4b9473;
     0xe7917ffd31b3f3baf6ab5e163adf409e0000000100001680000000a6b598e615;
     0x000000a6b598e615b219d9cf4a171e56521662bd633489eb166498d800000000;
     0xbd19c42f97e143f6b967561f9d78fc9d4ff1dc0fb25932981700000000b6c100;
     0xef75c88ea43f52d09207e8169861a2eeb0dbc2ab4ce700000003feb30f43df78;
     0x337153476acce55ce2bd7112e894902af59a9e01000001eb4264d4600545b713;
     0x0501f09598e23f08f5b0d6e17af627b60000000100000b4000000051e0662366;
     0x000001eb4264d4608781d7228e4f98d897359156877c67debbff733401000000;
     0xbd3c42e86c45fac3473a9978f44b5d4e439ced7ee20eb350f30000000100000b;
     0x400000001f8a0b26bd000000bd3c42e86cd02833731b5a6008b7e8d9dc890890;
     0x79abdc6ad201000000b3bea5172fc0462446736925009739616eb41899f6571a;
     0xd9570000000100000b400000001df51b83de000000b3bea5172fd1bd4514de81;
     0xa530a4e54e28f50744a25ae4243e010000017b6eb8526891ba3432de13ffaccf;
     0xb2b96463998af34e9ed39e00000001000016800000017b6eb852680000017b6e;
     0xb852689cb5c0c23ed6a161360c26b55b81b145260e258200000003276a31363c;
     0x6fde1108c4632d5de11c049c45cfa9fbbfe41c9401000001b56be11ca93294e4;
     0x5746bf250971286a33693c063464f520320000000100001680000001b56be11c;
     0xa9000001b56be11ca942c810596d31684b09b983582a5170f0da463b36010000;
     0x00038b686e83339d50b087fd68473ff75a7028665258b901b767000000010000;
     0x1680000000038b686e83000000038b686e8356bffb78b46f7e092c5f8fb38e9a;
     0x55427926b4df010000015bb97f697f534dd811cc4fadc948d76d950ef1e3b46c;
     0x87791b0000000100000b4000000039f43fe6eb0000015bb97f697f01a98ff1d0;
     0x6170b12a77ea1031bb9b4526e3c8c80100000095f29e9f1a73d588484a6f4703;
     0x0e19b15cd17ea37ead2868e40000000100000b4000000018fdc51a8500000095;
     0xf29e9f1a13c3c7e645e0f49f30ba6fd40bb794cad33fe33801000002d6ec3cee;
     0x8a0907dc5f74db022d3c25bb0e769c3412c1ab42000000000100001680000002;
     0xd6ec3cee8a000002d6ec3cee8a3d1adeac0f8e249781d0ad6ac3804820e1145a;
     0xcd010000014290c188e7e3f26a269a13a9c5689f6bb53c5b1fe9bafcc45a0000;
     0x0001000016800000014290c188e70000014290c188e73aee2669670f9c17986a;
     0xc8aa023c8dd222a7333f00000002c012557024e9ec5dd3df5373963e08920525;
     0x8599ab70392a740100000135ae5b83f49d1d89d0d5a0b042c8629ac41cbc1903;
     0xbcc4d6760000000100000b40000000339d0f40a900000135ae5b83f4153609b9;
     0x95f4c85c279a01c1c5965b2c81c606a601000003cfd23119733667d7971e116f;
     0xbacf82f6e51743c952099ae6ea0000000100000b40000000a2a3082ee9000003;
     0xcfd231197390873d59b2c34cc40f176555a86b97f95e256bcf000000032ce640;
     0x59314eaa7e2f4fea4e80ea65c5ae88343c2fb5135007000000032c5700f59eaf;
     0x1cfec9a68ea72f57d72af2e9ffce14ce5f00d401000000e6164ffbbd98d156bf;
     0x52ef5d5351ea71466015bf19fd2b5e370000000100000b4000000026590d54a0;
     0x000000e6164ffbbdec4e5a3bc655edf1ba0fa0f8e69676242baba63601000003;
     0x0ed1b624c79d3cf914bfd480fdd56bf7e94084d260c0f60dd900000001000016;
     0x800000030ed1b624c70000030ed1b624c7cd3d7bdf5e3cfcd4222f8388a2b400;
     0x85ac65abcd010000004515d7fec87c5981ba83e3987c32ec36fec157eef0af9f;
     0x5e7900000001000016800000004515d7fec80000004515d7fec8ddcbee00c6bd;
     0xecf5c14a48c3a5e968a924d38ee500000001ebb10633051a8506278a5f1ec59a;
     0xc404c9d1fd55ccf478b6f101000003769fefc017412447441a9aba967eadb963;
     0xc3f25591c0a6b5310000000100000b4000000093c552a004000003769fefc017;
     0xf5761d2fd1fc369cf7d0688e48de018c319c5b120100000263f1341eae547f5b;
     0x8de16c5446537ed64642aac22417242a68000000010000168000000263f1341e;
     0xae00000263f1341eae0b46fe0ce7d107117df715e0f1b351db952e78c2000000;
     0x01ebb922803ebea257be4ad62fcb111fcae4589bdb7285af6066000000010911;
     0x9a403e0c64ae25a4543deaa4dff1887337ba416209670f01000003fa30031212;
     0xd430319fec839164377ed1ea7d26889ec563e9200000000100000b40000000a9;
     0xb2ab2dae000003fa300312126ff072fb8a80fbd1f77502ea083bb8b4460f40a7;
     0x01000001b7c4e149ff4ed87748fe96b49f5ee1c1ff3f3a5db34a2da69d000000;
     0x0100000b40000000494b7ae1ab000001b7c4e149ff716de993484e749315ec6e;
     0x10c896b4d33f0407d20100000249a849ac74739a86524b04334367254efd03e4;
     0xe59bc07bf0720000000100000b40000000619c0c476900000249a849ac742f3e;
     0x9f4d98d06349c9e17b123cd2581dcc3e5a4600000003f33939525015f9481cc7;
     0x6e4fabdaa6ff10db6ed30079075b42010000012d15c481712c41d119e465797e;
     0x50260add8169f0056f64f81400000001000016800000012d15c481710000012d;
     0x15c481718141c7e952a5ed1e97c62fae502f7bc415f86a7501000003b8656816;
     0x253af84cd39abdfca33d73dc8ba5c96a3fc15469a80000000100000b40000000;
     0x9ebb915907000003b8656816256fadcb68b108843c0147e0136127815d61d3f9;
     0x8e00000003fd9381f31e07d888e60462ea516deb180a7efa26a3d7b9e9620100;
     0x000048fb07e25de0e2afdfa1c8aae2b79f9b5508f7680bf678645c0000000100;
     0x00168000000048fb07e25d00000048fb07e25d5c3782eab866522d42f06d77dd;
     0x58c4ff38eb7d94010000008a694f1e16ca2cbdf95ba266d9a4d7bc6ad26723ee;
     0x8ce4fb3400000001000016800000008a694f1e160000008a694f1e16a8bff3cc;
     0xbf106cbc95c9da953d0f6d5c4120346e000000039a53c554f226a8f07bcce9e5;
     0xb6f081c6e75822495e4d3c7958000000040f94a6e8631bbc88b2e99633686a48;
     0x0e9fba3d3108209e37af0000000032677064b0500eeae9df51b42e8d4ecdc23f;
     0x057a152ab448ad010000038baa61f6269a3bf3e4291514b236c7368d1a79bd96;
     0x37c4a59600000001000016800000038baa61f6260000038baa61f626ea781fca;
     0xa7b671a01d6b1bf8a30b79d38bb4b43d01000002d31b26f0f4b8526257821c8a;
     0xde3146cee18ef845d4ec211a5e0000000100000b400000007884867d7e000002;
     0xd31b26f0f43199bc99dd8b9e501d0a19a8910398b1f75ae7e2000000020ead16;
     0x9440a95932f95d9457897088076f5ec4c9ffa0d6404201000004006c24895025;
     0x5a8f5a69e301c976913b5e87b2ec3ed35477700000000100000b40000000aabc;
     0xb0c18e000004006c24895005768b1d0b046a26b87d35b09b225fb21ecacec800;
     0x00000020a26e2d4d428b686cf8d90fe3157b9dc59bc203f6310b227d01000000;
     0x93ee2d1ac4c72aabfed0364fcf42d49d4433a05773234d8bb800000001000016;
     0x8000000093ee2d1ac400000093ee2d1ac43014f90eead8a6c86e93595e6dcb30;
     0xc36ef9e90301000003d8ccc940266d6f639854c2cec3bd997e7ba93a786840a2;
     0xb4a30000000100001680000003d8ccc94026000003d8ccc940264327188e0016;
     0x02f152342a7777a1c4cc1fc7798600000000e07c2b35178da3279c540b3ffec7;
     0xe856d2c8594fe7dcd680ed01000000d83917700c2cd90b492eb21b623963d31c;
     0x076ea4811c5fe24e0000000100000b40000000240983e802000000d83917700c;
     0xef5b8323326480818f1d2c9290ffc046003cd65500000002dca4f9cf32ec111d;
     0xd1117b02004879eeb65ac72cb8cb735c6f010000018393d9196c25ab61f88664;
     0x6b2b55d02277e658d546c21a4a890000000100000b400000004098a42ee80000;
     0x018393d9196cb12336c2fe6cbe5d1e8626efcaaed644ef765862010000025233;
     0x143c21c8b507458a67a1dcbd953aacaca74dec5d74e922000000010000168000;
     0x00025233143c210000025233143c218bd91563395e02fccea5270bc583fa2373;
     0xd98299010000029390a90ae137be58533b587e812e29f0d952bddac13e7fe200;
     0x00000001000016800000029390a90ae10000029390a90ae1e2ec6010363ebbcd;
     0x5e95022e7021fcd7a80d4c1b0100000278cefc48ee8f901b5a3b82f23083de19;
     0x3249d0f7bc2b2a048f0000000100000b400000006977d4b6d300000278cefc48;
     0xeec88357e32c64f9161c58f0013d71941f269bcd3e00000001c14273fc1c2ac1;
     0x6c1aa8608bbf0b82adcd506bfdcb735a59b60000000027265edf4a4479165f39;
     0x6a309a13c4c244df8394a056dabb82010000003535ed5c7e300ad53bcb1a2b1c;
     0xac54fd0c9c92a101ff43528800000001000016800000003535ed5c7e00000035;
     0x35ed5c7ee1e35f08e866f35cec5cb91409c089fcb2267f13010000007c50e88f;
     0x85e885535e8a6e3b3f5007ebd976abda32e11000600000000100000b40000000;
     0x14b826c2970000007c50e88f8593e76e5fdcf626f37fe3e774c7b9e1201d9fdf;
     0x6901000001a9f5dbb34034ccf4577cebaa6981f1ae2cc18f7ec4205395e80000;
     0x000100000b4000000046fe4f488b000001a9f5dbb3400b902b6d72a00bef2fab;
     0x1f102294457229674978000000028e5112a5e40332b1ae1de84ca56800b26eea;
     0xb6181a78e6d51400000001934d67c97a7f9a7e91aab143a13571613c127724f8;
     0x12a44afa01000001837f7eec9ae5073cdd38a619176ea82417fd8acbb92cd06e;
     0x930000000100001680000001837f7eec9a000001837f7eec9a12efffef3fbd8d;
     0xa27f487a4d46e5a35abbaa1e1a000000029aa439d8cd4432aee90df9073d5b0c;
     0xfdbf88212f2365ef5bbc0100000272cd595fd7cb03ec8bc046646f822b2d67c3;
     0x6fb139b349343a0000000100000b4000000068778ee54f00000272cd595fd709;
     0xfdc307d7396db5516288669dc25d01c7fab79b0100000123c39f1706f3c3bfcb;
     0x4cbe9e378dca803258bf13c8fa8d6a07000000010000168000000123c39f1706;
     0x00000123c39f170662bd6dc779b9eab9db0909dbf89f1ffc7328828901000001;
     0x4cb830065f04192e7d4d74be26a76c361a9c2f0065ee9ce62d00000001000016;
     0x800000014cb830065f0000014cb830065ff1103c8a6473f379e40bf849b761de;
     0x652c013865010000033c6d5f7c0bef64d8521ec56103122131c9047452688d46;
     0x7ac80000000100000b400000008a123a94ad0000033c6d5f7c0b6e8e810d3e16;
     0x58b08510818154ff71c5ced44be400000002c0033d1714573a0c2cef34e97bb5;
     0x9d8f650a7103c6e4e9fb1001000000e26ec95facf9664914cb9e447586e527fb;
     0x1294b08e87a8a5090000000100000b4000000025bd218ff2000000e26ec95fac;
     0xb49b5c6d86843df744bd64f489889658a67650dc01000002b1088dd46cfb7946;
     0xa4718f6c2a27e2b10bf6701e38195145660000000100001680000002b1088dd4;
     0x6c000002b1088dd46cec2aba38362cf5617686597c5be1966fca18a149010000;
     0x02ca27eef5b3a483648b0b9b8bebb9b52667150e9dcb566e6cc6000000010000;
     0x0b400000007706a7d39e000002ca27eef5b3c639aaf193ef947f5afef900d40f;
     0xf47f12afa71b010000005949a1b514a122721dc8fbd234752e83fece129198e0;
     0x2d42ab00000001000016800000005949a1b5140000005949a1b5145dbfd10c85;
     0xbb283fd69efaa7e793d285b39b9c150000000176031236752bac8c9603e99828;
     0x68fdeb38b7ad49a70ada4fbe01000003ee9ebb987ab3ce50fbf10c8b16ab0d68;
     0xedec81b2bf6c96c4e50000000100000b40000000a7c51f4415000003ee9ebb98;
     0x7a0cb4c3580042ef446d18298c1a56deb53f1d4ec501000003539603d76c0aea;
     0xb801dc726b37dcf4c84a06a106cf558629310000000100001680000003539603;
     0xd76c000003539603d76ca2a79d29572e49a84da03fa3cfd9c12a7426ec8d0000;
     0x0002bcbe476a90bdb14e77cd000150f247165f08da4d77de512af2010000019d;
     0x422c96dde9567a308ae0d0c4cb7a517b4d4454102e7653020000000100001680;
     0x0000019d422c96dd0000019d422c96dd5b291431937662d3c513abb5829af6d1;
     0xf169723d010000010f7c77899b8b4ec5a3b2d0fd583024a08c963da6d8a0725b;
     0x7b00000001000016800000010f7c77899b0000010f7c77899b1702dc1b2cb05e;
     0x372a24f84ece01c4835c6f1c800100001e9dbaf7b6df9ac94a1a46736363a20b;
     0x8e52074ca76981cc43390000000100000b400000051a49d3f3d000001e9dbaf7]
    2%nat 0xb6df.
(** genesis/files/main.block.bin *)
Definition main_block_bin : bytes :=
  unpack
    [0x0001000000000000000000000000000000000000000000000000000000000000;
     0x0000000000000000000000000000000000000000000000000000000000000000;
     0x00007cda9a7fdf06655905ae5dbd9c535451471b078fa6f3df0e287e5b0fb47a;
     0x573a1fefd44f1fa97185fda21e957545c97dc7643fa7e4efdd86e0aa4244d1e0;
     0xbc5c1f010000000000015ad23a98000219d90001000000000000000000000000;
     0x0000000000000000836c6f766520616920616d6f72206d6f6861626261742068;
     0x7562756e2063696e7461206c7975626f76206268616c616261736120616d6f75;
     0x72206b61756e6120706927617261206c696562652065736871207570656e646f;
     0x207072656d6120616d6f7265206b61747265736e616e20736172616e6720616e]
    16%nat 0x7075207072656d612079657500000000.
(** genesis/files/main.accounts.bin *)
Definition main_accounts_bin : bytes :=
  unpack
    [0x05740fe832581bf6a0892412acfb9651b451c509831d0000000005dbf2a54718;
     0xce70a65cb6c7e08abd6b24373b33574e16e70d00000000046458a440306108b9;
     0x072bfcb59984fad0ecba5e6c1de4618701000000204faa14e0200020d0290be3;
     0x50f9dd1263c9d915cbe23bfb3b000000010001fa400000001027d50a70000000;
     0x204faa14e05a864ffbccc17d57674ee0db678cc347ec9281ea00000000002ea0;
     0x3010861bc9dfd24ba6a9c25daa883b6443b04b566c030000000000083d871088;
     0xb5db434af0385e24dcf12676a24191f4f062c000000000011f6a03f8a1c62efc;
     0xa1ccaa68b433be7518a42f5245e1d2db0000000004e3b29200a6dd0618146a40;
     0x0ae1b0f96a731dda2c3eb57203000000000319f94b68f8a014c0411bba7e4470;
     0x7d8ce3ecd2f6c78f26d00000000007d1b50006119474e10409fe87014f0f3732;
     0x9942f264d41e43000000000005f5e1001330c9b007dbb2eaae43b07882c23478;
     0x444b0bf100000000003abe203221fe73de48a5728ebca0df7117d65ccebbde5f;
     0x110000000000753afc8028d78f338d97ffb63d471d74403a3bc2651a100a0000;
     0x0000016b7f8cb5293358cc662c49cad9d452b268d415eee8f935b50000000001;
     0xa3f2c77f351a1422e9079b4014366db376967f1d38e0feda0000000014f46b04;
     0x003a0111c0a3bfcba85abb7fc15c70cc76d9c613f80000000000cd3802f258a5;
     0x10bb93bb432f3f20f775ba5d24cd6c2201c300000000012d935e80590ae4d457;
     0xfd6a2d6ff1a02ada5f626ff5750ae0000000000447d1658f617df9944cd4a58c;
     0x214305ad1f84fd83288005ae00000000048e9afbe077db9ca8efcaef7c4ee73d;
     0xf7434e0c9f55aba4c1000000001c025ebfce8291cb3d6dcd6a57e41c9b5a57d3;
     0xe124f4d3e10c000000000c393e6d00863e303e23ed5c7aa5c2a65ab7e62c057f;
     0x781f87000000000826299e00b52a4999e713cdc70258851e5276b69c01dd86f4;
     0x0000000003d8d5eb806533bb559e5327e2b49356e06b19dfeb7372c459010000;
     0x00024d8caec0bc40dcd372a89c9283d3afb8afb3403c5c08b59e000000010001;
     0xfa400000000126c65760000000024d8caec0da88f36168bb3c6b0d67642b9f06;
     0x45d18599e20c0000000002447d58c0db199de0d21cf3f990c1a9b1ceafb315e8;
     0xc73c3a0000000002c41dd8e8e161a406e95ca4c9b2781c56bc8848c3f6a61d93;
     0x00000000006a64f040ffc1fa35dbe497eb815d574df3553c8a0661325b000000;
     0x0001530e8db00e7c86436e4bdcdc0f539ba6c1bdbc5f21bd8a3f000000000068;
     0x4ee1801bce364605cb171636b5ae4accda5d058d267a590000000040091a6458;
     0x203a483d03ed864ec53fc85035229c864f936cdb00000000031c3af6b527d71f;
     0xcaa22ae63b06f555a37240bcf4a96edaa100000000006a0b94a42cb6cc75b288;
     0xba98f5c9362a7ab5fa49a9224638000000000055a310b04684d5f2c67e7391f3;
     0xde1f4d858cd72d1d430e890000000001ff1c1dc046c690af6ffd722e3988109e;
     0x2b8250c52c53b1da0000000002098a67806bdba8f298f9b37773b8c8a4116c3f;
     0xf33f41f92300000000001a13b86073465fdfbe5852c5c2d1dfad9dc2345fa465;
     0xa9450000000001208c438081344309386f7408529103239f0c831068cca53d00;
     0x00000005a4ba811d916244ae40498dcf7d93842865345aa8902e5e7f00000000;
     0x041314cf0096157bdc37238df523356568db3f21a23e64ff5800000000018c5e;
     0xf280ad549ea164476e2ae30eb80bf250c9f1fc68fc3e000000000165a0bc00ea;
     0x98d97a921f95de5713e935dacef968ae52e194000000000ba43b7400f6888305;
     0x12d6827ed36ebeeba186d275dd86c4bc00000000014dc93800122664ac12cc19;
     0x1e67afc9dad13a55a3c301992800000000008725c14f25a35154812e05ecffcf;
     0x43137f97be92f134b6bd0000000001d562f6c03c012e4b4afcb49a29e4ae4a6c;
     0x29135f94b864f500000000013a2d13c04c89eb5fca10b0729151e0f578f51b5c;
     0xb9cc78d20000000045bd673100603f126807abb650b4a061fc39970e599f176e;
     0x0d0000000003a55dbf9c6f1f235ef03f7f1cf32db67a315ffa2347a391090000;
     0x0000004c5a82401cd00cc47737684602ad7d3b653391e7b1581bcc0100000197;
     0x7420dc006fb0f9413145fbadf20146b6194898a62042ae5e000000010003f480;
     0x00000043e8b024ab000001977420dc0074c9f67ea50cab0dc9cd85590b06b98d;
     0x5abf5778000000000067a6a7188270736c17075cd5784c8ceaab260876017277;
     0xc000000000003acc4dbe94e4d8a18f7a8bf2b2a53e841ec1b6624d3fd7f40000;
     0x0000002e618c8296e93db661d6e4d5b3575b61f2be22ad2b53a85d0000000001;
     0xa13b8600c7ec87bbf1ac6d70fd5699adb77fee4883190cd300000000010f337d;
     0x80e91515a9ed2a740d9913af7d13835d29795ec3f7000000000147b05432f2f6;
     0x4a832d172857493f6d7ef22c0913fa8ff0bd000000000502fd6f40077f86f89d;
     0x9afe4fa5add3234b3c4e3b58435a930000000002098a67801522c8d201edf3a4;
     0x9107c0a55ba106a59bf839a3000000000001312d001743b24dcedef3590939ae;
     0x58aef13bba779f756500000000008adf9c4d49c10cf9067748ceb1fa0f811959;
     0x6e44ad4780e00000000000ffbc853d513b17d490262fb91f78b1f48aa16556b3;
     0xdf9cde000000000071d849805d5c11f6e71c2f258036000db4fa4264407e5589;
     0x00000000018a4f23a263975584ca764c5aaaa407e1349380d0b6509d90000000;
     0x0001a13b860074b88e8d49555c9c60697c0975349de7bcd82bbb000000000068;
     0x4ee1807ab7853fa977a4f2c65ed13583f6b16fea4fc86d000000000000989680;
     0x7dc73b7bb818a9c74183ee12b4d3a0c4a4aebaf5000000000c409cc7598126f5;
     0x86279aa5bed7af570a99ad6c43b745f19c000000000046f25398856a672bdd1a;
     0x333811f377f6fc881d465b7bbce60000000001802cc29f87d808a720b0cfcb10;
     0x76aa345908fd1ec169b52300000000041314cf00ddda74a5140a42cb37a1169d;
     0xd348b4077397eb3d0100000011601c20208dbb4c872de72679639392d5482e26;
     0xefe6f4485e000000010001fa4000000008b00e101000000011601c2020900aca;
     0x2847105782d8882fb3f43ea05ade9c64ef000000000015222209a0cf0841bb30;
     0x3ae4754072112a959d72cd7b400a0000000000ee4fb0c0d1d1b34d5b2f2b3362;
     0x68109643113c653642692900000000007c7a7480ec15f7168ab643b673620385;
     0x8bf340cb690a189f00000000012aba8c32eda0d538062601adb8f73f91740871;
     0x32e51f877d0000000001596604ea21e8359101377f4108ae1c82b17aa28f41c0;
     0x44b80000000000342770c0508e08330ed1e7dfbe753d311195bbc70008e54600;
     0x0000000271a9fba0573f6fbe9936a9917c6fae7265723f8222e27c9400000000;
     0x00315b4334637164ca1a9de33fed5b714743946add2dd9262d000000000137bb;
     0x77807efdd0064f4a3bf50df9a67713227e20b38823e30000000005312637b48f;
     0xd1613d58f353f00f01e07acd13819087f0cc950000000006c366d50992887a64;
     0x19696791e8749784fe05568c5e40e1cc000000000061f325ba9b2045abcdf7f8;
     0x3abd506d2033841f283cfdd8460000000001a13b8600bd215bf873d59bd34515;
     0xf13589acd231e88ac19400000000061c9f3680c1a1e88e2cbe3f8555539d26ca;
     0x28f732d242aefa0000000003fe383b80c74ce8379dee30808dfec07c8be5d30f;
     0x388bd97100000000009fdcc4d9c7d610319e587b31d7e8c6580f84162e4ae5dd;
     0x290000000000c62f7940f704df51a09505aa14ab6840bc56c6f2c011f7b20000;
     0x00000067a6a718faf22741f8b74ed648058b2e9b309ecb7aaa5e830000000000;
     0x211d7b910ccaeda01a8e383889bb41613e5262cb89430cbb0000000000d09dc3;
     0x001059c5ece6b2e24d34c663fa9ac3c274be5ea6e4000000000f4fd839801165;
     0x1fb231f2bd049e99fd00c37b4e0efa2e2e6e00000000018ed329ea12e425986d;
     0x5fca768ee9928782a9abe72c8bb73b0000000006aea73f0016dd7a4b71cf8bf1;
     0xb25c872d1e827459e910adc300000000006949128d17b858528b3b2f620906b9;
     0x89e393bdb5cfc3ed250000000000ef70625027261965b9b740c1d7bade614748;
     0xe25c30aa88b60000000001a13b8600c81c8fc0c210c6acedeab6a6d74d44b218;
     0xc2b6d101000000131c84218052b787460800d22744dcab004cf6fa3e6ce1eea1;
     0x000000010001fa40000000098e4210c0000000131c8421805dc7986ef6c46219;
     0xdd739a6b7af13f5b19e3bee10000000003aac5ed806a1f98f5d61271747e8e7f;
     0xc849c94f865ef9825e000000000b90bc5a3d82ea349d70b97645a0261da529f2;
     0x7ad1243c072d000000000342770c0090065d6bbc3ce0d0f4510225e2a5d1b044;
     0x5d4fd3000000000039bafbd6a014c8b966ea695ed1d2f5e47ff50c95ba871953;
     0x0000000001a0dcb9d4a17c4dd00c092a8a2004c5f7518c9acb4643b149000000;
     0x00001941432eab01005cf2e76f6ffe8e55b4f70dd426463b8c9d000000000012;
     0x7a3980d7752a98401c5c189ae0714c9d08fd26ea6be2b300000000003d57dd94;
     0xd975f4df44d4a856deb0384e39591953030c36e2000000001f55523dc4ed2de0;
     0xdd99eb33f84b9d1c8d77924d0e1ee07d480000000000c84ba280f6ab6417dd46;
     0xd9470ccaf1a54e811065049dfe8c00000000003fc6e780fc0ab2982448c4d8e3;
     0x22e63d5e3a773d4e110b0d000000000c393e6d00fc3c5025807fb83e82572b31;
     0xec219691545c906f000000000092abd5ad1fef9247c66bd40c179322d5ad14be;
     0xe131d2ecdc0000000000f601593620d7f8dc95bd8401d14d59907cc01c1cdeb7;
     0x9ff300000000001494dc202dc0962730686692e0a86f5c339d298307ce908800;
     0x0000000826299e004197c2f41e49f8c1f14daee9dc2705ea251005f800000000;
     0x0150e29017634bddde908fe8e811ad363f4f243533f9f46d9400000000025c24;
     0xd91ca3a57f5e415ee1233f6eece184bf7ae720d7c5e400000000007a484b6aab;
     0x79ef99f1fc70a36055e2117e2c087d8f49c4f100000000000bebc200c3635b4e;
     0x2447e294aa387803ff85bd0a9756da030000000000d30ca447e3eab835cb3b8f;
     0x7baf13a7a24c83c639a881c88700000000067f19c8c0e6c088e97dce68d18302;
     0x59283111e010c243f11f000000000bad2c4580fb463f8e84f7abcc66d0e73082;
     0xbeae440f48a736000000000238414d97060c290288450d7d195688cfc1d5b9e0;
     0x1b1052670000000000f0be369914059a855f43070321053fef753df4d6d9e0de;
     0xca0000000000684ee18025900207bfaa657ec95a88ab7374d1cdbf3a1e5e0000;
     0x0000462074568b30d148ddd97cee63f0f7b287fba57bada33c481a0000000000;
     0x11e1a30033678b8de1b5899b816d06775798044befeaf089000000000187b42f;
     0x203b879a4a9566c44a5c450a7b03fcff38f21a2e9200000000059649f4cc49dc;
     0x2b60c3ab52c2730dc9462ee9a0fd9e446efe00000000030beb14f54ad9a924d2;
     0x5b4f8b872bacc145c88caeb25133e800000000008f0d18004d4d450f5fd6ec65;
     0x16b5b2297b42dd1a22a9f20b000000000163d6f8806a254fbfb5c5a1263f8f80;
     0xa68688953ba6f28c630000000000483e5c766a325f9ec8a2d7e506896019a53f;
     0x918715b15ee8000000000a7a35820075cbab0e9e6e4633c7dc3f5da9735de2fb;
     0x670f310000000001caeb96c7880ea341bd788c56cb7b41586cd7c64b07e5eb49;
     0x0000000000b57f0340a8819828241b4013e6673080de8d85ed3f426b46000000;
     0x000136906500abacf682e6047c7d6322a9ec6e14e774e2b4c1900000000000ab;
     0x10b980ad89fce19b294eb1098beca9fbef757f59c3fd870000000001646f8f00;
     0xe094f561faf744eff949370ec84696968dc6a9d6000000000001312d00d0f0e9;
     0x76f65db8c3a929be04975144e071b7c83a0100000a680eff7820ee097e8e28cd;
     0x348632655204480986ab2db95db2000000010001fa4000000534077fbc100000;
     0x0a680eff78203317554a8eaa82ea4e1038601c39aa2b2ba24de600000000005e;
     0x0a29ce3d87785fc440fd50ea63f5bbf92099f0608f9878000000000200294dfd;
     0x40ef10fadc1ea3e58095e22908a2323667c6fffe000000000133deb280d8ea82;
     0xac1f8c63395069511e4ede1b264868f5e40100000056e089936042eb86b8e608;
     0x37407119c32d0c3cbff56c31590d000000010001fa400000002b7044c9b00000;
     0x0056e08993606a3bffe260edfed0e8ce942dd50866a6e0cd0ba3000000000125;
     0xc90ba06d1a5452aca4820a817f1a491e661c290ceaca4c000000000045de5a40;
     0x92d619680ba162e224f61a4172f8c15f4a7ad57d00000000061b0eab709ec9f0;
     0x8e2eb1a882e32f5622ae2ad0b4093db23f0000000001babff6b0a0bc9f4fc065;
     0x0dcca786021b045be2a3661edbe0000000000c1467fa73a6f46adf12649bc9f1;
     0x9b63d0cd87746428e2750f0000000000023056e8c1d7463a55837d93ce192a83;
     0x5d5eb1db7ab784cc0000000002540be400c2248af122b76deb57c5832344fe4e;
     0xa79080e1c50000000009acdbe86bd30aa388dbba79b79b7f67d0187adb47be65;
     0x3880000000000560457080d65011ca76553ccab08fed3d1d311d69213e7d2200;
     0x0000006beb1dc508ea541645449952338257133c6faf62fdd16b8ca100000000;
     0x0110b44ab60c4de994d1d5db1fcbcb6cede802023b24c6f25f000000000395e9;
     0x5a002059262cc1a5fba3e4f4be85ebf7b8bcaa2d880100000000005f5e100021;
     0x615c1a1f27bc3d194f35412b961544b70101c900000000019f24823d6b244553;
     0x6fb5df48c86016448f7a6998b2cf6e2200000000012e7e5ac06f4e4cd6075f06;
     0x14b38048b423c2b988a0f051de000000000138eca480998dc7e21bbc40d4719d;
     0x9411d6d9ef4777fcff1300000000027c975f58da5315a50def11b5ae54cef46d;
     0x9c124c571b3a5500000000003d278480e07bb817040fe712689af2c9f1958df0;
     0x966462c200000000037e11d600eb0d5ae8339739aaf6cf764f0ca1fb9b4473f4;
     0x110000000000c5c7b724fab858a2e3b568e7b9ceabf8c401a501cd2924a00000;
     0x0000000bfe3e1c1f9a762b8717eec2a5a76f6d8764c8b3bb6f0f340000000000;
     0x0fa56ea0328e0b834be388c7070ec8ea106f844413c4d75d00000000187aa4d7;
     0x66cbf350f2ee1d06ed710ab527d870e6081f075a2c010000000409f4b0205d02;
     0x86d9c3cbc8cecb90f09feba76cd4bb93cb8a000000010001fa400000000204fa;
     0x58100000000409f4b020806f1c465dccc9b672edd4e6d7052d11bfeeae640000;
     0x00000057bec2e68c7ed38dfbaab8366a092e339bec61977aa0dc350000000000;
     0x6674350ea767a9c973ab1ba914fac41a2e434f33deab5e1f0000000037f17dba;
     0x30af96d946f3eb836866c95f28ea3521e26fd3fb8500000000006ce92f37c313;
     0x5c86645ac965c93d3d1e1a9f0c1ec586a150000000000794219580de71cfc348;
     0x7a21890857499d6ce66bfac420e645000000000ba7366480efb2e6dfa864b8f3;
     0x36a3d4609672385535d8c26000000000013e49ef0000878b8ccc0fa3eee7fe2a;
     0x38f5c073912f432e5200000000028b0b363d483edf51a60f8ece9e358c143150;
     0xf3cce5e162af01000000114f91cfc00578229584b791b31bb070f47303a8332e;
     0x12a584000000010001fa4000000008a7c8e7e0000000114f91cfc02e9727f7d4;
     0xd70fdd45a6a046082f07ec4165c4ac00000000006f319bc8331e79690bf28c46;
     0xe39eb5a5ba093e9a79ae47de000000000160fdbb034a96572eb401098379e114;
     0x6c7483e1f8035f58d5000000001080880cdb4c2c75a3afb9674337f0faf5293d;
     0xf6b960822e7d00000000022300f5804df5287455f5c039a1dc0ed915f6b8a824;
     0xb1a7160000000000a7f12a004ed51a7b934f15910c2299d4b9aa260b3484710a;
     0x0000000000d0052c80512bab2b37bbfb95f8b33b98ef47c78e66064d63000000;
     0x0006d1334a326331111ff15dbf53b7b9f5cd73fd0c8f045ea021000000000000;
     0x989680731f08d1d137c7f273c0f8889a9f2263e20ade5d000000001c087f4f48;
     0xa0bc8224acdea4de97a8f172460298606e643ab40000000008bc023680af6760;
     0xddac22c7ece780f186d4fca65d6d0e8bde000000000017d78400cac546fbaad0;
     0xbfe34451aefb4eed69c1939c5701000000000137b6946ce50945886192af8dea;
     0x8720632798e4e505f9ecb800000000002d346134f730dedea7d927a1e5fbe7eb;
     0x7e3c56bd3ad3e04100000000013396a454fed34126d7c0ab4970100a5ba12ab7;
     0x77998c39b90000000001a423d36a0183f0aeaaf1418c59d03f80efee627c1b63;
     0xfe2400000000003348a9800579d97312e23d2c406fdd63b5664645c2be24b100;
     0x00000000255a69470eb57ffd9c9da44ea41e383a3072d2aa4c6b2f1100000001;
     0xd33b9ef3801a0278f6a02f67cc34b4d141bd10dcb83e03606600000000006685;
     0x1e0030a095cf88135f25d8cc94bade280f8b1927bf730000000000684ee18037;
     0xbc4a50b135b5409ee203c53a4993da086543960000000018053f4e503e413480;
     0xbe11647add7fccf86dde36431f8ae00e000000000479ef2a0b40d061215b0c3a;
     0x409d059dce0248cc265e44983000000000004229b5df6183d929c38ff445149a;
     0xf60c2d769dbd75fe3cdf000000001063edb70062f891ec3bd0edb5a3b691b489;
     0x936681833494ef0000000004a817c80084dfd47308fbcbde436ea9e5ddf0dbc2;
     0x72fff07a00000000005d436d60acfd06e1be0a98cf35df43278c2764d2c8dac0;
     0x6a000000000002faf080d2af75102b57973c3d0487085dcfca0700b443b80000;
     0x000000d09dc30033dd5720e8d2af3a608d08e53ab7a3bee7e7119c0000000000;
     0xac79beca35df441284651da796c5c66015020f6b3d991fd400000000005c44e2;
     0xf82a2d8ed8eb934bd974f07823dfb76c040294ab890100000011601c20203b11;
     0x1ac481d99d66c14c82499d41555364a8792b000000010001fa4000000008b00e;
     0x101000000011601c20206120581e8a53dfe4d1547671d21c2ca5e5fdc7370000;
     0x000007558bdb007267dbb3a22829727f0997f0d6649651847c5377000000002e;
     0x96c8d3c1835514b8b1b59b96077b3707bb4cc058109179180000000007fa183d;
     0x81b98b8ceceafa4b6f91093b0d777f2e0015ffff34000000000002e40d20cc59;
     0x5ff867911ef846aa7f02009c1ac4d053c8a90000000000684ee180d3b1083836;
     0x1a89c26d752c5c9b5ebc9a1d5d2fba0000000002098a6780d46daf32595154e0;
     0x5042b82a0df1984b054e3421000000000035327820d9917d0857a3c4780c019f;
     0xf59e1d43fe94db88f2000000007832e5da800da58d29d47509b40fa5475ec0dd;
     0xb3449019e75300000000006669a05626f284893563564ccdc0de3eaae6b8f111;
     0xb67c4f0000000000ce1ff1c0374041f94052ea0b25e35a68e756558a05293678;
     0x000000000ba43b740046906208eba3a0d49d071ef1ee3b254edea5f367000000;
     0x000061a121467500f4950f1523f3831f7ea041c3798d454ccce4000000001911;
     0xc44da0b0a17cb0826e5324c150b73318e3a41e6e216f680000000000240a4835;
     0xbb5e954f03189d366462374a9f1b7e0a7991cfe1000000000906880545e25921;
     0xc92ce6eb5cb729893eb63b6383bab0959a0000000000938580c0fdcd26b48b56;
     0x0cdcd71c84c2ff636865ccecdeea000000000241ef913bffa3195e28fa2794ab;
     0x1aa4fec66607a75ce34d7b00000000000098968015902ea7ec41a980b54a1564;
     0x76f27caee9a33d240000000000331c69601edd3d7fe2ddbb393b74df370b01bc;
     0xfeb0a527bd0000000000409ac5c8243ead400b67c54a36d61e0b622820989079;
     0x79e20000000000009896803cb0e8990f82611929bc474497ca5bacf5c330e800;
     0x000000052ac86f4c804e289205a99573af5efdcbfc678cd20f9dad0b00000000;
     0x000fa56ea097e25f90670f2ca2098b1dcc0b415a0c33c56a68000000000023c3;
     0x4600d86abfe87de20af5abe0959153cf9c4ea3fa3e02000000000067aea9e0d9;
     0xf3715c07675d1b032496c889c55f6dbdf82e5c0000000013d8ccd799dca237a8;
     0x38af7b967f5ba9797639fce518195bd70000000000787a1e83f3af000d6330fd;
     0x209b407138b04458b97dd717a30000000001e495f480024fce32306c34bc7f8e;
     0x1a92d10b9c2a52460b290000000000c8081d5808133670dbb403f2a07de2c39c;
     0x63f9539d49f1fd000000000037cecde020000064eb22f7560ce97243d7026e88;
     0x8eb3b82c00000000012a05f2001f70b02594d0f185a5ed199aba483ecda67057;
     0x180100000008d419d0c09d514b9f50e55ebb4754257a46a2a2e517a24b4f0000;
     0x00010001fa40000000046a0ce86000000008d419d0c0a5ef4173b7a61c46decf;
     0x34c2eb29ceb18cbbe883000000000072bd2b40a68a0ad2b120eead72d2951bc3;
     0xdeed5737d692e00000000000ddbab200bcf8276dd67f1ad3e042d547c36ee6a0;
     0xf4ced0430000000000152caf50d3db24e4edef0292b1a8c83059578bedadcd93;
     0xf400000000041314cf00d704e71d1608594547062006dec5027d57fb27000000;
     0x0000042108997ee471b22c259b35e15a8fc062239bdd9a14452c480000000000;
     0xec5b17b4e7f3d74077fcfd9e064414bafdae3a97a3708a9100000000014c4bbf;
     0xc00206200f31d124c7c13ed193c128c9f75fe920a8000000000138eca4800c1f;
     0x43096f66524caf3c35dd23d1e6c06e6e106b0000000002e7323f9412440a4c59;
     0xd0e43571d4093082c49f2b2016708d0000000000684ee180198b7f5e9328fbe4;
     0xfaebb1a60e5795f456834e4200000000010a3ed5631c14ba1b70cf161527e707;
     0x92f55f1f7137b66b1f0000000040c8fe0e80407d2944194f854556b8be8a4c17;
     0x0c31e905248400000000009c7652404fe4b5dcc781dc0dfcbc87d4854ab7bb9d;
     0xed6aa5000000003b93ad4f8b53085ae0b8a590a2c1c1a2acd9f52c91a1367d2f;
     0x000000000140f7037964a138cddb694e0c0d9f8a044827df5bb0407e30000000;
     0x0003207d898065e312a47ed681546beb671acbd9b303fd4fac86000000000071;
     0xcb66ab66dfada22175252ad3676ce639d1de8fa4c998d40000000000684ee180;
     0x2c8d0cc9b89fac868125b753edd0e844027d582c010000000813eae6e072a632;
     0x4656c525a30566d538db0d5837a8b9162f000000010001fa400000000409f573;
     0x700000000813eae6e0929dc82035d237ec91b1d4c22bcad2fc4d98d1a9000000;
     0x00023567a776aa507876f9b01dd7c16f7dbd14c7f7a7142878ce000000000039;
     0x5e95a00afc50e939a490dd52fc82c2d82eec38c50dcce0010000008bb2c97000;
     0xdec25d024207468384659c8e9353e72cefc2d18a000000010001fa4000000045;
     0xd964b8000000008bb2c97000eeaabab66c4d980a47b08417ce77864af62830a3;
     0x0000000002098a6780f43404ff8e8acee74ae76b2d06f05bd047425c5d000000;
     0x00005c631f80f5f6729f5526669000e1767bcce1d91f2c215f300000000002c5;
     0x23eac008aa05fb751344b6efe0cf247dbb1f431d3dac1c00000000003e95ba80;
     0x1e2e2f4c41196324df3e3724503288c3d84a2e7c00000000746a5288002ae019;
     0xa9de4a31bb5852707d5571b5e88183c549000000000c3c1046582e9b9277c52f;
     0x5e646c1965b69714ee394386f54400000000009babc17442365c257d876ed295;
     0xf47613dc9cdb95012c51dd00000000003b46dda079b461441586fb9812d404ec;
     0xc15b4e78b79abe1f0000000003d152a24b7f3396d8f26fff6cf911cb8287e349;
     0x6b778befa3000000000094ca3bbab0e4b70fe24655f96eeb08450a078ad9f1be;
     0x58ed0000000003b23e02ffb66d7b506de4584c3ae167912aee3d52c5b473fc00;
     0x0000000049f51b00c15c07e7f552c7e8e173b26583353f1180f365f600000000;
     0x0132aa7840d12ac6a1637219cb61caf4adbaace5ac09c3a4790000000000684e;
     0xe180d13d637e44b6a6a168d4c81483decba243ceaf1c0000000004a817c800d1;
     0x9e5f6c829ee914449c716e40c685c9b1861ae800000000000f8abab0e79c5b9f;
     0x582406f04be282e899e204d44fcce0c60000000000684ee180ff22ee28a051b9;
     0xd4d82a071a3ab5c1f932cd9332000000002795c6cd4105de50edd590386acfd4;
     0x4d5020e7edde99e74d860000000001a560a3cd06201c908d79fa8362da5d04b7;
     0xe15f1a5a087294000000000138eca4800adfd27c955d2d90534dff62afbb4350;
     0xc3f44eda00000000000f49552421f3c2c08d867f8fd33f6b62cd63b6dd9ac5cf;
     0xee000000000092dda800578da5b3a84b86f7eecd0653e5f63607c019b5fa0000;
     0x000002550315407fe80075bc2dfccad7f54ed8370dcf84a1bf14180000000004;
     0x92d96eb49b55f5b8a72830707a02245b6053da607bd90b8c0000000000009896;
     0x809e039ad01be1ae635c72622656f7b8bcd82099e50000000065dd083700a953;
     0xcc697390c432fce69eaa61e33371b5a959e600000001e978223a49ac6384a7db;
     0x76ee9c64646f608b79ac6632246d7400000000012e7e5ac0b72933f1219edc75;
     0x6ceaf14214ab53eee9e8437e0000000002c777c57bc2bfb727dbaab1d0fc9cfb;
     0x2e8746ac75b8407f7c00000000098cfb8700c54aead3b5ac1ee205da256b4180;
     0x4437f780240e00000000104c533c00d4f54b013a99dc08cce6d2ad642d35787a;
     0x5e42b90000000000d2aa7256f25181e3cf31bd219b876791fc32fd1820e5cad8;
     0x00000000039c2e9380f4b7ae4c803dc4c07bbc6c7e92d5178bf962c0d8000000;
     0x00001a13b8608fb40d2c76196f7056d025b5fff22c088684a94a010000001160;
     0x1c2020f56ef02848b5acf1f9435bc9224e897d1287d49b000000010001fa4000;
     0x000008b00e101000000011601c20200888205e9b7c7896dcdebc38bc7e416575;
     0xf1f2bc00000000009c7652400f80a4c14e53cdaba4cd79c36a09017db7afc8ba;
     0x0000000000026cf897108318c309eb6dcbf4fa85346773d6434125ada9000000;
     0x000109210e0415c93b19eac52bfa04d880d4cb82236669db52ef0000000000a4;
     0x75836ec23e5784493f7e4ad25219e70c6e4487acbd870101000000b67121fa20;
     0x385db37a526758a272367d61da486e1654b9d96e000000010001fa400000005b;
     0x3890fd10000000b67121fa203d4126a68d86ff53e5908d021a22c53f98c21fd5;
     0x000000000012c684c048ca3981e7c52f2b9353fe1163835cdafe5f2f12000000;
     0x0001a5de84664b70ee64b74ce6cf713eaf8e116551670be3e6fa000000000065;
     0xf2a2007bce146f173dd3a1e84276d625b761771776ee5b0000000000303c0a38;
     0xa04e55a4003799e435d47bfeaa3b3e6a6a57a34a0000000017129c9720a31307;
     0x4bc7a5aa43571b21457bd6d0129d7836f70000000080466eb366a56345b03cb4;
     0xc860c192ba3de1fa8e564ec851e000000000007cc344b1bc06b9b063ab4c4cbd;
     0x4171892a7669a705b2439c000000000000989680bd4f6ff16b646c12fc8416ae;
     0xdafd4b28a50de65800000000006423c21fd1616892ad69598fccfa137b2e9847;
     0xbd56339a6e00000000000e5f510d17bf663e7be6b8c2c7d11f58b7426b191eca;
     0x51380000000001a13b8600196d0c9509fb3eb33cf53ee586c980dfb93929f500;
     0x000000041314cf00254a86aeb1ee830e2abe881465e9b44aaa0616f900000000;
     0x035cbf44ce8cd4c585181ab611f9438c4add7c1d762bca0cbc0100000022ecb2;
     0x5c00704110f7d20a90dd98956ecda84e4d06c5052f52000000010001fa400000;
     0x001176592e0000000022ecb25c009bc99e7fb114995d61dd9702d65a0a0604ef;
     0x4cc0000000000005b8d800a71736c46bdc35b7f34ca110b7a0c5bc7462db5900;
     0x0000000342770c00a89a1f99ab8632b5f3c4929b4cd6e134e5ed122700000000;
     0x0489a31acacff0c157fd95f40e4f55fc3379164ba89fb7035800000000044cbd;
     0x9643d2313b856afee465ea334d4d93a017d42bbcdd39000000000300017f40eb;
     0x57b5ddb4f6b4b26dc904eb4774fb54c103c504000000000001312d00f6b1e28e;
     0x72ff3c2a1835de63a3f39d0fd0f0239d00000000001dcd6500ffe7a40e607513;
     0xcf318aeffd3929d3584effb76e0000000012a05f20000d059cbe94d95bba01a2;
     0x40d52d546b34373322750000000000684ee1802380f00a6dea9c4ed3025b2285;
     0xe5782946da654c000000000039643b582f0532e3fa811efa3b932a2ddaedbd70;
     0xe93e09f700000000004d0f8b8135d6db768f973293286e6fb5fbe33eb39ad3ac;
     0xee0000000000f88ebdd9438688bfbf72e0536235387049be3d61699963a10000;
     0x0000060ee3f3e9450caf899165000b760875a732931e87219b213b0000000000;
     0x0a6e49c04e4b7ed9436ab4e87f74bc99c5fd286c093900030000000001dc4ec1;
     0x5c6d8726e3368647bab6c277fcabe54ce6372247f9000000000019744d95a2b6;
     0xb0994a6384acef8c3806679c07e12b37a8ba000000000022e2f820b966aeabb1;
     0xaa99ff56161aa3b2e81c55f08087310000000000d09dc300d3153651f0aa24bf;
     0x3fc93f366ce0f51aeaa0a4e6000000000138eca480fe491d75413226b1884198;
     0x9bd4b54fed1b9532b7000000004c2b7a059d0266e4eefdf592d3c703d6fe6263;
     0x9f783b59cc77000000000038538e407b66d98d269f9a167a40d597b3f60dafaa;
     0x6211e0000000000000da33607dcb9c7ac3f4f91aac4fca50297cc7bbcf3bb178;
     0x0000000000684ee18082c11bc006f83e417069a8a82f46b8a5e5c5cd7d000000;
     0x004847a1208e890a14203886c9a2017c8c8f5383948c5df1fe8c000000000622;
     0x690834c867ae9238f36c61a8928b28a2d4cf85ea1febdd0000000001a13b8600;
     0xcde48045e827e444e37c6e94c77ab99a09c79f0700000000018f7504adcffd98;
     0xc68dbb67ddaf1df3e93cd2348e265925f9000000000068d46530ece15f774b59;
     0xdb1067a7630d83bd6d2b6609139600000000009c76524002f28d4aa38fb43c48;
     0x9f6079f9661b2c82814a41000000000826550342fc0a421b7e7461868b22ea3c;
     0xa97904e3e00d02ac0100002632e314a00007a0a5559ef7c4919641aac3fae26e;
     0xde383cee84000000010003f480000001e8f1c1080000002632e314a000159401;
     0xf18a8729fb1cb8f9b109d3a1f97bd7a4990000000000350c528054dfad16a2ce;
     0xb22a494f753633ca3ec9aee683aa00000000001a13b8605db5c1b9eb21f1af8f;
     0x911bf2fd80965358d41bbd000000000001677f40840db01c3b1561eb83a88cdf;
     0x544a4fa9e238330e000000000138eca4809a7427f9dd3714af7146795523a522;
     0xf2f0682b4a000000001b5890c680afcd31375b9c4cff3c6a8aef3172eba8d1ad;
     0x0a0c0000000001624d0be3b5343ff3950a9b2cdf71ae320966fe6010d1bde000;
     0x00000002a0a39ab3c4b9a0eca608ac94e1c681fe33b1063559873e5000000000;
     0x0092080880c93f54a50dc362e9e1e65735bf200865c4a24bef0000000000764e;
     0x8bf0fe5daaf033e7439c816abcb09a7ad5387ed3697500000000000098968001;
     0x3f95a9c8de2d980a7c27273ecf83c3628bb2bb0000000002c6c8640a286fb401;
     0x991353df9184a42d3123cca9e1082b9b0000000000964480147b52da3e6a002a;
     0xf710a52948a2f8090a210e4c1a0000000028bd9ee9008beb924711175ff4e812;
     0xa6fc21e08fec6f2284e100000000000fa56ea0940620e9dac29a26a0b843cbaf;
     0x2ade43ab06e1750000000001a13b86009d4b212a654d3a7f5291ae8e01e047ed;
     0xe642357b000000002213dcc159bb9445bbe97b4c60987aad3bea347bc1cc663d;
     0x4b0000000000165a0bc0bee8fa6877d6638c691ba16a38321553264149ae0000;
     0x000006ba930100c3905a80c859b51efac6439c6048e94f3020513f0000000000;
     0xb2d05e00ce75245780eaec0b3d6ea1c145fbd4fcf708e7db0000000009c66dd6;
     0xca7c4c7c0627b571189a6e1ba050458b602b23e8310100000056e0899360d0cc;
     0x527617d8ff3f08ae73f81156ad2e3d192b46000000010001fa400000002b7044;
     0xc9b000000056e0899360d31897834f2ccb5af3bd94e39e52bb6523b45cec0000;
     0x00000277502b70da370d9816d9a5d358e6aa77df985cfab7cccd580000000001;
     0xd241dcb8e2af5553dc914bdfef533e7b1890c4187ffbb28800000000a74a5990;
     0x907d98a26ee76726f93445c657d73025024d8cb7b601000000d862a64600e825;
     0xb2ce65d619840c128ff93977f15fedc3acab000000010001fa400000006c3153;
     0x2300000000d862a646002dc3149d643d730b0ecce459eb878fc82759d0ee0000;
     0x0000016b2464f0713000d910ad605e82d0d8c263b98f75f41073c10000000007;
     0x68aa408e75196974b63dd274ab64476a85e465edd283a3290000000000441b34;
     0xcea3c29055e40ae34cbef5231155438bb7dd2acf460000000003bea12b79d658;
     0xa417d3a4d5f6114d97232af397806845ddd5000000000005f6a93fd991f9cb08;
     0x39880d8765ae9c41f201563247629a000000000b718c1b70de50fce33fd70b61;
     0x90a9665d55c816b2b8c48ad400000000135aef2280def1156d13ca07d7a425fe;
     0x689209b01268b6dfa60000000000edc6cadae454e14be0615b9b2ab363ee1dbf;
     0x4ad900962cc500000000006632d82f083dd65ca09a6f69a59edc2bc98d39ea6d;
     0x621b760000000000b0fd72c00faac9477e2212aef6d7aae60acbe86b65bb48c6;
     0x00000000029a61430011500cdd6852a3383fb0f662e4847a451394da3e000000;
     0x0001c0fa2d2b14ecc0a99bb0aff6f1224a63ad199ccbd5808ea20000000010c9;
     0xd62b0e170bcfb28129070aef990ca310701e5d8342f5db000000000000a65220;
     0x17ddfe44258811c1127f33fb816c20423805907d000000004823a168871dc58d;
     0x42c3dd6e5ada8081269313d8d9dbdc6f630000000000684ee180223d77096648;
     0x495f1a4e67f00ea66b2d2a9ea7f10000000000331c69600ee9941e12d11ece73;
     0x261b697f34a280d2caefd40100000008a7c8e7e031d7bf18aca15fd8e6fa7479;
     0xaf53e431dfa61f1e000000010001fa400000000453e473f000000008a7c8e7e0;
     0x346157f3a222942e7b09ca18b1191e4da94f098d00000000001130edfc34d444;
     0x3b39a9f00c2ed3bff9aaa0213d82943b7e00000000009502f9005aa18817b475;
     0x0fa8299f5ebee6b8b6d9e3eb055000000000041314cf006ec800e88237658d56;
     0x39404c93b5d3316c26291b0000000002741da23472a92d503f26eca1e240a6fb;
     0xba223d9f2a2969930000000000684ee1808728658cffe7d4852ea0faad1bfab6;
     0x2bbcfddae00000000022b02fdd98dcef2bf6efb1086b63f885568739e8defdca;
     0x2ea401000001977420dc00979cf70f87ec2c8070d5cb12e05f2b6a466b713c00;
     0x0000010003f48000000043e8b024ab000001977420dc00a70ce250ffc665dabb;
     0x7af23135735daad035963200000000003fc6e780b87a2f59acf79a98fcc343c2;
     0xcef20fa0c65f308900000000000eec0d58de38a3eea80b54d1d5f59b0a46713c;
     0xb16e4125a6000000000138eca480de88a956b82dbb81e0aa211277da4645c963;
     0xf6d800000000003ba57860df185a330a7831ccb1d7ffbf7558b5b36f5711b900;
     0x0000000000989680df431199346e0ac672a2b46e5c3264e47853994100000000;
     0x03aac5ed803cd841c3e82cb6c9853e2711b9343f8a0d1d77300100000056e089;
     0x9360f9416d7eff1cb4b3f2e4d85e6c829ff211e65b20000000010001fa400000;
     0x002b7044c9b000000056e0899360001f087970f34a44d007e6cceb6861170831;
     0x22a00000000013858255d001622a6339b877221e9f2489073ffd0abecd014400;
     0x0000003a35c1da800e38d2c5857e95d649d5988eb6b4e56a7afcf9ef00000000;
     0x14f765f48010b6b2fee6983c03e978885c65e85ad7f40d03cb00000000003f2e;
     0x5100847816309ccc320bcd7eca1ba4905a70d3b7f139010000000386abade013;
     0x56cd0e7ab342e4655fc2f5c0bae98caa7a5059000000010001fa4000000001c3;
     0x55d6f00000000386abade01e34291d3748a0e7c0e8adf69700ad21b388efa800;
     0x000000021e66fb002b60ed8e3680a7104de2de65cf51d950add0645100000000;
     0x008067a4b92f3df7edaf6f7f6d460ddcacbabe67b22d50f8dd00000000000399;
     0xa180329b5fd41c2360c5aa946e31672beb41f061e720000000000465e970e738;
     0x139d55f67e018bbc36d5d165cdb32f444bf75d0000000043f0564aa14018afae;
     0x05097ea4e5dca59cf7e6c8cb230aa9410000000000684ee180406d8beaa65ab1;
     0x1a6e7e86625af4ffa9aced67ec0000000004392eed1f4ac6a3e99cf3dfe1024a;
     0x84cde15e12b93416d8340000000018feeefb2451bf7b66dd6e1995b7a7b33956;
     0xa8632edc50ea63000000000c43ee53a06746b57c3a8ca12ccdba8e259a55d9a7;
     0xc24d57520000000000e244490c933d903592fd10ddf6301d8a8a2b14fbfe6aa5;
     0xb40000000001012f6a42a25e2f49e8e10f5c88b89211fe0b1782f1639b950000;
     0x00000074d33a00b17fced74e9601d1a8daa4eedeaf1389bb85a9b20000000008;
     0x26299e00bd1f4fc66b136d65f173f52e9026ebb2bbebb0700000000000039018;
     0x18d9a69e1efbc417661615ea974ef0788603eba9880000000010476228d3f1c5;
     0x8f34ef4196cce8b89d50ce414b4b41264bd90000000006c0c859e612ed2a1413;
     0x5fb661a2f41ca6183cfa9c3124709900000000073bdfe52016491a68e6f551b0;
     0x880254d97389bfd11bef47820000000000368fe54058ec262aa46114f568ccd3;
     0x408b86e6d48c96c74a0100000161402ac4001b46ba2eec6f025328cb873b7bce;
     0x417be9863d24000000010001fa40000000b0a015620000000161402ac4002c44;
     0x66840ec7f4d58cf3a415f4fed9bbb8a9a106000000000213f8b140924d35e70e;
     0xa45104a6e1c34652598a6ee6995c730100000022ecb25c002cfe57a93f73e4e5;
     0x53dc279fd0f27a2a100d8344000000010001fa400000001176592e0000000022;
     0xecb25c002d68d2222674465d878da263697706e3044ad0440000000000d09dc3;
     0x002dd1668ca884f664a0394ac9eb09df0e523c6f470000000000684ee1806940;
     0xeec028494f91f8668b88d361d3b9c79f0bf9000000000642b2870070633dbc43;
     0x07d6bb5eac4387bfb4e4c570a5536b0000000006b4583087727c4b22d6e3fe0b;
     0x511ca1c3f117eccb7c242ee000000000033d1fdc0075315638cede9685110819;
     0x4ea1882abaf1ca22f90000000016c640884c8705adfa13a9c778e157e7bd05ce;
     0x5a174c763b080000000006c088e2008748bde53f8055d4945b1cdb64236ce07f;
     0x8a3771000000000037167b379293e6a7b2bae4ba30fad625d8f898b28fbfd7dd;
     0x00000000311ffbe780bd0bb06fb07da2348b2cedd1c39371e234f45701000000;
     0x00002ac42e60c632711656289a284af5eeb933200026f74062ae0000000005a2;
     0x4a8830c7370da707b4e592daacd346a0e8ffe34d5cd9e40000000018ed496dc6;
     0xd18e5c165ecba2015a3c994ad250dd2a7202ffca00000000009c765240d9081e;
     0xfcea6917e0b329d6d6a9ce6e9a526195e600000000009fd3ed18e8d6ab384f99;
     0x61ff491423f1e579df97abdf4bf1000000000081579280f8dad0c3d8d2b39a98;
     0x8aa1e848a3c3c61c29029f000000000067a6a718108fea23877902557e58fbf9;
     0x957d76fa503bc5790000000001a13b860017f6bcdf204112e55c5f01da587cd8;
     0xdec1ced8460000000000d7687895259e09a55b559d75640dc0e58ea2ed98564f;
     0x137e00000000002887fa002bba64ba76522b8c4dd97b679348b66d1c4639e900;
     0x00000011aa9118b645dd693b111a460bab898656309aaff06b40392a00000000;
     0x004644f26d7ac24f4081996d1acefb85558a8575006622887600000000000098;
     0x96807e0ee586ac467c4662e50b6c389ab7fae93c20bd0000000003565bbb357f;
     0x6df1d62d759fc2687a6cd3e03e6d4085ec3c0600000000002a51bd809404aec1;
     0x6c18ba58f9b4f5851f339dee6442311b00000000000d180d1ba713cb338d3880;
     0xfd4b75dea2e88ea0dae1bbf1260000000001ab63cbb5b777151e4036e7798273;
     0xe4786e0cc498472e546800000000018c5ef280d94d054752507aacb263379eaf;
     0x23773d44e1cd050000000000e6ab83800ab8c3a208e26cfb93c3f178c94aa219;
     0xc373a75b0000000001794c22802aa53760874517110328c63fb7487dd22cbe6d;
     0xc90000000016d8a8c8ee3b3cc3b665e3259b4d9bcbbf51a20d9f4d03d45a0000;
     0x00000162a5cb80453d445923b730e44dc7228f98dd00af7d7b2f390000000000;
     0x9c7652406fb1db3b5d0f6fe0ac888659e7d05af26845b3f900000000010df30e;
     0x408f3ff4980426984155741cb5c25ac01e893fef620000000000173eed80aa69;
     0x1fd6c697276e10efb282f4830407e7f190ca0000000000684ee180ab21a8cf03;
     0xd321a0f4f1bef0470967a9587a973f000000000208715c7306d1ca4a5f77ecbd;
     0xdedbf16f508fa822e2c6760601000000d862a64600b5eb86935b0e0cbac95122;
     0x4a75475ad4a11eb037000000010001fa400000006c31532300000000d862a646;
     0x00bfb5e46a02425f896373ebc922b4ab30d258c4bb000000004a21675500f814;
     0x3c4e03c1eaaf2fc23041c8f52ba94533342a00000000009bce17d8fba78dd0f8;
     0xb1333f38d6d6542077eb5073b5682600000000001696e480feb6c82fa567c9d2;
     0xa0d81ec6391763649ec3da5300000000001ec5599007a29f1d5d97483426c6c4;
     0x00d2a18c2ac8522719000000000417c6198607a445d1ac98eac96b773482edff;
     0x1ad587e95ca10000000001a13b860015f60cf6e4205611409d6e65c0c25bf9bf;
     0xc08a100000000002098a678026cbf0b2f924f7275d0d58d07600fc3da3fcc610;
     0x0000000006317bca0044a16f540e1f3e101986c98f8431240e01f9afcc000000;
     0x0005e9810b9c46c29cbd8155b46ca79a869f7d3d739bc90e6fa700000000015a;
     0xa16e619702351b41c15d4060cceddaf877fe2080efabaa0100000022ecb25c00;
     0x9d40323be257b11eb307c937cbddaaee6ae781d2000000010001fa4000000011;
     0x76592e0000000022ecb25c009f9ce0c0376dfc35872ca917daad59f11d8dea5b;
     0x00000000000bb65a20b0a507232c8ed1d438d96d114516203c75a88d17000000;
     0x00006959e8e0b39103b390218df91266267c1864cba9febdb5a20000000003fd;
     0xa5a8c4bebbcef97959c9c041d4bbab2afc4e56d1161adf00000000041314cf00;
     0xca335a31e6099c0d0fc0085c1ea2535f81dc0d120000000003c905c360ce30bf;
     0x2775c5273aef5eb94fb2ed183c33b332b0000000000ba43b7400accd19182803;
     0x2c229d4af43936a814a0daa3a7dd01000000114f9af780d47bb196dab26a9c80;
     0x1d0330e6810f1c763e732e000000010001fa4000000008a7cd7bc0000000114f;
     0x9af780e02fb22e6a718f88e4de0852a4a6da6ae2d8c1470000000002098a6780;
     0xe5f34a8e5ac2b1cd80c3556e532426935134460000000000006638d2c0149eac;
     0x5eac9530a3778f1d334776e4db52b4b22f00000000014ace47801d6749feb50f;
     0x0123c2a312c4b794f0bfea5a6c8a0000000000684ee1801e0fae453c8dc68b50;
     0x96a2b4e2a71df96e1c481f0000000000b12cc02048bb19bc3051c3905b21f786;
     0xacf1a0a62ad8eca8000000000032002d7058a1c4adb0dafe79b38588678668ed;
     0xd15a631e8800000000030109106b5e4fc0c4568329e2c71b20d1c9f833e094ee;
     0x10a90000000000d0bdce206a3c0e665af1ea687fd8f6c323f7c022b9c84be400;
     0x0000000049f1eec07f0620b229c7b1437d53b62e9e44c77948aec61400000000;
     0x001e854d5b9b735abf26f4f46a1f3498a6c7861507376e9b8f000000000684ee;
     0x1800a624ce62530a24ed2a0c28e9f782e8bdb83fa46e00000000f478e08400b8;
     0xa13edc0aafcbfcc2b0372742a8cff54549d25c00000000005a419b9ac24d0089;
     0x0e0be391b325b2b0775ded1adbe31355000000000046b4b37ecb8dd59e2d03dd;
     0xeb9a5730a32c129159053970d9010000002b00294b60d9245eb58672b3a46ad0;
     0x317b8b9957b67aadee60000000010001fa40000000158014a5b00000002b0029;
     0x4b60db69885099752cc1ed68f78c852529495b89ac8400000000012a05f200e7;
     0xb90d1ec0502c56a153bfd1667f95b6c2a5d08600000000001510f10c0becb9a2;
     0x25ecebbda3c34c176478a26b677d6e0500000000008e23a2605c4084e1d93a31;
     0xc4a7e5b4879d557cb4ec844510000000000158d310da64b3ab966008792b9739;
     0x1fd1b99c3d11bb5adb44000000000147d357006fef6c2011b7e1a21f2a483220;
     0x460dba4166b8d10000000013870e34b77399de251514ae4274c531049b0390d3;
     0x1d33c58700000000000206cc8080fc13fd51b5813ebd2548bd2bc35b6c8b528d;
     0x4d00000000003fc6e78082f28c251b90f49213f5a5c8326283524d6f2dd10000;
     0x0000001fa4da8e8ead217db3ed9d93502b041358d3e453d64135550000000001;
     0x38eca4809d35cfd41347bc65e7d34bf265628eb6ce9570d500000000037646a3;
     0x9aa693c9f948a33357f83fcaaa286e135006ec33bb000000000001312d00af3c;
     0xc56c1fbbb3e614b30ea95d71d330873bd2a800000000007bfa4800bf744ceb7e;
     0x7c523faa908d9c3d6dadcf16e390fa000000000000989680c313876c03fa201a;
     0xc40a2225453e03289eb28e62000000000026be3680e5dd1e904c3ad7cb708882;
     0x7ccc09aec8df418f3300000000016f1f75a0f4394ff3dd6865a4336ad0e5c3a4;
     0x3a0f08f1b5b3000000000055885cc058d2267e8e906c08f5fcb611416e97e0ba;
     0xd85cb800000000009cc29d806b7075ce85744608f7009c934c18d58f7e54764f;
     0x000000000241719f6081d604d4486a66610c7a70f1c36e0be671c3e69c000000;
     0x0002a18868628ac3910eb1a13279b86e3ae51342ae585d7d556e00000000021d;
     0x399719a421771d0616ae2619ff919fb7a73ff0e616afe50000000000d09dc300;
     0xaabb5b6b2b958202ca8d8e25183358551131b5be00000000001d4f5f7ae86aa1;
     0xa882d4cd648a6ac5748ff23f11cbb690750000000000db0c0cc0e9d8ec103d68;
     0x732de38d0d368d4a2606090022c500000000011501c39bf70f7a575b3cc4ea3e;
     0xf70af8531f4aa525fb8519000000000007d2b750fd196f0aecfe3c9ef7582c00;
     0xf72b1ff0de5d3c63000000000004cace80feb44b39a5f627a1a3d0c1ed1692d6;
     0x445757338e000000000163a3c874015362ae1c5b0df1b4675f52a0fea3cda344;
     0x2a9200000000006743da2015bd67cde53a8a6c863b8c303b2af26fb008853800;
     0x00000001da3d72fd1c0845c0295f0b093ed5ca9e3d342a9d8600fbce00000000;
     0x007d2b75001c155c9d410fc8d0b159fa5ec647bab0288ba0e300000001be652b;
     0x3dbb1e45fb5d6ebd6ea6582624fa9a3387440348ed6a000000000217c597c020;
     0xe7aa1ff5b5d7573c5cf47d44352f75c0e84eea0000000007045559542c9ba31a;
     0x1fd8d50949f760481b3f97cd58cbb39d000000006f2215e49a2f58f61c195cde;
     0xf2633ff7339678e91f181e606f000000001d210dda293daa006935df179acd7f;
     0xb3f04e38ff4bfac1b65d00000000094c9c09003ee68231326fb98ed5debf153f;
     0xfffd3e07aa210800000000003e95ba804c99ee96cddcb956e6063266072e64a3;
     0x274776c90000000007d99d37945289e83f2726e01a0468329ab08e440734b581;
     0x77000000000376fb3a515bd2229f716f1c6b094c6391b508ac640f8a8b190000;
     0x000000166b8b9468bda0f9f72b099c2b9b1fb9eaad84e426d800d90000000003;
     0x2d01e2006a0f76c132f5158869616b634dca7a30505379dd000000000f377c52;
     0x4d9b68de54ae3df1876b234bb5ba40d6a61cf5cd7300000000009c765240a6ac;
     0x0a1da8c64658eced64b9548a96cd2462d001000000000c393e6d00c0b349e216;
     0x4c2627cbe217dafbdd903586a3603500000000000bebc200c3ff439e167f2bba;
     0x5be803240ac13d04c6fa8dbc00000000006529858fdab92792d5132857ff09b7;
     0x63c6057700be859ea70000000000146a22a0dc079b490b93270da8e46f458913;
     0x0d6f1bea319a0000000001a8629400df20d00785d420d85e568e66560ecae0a7;
     0x770b20000000000017dd9e80e26f8fb893f14e55d774d088f23281b32402e95a;
     0x00000000062802915bfc463c561dfd3f6925746f49a55b5f1911dc091e000000;
     0x00005335664c417cee58074efca8cc78f6a4fb1f9ab22f3d6f32000000000034;
     0x2770c04318c9224b8cb2bcf20e6e9109a17a8fc0946ab700000000028c8bde62;
     0x8283872c745aa7331862bd32247c8cb5c8a859ef00000000003c7fabc08ccc90;
     0x4a06f37e35404cbf306839b0fd211a233900000000001adde902be50e822da68;
     0xf16a96a11bfd803b4843e758cda3000000000138eca480e72424487c166f5f12;
     0xab999722caecb5b106b15b000000000303e15180eb09c3213d59e90d6241839a;
     0x957fb76988bc07a2000000001982ac1ca0f2a228457d9800b7055a273d19e842;
     0x6a1bb1c81c0000000000342770c00a1adeadf77d08a370ae54cc8027d7aa7e00;
     0xda5c0000000000009896802b3419fe24a0cd5d8713ba11beb2812fb2477d9400;
     0x000000000566724039873bb3e1ed6ba0d3ae6030967584491664bc6e00000000;
     0x002d2e29804599cfbe62fce3a5efc3c78981233493114377ac00000000056ebe;
     0x8d615ab6457201ff7fcc7a7a439b2dfc57977fb721dd00000000000ff15e6081;
     0x59e684829d7c013a61eb685667ee66ce78c15200000000000a6385cfa185d1af;
     0xe65fad9ec07bedcca30361bc9bb72ff40000000000a929f820a421ba4401945c;
     0x6fdbaf3fc60f02723e5fb6a213000000000540d2e700b71501166f110977f647;
     0x766fcf18c9cd8470c1620000000001080347c0bd9c1be2ddd9124813d144df1f;
     0xaf4e8e00ad070a000000000138eca480c899738c4c5117f9d8bb057980635bff;
     0xb366891d000000000000989680cc25f6ea67e274e878c7cc81e623cb42aa453f;
     0x6e0000000001c9a68220d45690792774ddd2862c42aefae8b49535d140490000;
     0x00000ee4e2a200e15a7c3bdf8d4dcfca96d25a15ffdff971eb62f00000000000;
     0x95a31acee2c384cee8d8ee0dbc2d2b5d7d4f6d4578fef25c000000000068e778;
     0x00f61048116772fafaaad735c07663ba08b4f0a7ab00000000046033daa40b08;
     0xf781be42240c4c36a0d6a590e7b1e820a834000000000025c705401e605e6acc;
     0x237684d8879276d556a44374e308000000000000157b44803740d361fd9887e3;
     0x3528630b9d2b76d3fbd69c040000000000bb5af3a04bcb6b3cef75893a964a83;
     0x5aa888772da82920540000000000903e450066814f57cc55b631df64c6098fad;
     0xd5ab78c18cfa00000000000a6e49c0708ee7f6cb5809213c63dbb7d318e7d031;
     0xe4641b000000000064dc5cae93dfbd91b06e75d080b58ae71d6f4722fb7f7705;
     0x00000000003d3707b0c480344b374f8cae2db4d70304554db7dd7ad2af000000;
     0x0000d09dc300c9da437b5a8b907eed55de12bae2af2221d0ae50000000000155;
     0x279bbace8b711b3f2103c476346ae7bc6fa062f9d8733b000000000447688931;
     0xe321aa13adaddab1ac6201fcf0d75ec1d904a8ea000000000ef613e9831e349e;
     0xcc1ef812bef6fc1fe64c0ad419ba3ddb7a0000000005fac66af71f13ac234a8a;
     0x6342528316bd05c9b31fa72f2a2b00000000025706d480216428c0ec1d962a5c;
     0x87aa5e0fc8b2a5d88b9fe8000000000716f620802c45699520b8e13e186692e3;
     0xc3e2c7110d1e082e0000000000a3d1f1a02e131b02de1376e3e764c5e3cc9e86;
     0x52b47cef0e000000000520cb099f61c4b145f367f8c21f611840dfade99ef7fd;
     0x33ee000000000194fd3cac655d569900f3050f9d66be4d5755007dc674a2a800;
     0x000000004190ab009806d20f71d6db86947940028fd6eb2df69031bf00000000;
     0x01213eac229e86758accd7d83115dda28e21166cdeb34893d000000000006377;
     0x9d469fe8607d0ca8e96bf1f294c1424c5e083e9ec1d500000000003f2e5100bf;
     0xb0756435c0e5a9396c4411a54f314453bf43390000000000fa56ea00d4e08315;
     0x958443a76fe5237a36743ae89fec4ff0000000007a3c70420008783a1a6fe252;
     0x6b24c09a63a21582b237cefdd5000000000e36447c00379414478091d38da882;
     0xf07aa11ca8457f9d8466000000000b1584fc5a31e95398b7e11565c61cf609d8;
     0xb940b3c18d7e77010000001176592e004756335ede8094b859defdd937c721ee;
     0xee7813e9000000010001fa4000000008bb2c97000000001176592e004bf17122;
     0xddef3091ed711ff204d4074e9a3e887b000000000258da88436c6a771c60fa8f;
     0x7f5242a1b83c8f98e266f1bfc900000000041fc2c07586dc278acdd1a2a62fef;
     0xc98f167cba40f35e09c00000000002034a9346a83f41924c7230902283e032b5;
     0x04e2da6c14aa6d000000000188683ce0b95797edce7e767f31356bf4808c4033;
     0x37dd17b6000000002095f7d2c0ce1a7ce31f1a9e55ebf865a43e539ed4ab143b;
     0x3e000000000029b92700e6e89076f0b92627b0fbab622ce208d255032c930000;
     0x0000041314cf00c8b99c3cd4a33df368d96e2666d929776bcb8aff0100000131;
     0x9718a500fcb25eb488484eeb7fd04db94dffe264bd505430000000010001fa40;
     0x00000098cb8c5280000001319718a5000a76d33185e98fcacef0fc4600f82a31;
     0x1f5b9f73000000000007b0009851c17dcc71479fdfc2464ef68816f6a53e1669;
     0x3f00000000009c7652402caa80bf426bdc19dc9c00d9a43e2da6350fc73d0100;
     0x000015b822c68062a153a5eeabe57af690496251d9c2304168db500000000100;
     0x01fa400000000adc11634000000015b822c6807cbb31f375be7d029e60c5882e;
     0x08a0e32dd9c7120000000004612ce8a98b0fa0da24dc92090239099dc5157394;
     0x2a6767b700000000017797bbc09eb4d34727e07713836cd10f8711aa12e64bbb;
     0xd70000000000684ee180af95e4a115fcc2e3a7f3adb05eaef2485dd67dae0000;
     0x0000006743da20d204dffee9638e49e48817fb10a15509cbe249450000000000;
     0x0f273884d309da8a2bf1e1c4efe48b698d3cc7d1eef1a1b4000000000138eca4;
     0x80dff0924886e52b1f32721ae751f28784902c7f7c00000000002e6f0d33fd91;
     0x1c415dd62a96863eb956191ac84f832db5470000000000671db4801ac14d6eea;
     0xb009a34dcd9bc41eef208d9384873c00000000000a6e49c01ae27d72c54811d7;
     0x72a4665425152c6ad640b6760000000003aac5ed80308d6dd2a9230f94ee3f9e;
     0xfb19d32eb40b47ea7f00000000004e9e57c030ae8c4e8f0bfc87a95d56e4181b;
     0x72c3292c73e70000000013dc7b460a42d0e405151ac8ffae8eeb7ac75f02e8cf;
     0xc8a54900000000002c54b9704d3f6a252e0df4422f0fb485780fb1abfbdd8a7f;
     0x0000000000157b44805c52965dd761cce4191c3f724ca2ea93cdd093de000000;
     0x0000684ee180616da4072390222ca4f74df29968e20e843a9637000000000034;
     0x2770c06a46940ae1c4d86f350ff016540b5155b081ad96000000001e1d71da2a;
     0x770eb3b3db4f655af6452d1520464a6490fa95f2000000000043a4577596b127;
     0xd9052ac7077b415c6a8cc9dce56f76566300000000002cb41780ac27f53e6ed8;
     0xc9ba980c477baada6eac335dcbfb000000000000989680af3fd0751a672560e4;
     0x9a1a17848374f31a3035500000000001ee1f01cdc797ab0fd79b61042189d947;
     0xaed5ce7437b975ab0000000005d06148ebd2985450804dbdfdd9cfe5858b158f;
     0x7a70126b600000000000684ee180d68e7ae79d1f76663e83ef7cebd180481837;
     0xb272000000000084e2365ef9f97cb91a830a2720707301809d468c20c8950600;
     0x0000000011bb7d600fd3a8a421cd82740d63f220d968e39ef5215c3700000000;
     0x004ff5aa604ab24e1416cbd6fb836085aa64a95e37caff8a7700000000185c41;
     0xe02f5da341e30e77620ce22c827ea745e55323f2adc90000000009f24f780070;
     0x2a534fa0ac4d77362ff4bb7a06d381f04be1c1000000000640dd42f48ff16867;
     0x659e27933fd4a18290268839d7f7d119000000000068f454f3a841e20f1adb47;
     0xd40ce7171bd39dcd580583d2180000000001a13b8600a9d75b982ef5f2e9efbb;
     0x77b7e179f889757e366a00000000027dc50b00cf86a6b2637ac615d35940a6bb;
     0x139ac4148c745d0000000000d0763dd0f1e052699c2d1bcf8dcb87ff0e96b213;
     0xc988959d000000000035b7fbd0f92277008230b2cb4ce77e332dae9639579f86;
     0x8c000000002dcb9c64972f6bbeffe7306cf1a5eafc1ba5c039e5d5474bbe0100;
     0x00002b70458d0007d7ce4b19b795254f5109c210ff892f95748a370000000100;
     0x01fa4000000015b822c6800000002b70458d001c9d7ff28da41d42b5ae0f0871;
     0x131bec78be7fc7000000000006c7aff02694f77ef0b6c830b1518861156ead74;
     0x42d3e65f00000000037892912a2da3183636aae21c2710b5bd4486903f8541fb;
     0x80000000000960044c00371fe03628f6146a45dcae22ce010b4bdc7249c20000;
     0x000002315cec8356a3d0dd4a7fd68553b1d842511316ab19ac9e320000000000;
     0x24b6324b5fcf23ad86c4e7c2caef971878be3b5eba66d5a600000000014920f5;
     0x2974695248c5798101527fe8d6018a7c52d834c1af000000000030c655a9850d;
     0x3b4a43cab895562e509af0fc375c53b934320000000013e23c9600a81796f7a3;
     0x6281cbfed9cadeb41e13b141f6de26000000000000989680b225327faf32dd09;
     0x52f6d380b5dc7bc01a153da3000000000ba271b080c640ffe14a4f4762949422;
     0x62722d78a98063d7ae00000000003f66454cc6441ce8e60a6da8fd50a62778e6;
     0x20c340cffe5a0000000002305bf6f8d9a7ff0827bac19ad7da9472dc8e607021;
     0xf56cdf000000000173f162a1dc2c1058682ad9e2b75eb5a6b77eaa6e7fbcf72b;
     0x00000000008799bec0f9cf2e9fffecf760b73fc89d98cb50a4000f7a55000000;
     0x001870b31680fd4567097059497f712018155932135cbc2365f7000000000a31;
     0x058bc0855fd96b13cc98443cbbb577fc14762d4c492e1a010000000132a8f1a0;
     0x07397174290a1a587fe955e0e4f59af37e5aab87000000010001fa4000000000;
     0x995478d00000000132a8f1a0171866db6d9d80f61084ae41e382055d1835f2d1;
     0x000000000019f0710720cc540863e620a639a73c243830a8310ab3dbda000000;
     0x0018dacbbb80f6afd3ee3e1243b301bba454e14ed7f0f8697596010000019774;
     0x20dc004dcf0b0c70486431227b32eeb42a2f6ca30c5b9a000000010003f48000;
     0x000043e8b024ab000001977420dc005ee2ff77542f63cf46177f9ce64f1ddde1;
     0xca79e800000000226c90515f66a8ce4130803e50da5e7f21ee1b8c9f2723588d;
     0x0000000055079dc4006cf83128db5e097319677253dc523b6ebb28cc3d000000;
     0x000057516ab071669d69b1a4095161ea04e6e62e147a347a1b4600000000187b;
     0x6dab807a2571238884819a616fcd5dbf7bca74142e6b2d000000000bc50b535d;
     0x828e88e00dbc3a735eaf6804749eb5a7515a69d600000000006d6d8d62855a07;
     0xb67a4c77f6e307aa1a4b8b762b2c0db78900000000005e60c4409ea8e6935a9e;
     0x37882e783ed5653c40a1a7cd0ddb0000000057e8055f2dc6e97f003afdecf5e0;
     0xafeefb14ded2c29cf48ccb0000000004a9dccf97cc4136afdb85127d02d77772;
     0x8614052006ec91250000000003758c63fdd3c0f08a7d7a4834b1e97313be6e5b;
     0x360356569200000000004c4b4000dac3b4baae81169d5993c1fa997e690522ec;
     0x873c0000000001ff1c1dc0e8a5ff5b5264ab0d81904d2d771cadcdd60f299e00;
     0x000000001f4add40f896825d830a104a217a988516b55195a5334ff200000000;
     0x0072f10c800998726a35e16f2c81022965bdd6395a3aae58fa00000000020a95;
     0x6ee00a5f8d99dc12e94079486cd1147acf259f2d426d00000000011e1a300015;
     0x76a2558b85545ecd0d8d0b568d366cd2044e160000000000d09dc300160d867a;
     0x17d2030f4caa9675fc7066ec88b0f0b30000000000009896802c958dcc325e5e;
     0x63917d159d9a0ca6786adcab54000000000079bc3670461cee2bc01b07dfa431;
     0x53be2c514e9a600add9100000000026f76ef005800a28f318ff464e1d3fdcf83;
     0x3afe6efe9662b300000000004e3b292059333e9560a4a0098c47a02a0df41cae;
     0x36c6b5c7000000000040dfaa80729d41e71fcdd403dc2147a1992f52fac2f2d0;
     0x0a0000000675f026928077fe71b45cc2ce664922b16381f1e183282affd10000;
     0x000001b23c68b87b2b8b80d3fd85f5c7b54bbe7c77513989c399050000000026;
     0x2c1b172385c01b33ef589086b192d06b33a4338eed43ac920000000000009896;
     0x8096af4324a391339cc130952f769d98b716889a02000000005a5ba24e9f98f5;
     0x767b7fe9091f7146ef067dbc06860780997c0000000003c5a8a5cdbe3c910763;
     0xce0cc90e6bbeb486226fb99b1b0d9c000000000001312d00e30c9bf570d152f8;
     0x7ccf23c113eb49ac767420e000000000041314cf00e5b5ea289911c0a7be65b3;
     0xb1cac39cf91f517fed00000000179b5e5b20923090173eda76f373447bf38fd4;
     0x3bb82543b410010000008bb2c9700008a618d31b7fd6c4079e24db5898071b96;
     0x70419d000000010001fa4000000045d964b8000000008bb2c970001232e919cf;
     0x237c81aa13a9a6ef3087c04f786663000000000130dbc4701deb8cfa143ba997;
     0x5abd912a19754235605331560000000002540be4001f56582c8b4a16f77e27bc;
     0x7cad7aa60c2491be8d0000000000684ee1803304ef4a109afc50a7ad2b2d87d2;
     0xbbc17cfa8258000000000038ae05473e3f5d74be8344a11f8d9602082a23e244;
     0x4e618e000000000053724e0044c023c3cce3db087d091c5f608c5d7f919efe90;
     0x0000000000684ee1804c4055cf472a5424018b2aa1ded37df886965907000000;
     0x014256290c4056130ff25afc1d6a55fc84251fa5a7cd0e69ff1000000000009a;
     0xf8da005a756d3171624e66c8ce0b68f45740f95d28bb070000000000659af7b7;
     0x6194fb672bae99e860134cdece86418d5d17fb3000000000009c7652406cf34c;
     0x7e17fa51c3eb3d69fec18cdb5dda2e5d7d00000000019095be608082b9cbbaa3;
     0xc10d119657f80fe5f42baf877e5200000000008320547b2559a5d59fbf45ec48;
     0x233218c99eb88ea0e642240100000056e0899360a0049600fecbc7b3312ca005;
     0x0d6605a67fd8d507000000010001fa400000002b7044c9b000000056e0899360;
     0xabab9760f958a163eaaffd99e98d966266a31fcd00000000012b27dcc0b0e5dc;
     0x9710715ac15150f904a50e81dd3622139f000000000005f5e100b2dfd0040a47;
     0x5c1d558513a37ad15ffca5584ea6000000000052fe73d6bb722b5a4e5f70b30c;
     0xc8617888ebdb96f5f235e00000000006ec7319e20531ce072255bd3de8e252ce;
     0x25d8312d30216763010000008bb2c97000c55113641286f254766b44e6808b87;
     0x87ba4a1fce000000010001fa4000000045d964b8000000008bb2c97000c8d592;
     0x340b64d1a34a2ea168a2d0bf605a6175fc00000000001ec18900c90af9e93a19;
     0x5ac8078e8c937f750444dbcf4c6100000000067c7b9647cd9c259d40fd7cae4b;
     0xfe016410f1c81528e5e9ab0000000004a817c800d9579ac56b1cd6fff6f123d0;
     0x9db964254b6eb1180000000028bed01600ec6894f7a2cde8abbf56524b3d4cbc;
     0xc58a5a3bfd0000000000730f9100f6a4dbeb7de221ce2da639d3d782798c36bd;
     0x0ed00000000002efccaaf02dff455cfc98717cc7bc81b471c0fd8152295f3300;
     0x000000090e7be410371b8d893b295960ab9d1e05716f944e692fe27900000000;
     0x073c2ee68f576f09bde517dd032f26c2a2cb0fb19f6b86873d0000000000bf3a;
     0x64385b2db4f81f878f6da0de3ba904c311e16c811dee0000000000c9369ec08d;
     0xd79341ac24b55423a017a6c712c828be79f6b101000000746a52880060990169;
     0x73f25367585e3f94658bd64f01a7fb0e000000010001fa400000003a35294400;
     0x000000746a528800b2451f3e949dc0505845c559a12064edb584e61c00000000;
     0x056a014b94be878f01f45c7137f79af0a951f59905fbc6ee9a000000000008f0;
     0xd180f0807c70ccd87a2bc826a7cb298b2214e6d4476800000000140ae953fc19;
     0x5274b2a44d415487cc8496be7771696b86a7dc00000000003e51312223a6e0f3;
     0xac4d47291adc8544fa7b0564d0eb2b3600000000080b06f3f5947a887d9206f9;
     0x81294611953a9d2b9418e5e389010000002b46ee0e0058ef72017a95654210f7;
     0xcbffe791b3943032ce5d000000010001fa4000000015a37707000000002b46ee;
     0x0e0059e312f3202b26a692e40b0901bd91101a53eab400000000061c9f368065;
     0xdd0ac968fc36314e82908492091f3956e0568e000000000805453c2e77bde99d;
     0x4af9c3671f07eb9532246116f9281ba600000000003356351fc6bb56f6c977b3;
     0x123eb5a095717b31e48825a24e0000000002098a6780028d8d85887c427b6a8a;
     0x7cf70638385c3d60bf0f00000000047b63b08015f1d7eb32ae58bb9537ea36e7;
     0x45a866d7ea72ea0000000000671920a02f73719f43aab9989ecd94e61a130e52;
     0x295d2e70000000000008f0d1803a5c3fd56576b0f9fec1d3a0d4f26234e670b0;
     0x6c000000000014dc938069549f3460db21b71645775771787e87d4410edc0000;
     0x0000000835844892174b36712b9b1dc35c1b5796d7656c72ac13530000000000;
     0x025b6da194aa3d348815b1e1a1d8fc110a4706892784ebdd000000001d759781;
     0xb8a42fa062370c222d07d76d52d31ec5d85ca8cddd0000000028bed01600b7f9;
     0x91d7404bfd3ac2744bee76d40ad44cfa61a60000000000ca82e3c8c84a60cab6;
     0x5e958965cb5987d2e9d80baf7927f90000000001fc5e3640d1d1ecf309396c6b;
     0x4d50dc61938e90e0778dc2e10000000000684ee180dc1c53621b66775a89c6d9;
     0x9e41d68e11388af9d70000000000ff1a13a94c757a90ee9b11a2fcae2c693fa5;
     0xf98ec93dd7bb00000000002e6fb2595d1a3d7073ee30c1ca566085c1e43bd7c5;
     0x4d7e500000000000684ee1807db21674937ea0fd357d962b8915dfdfd030f11f;
     0x0000000000e612ed00a4262ef1540b0ebefa034ae7dba3a391f12f1f02000000;
     0x00041314cf00b46ba513f472fa85b60c710ef010e38262e4562a000000000179;
     0xe754a2c6a7a8fccb21361c3df867b6137c6b187c117ebe000000000118464073;
     0xf8c92884bb21fec24b45f19d876264ecc6380327000000000128c1b2300524af;
     0xbc1ab0b0a9023b2d3e765511c9329e1a2900000000dbd71477103f870a7e36ac;
     0x4bb0e538036e6553a36550d167f700000000031c4332c5473a0e84b27c3b6147;
     0x9f856481842ce1b427fdd4000000000342770c0055d38b0176bb4339ae483d2e;
     0x48870086a0ef0636000000000128d4c50059cd5d81518acbcb54a93d14af1ec1;
     0x48c8b4c402000000000826299e00603666c39097fd3af7897be9e0ab43914b07;
     0x3a660000000004d9219188a5b7980b9d3598e69618555e5602a560ab5b14ce00;
     0x0000000b85b3e6c0d711633fb4ddbfda46109e2e611cae53e355c48b00000000;
     0x0b2c385844db5851ad09ebd6cafc37b05acf7e336c9672cdb7000000000474f8;
     0xd505f2b9eab8266dd4f44bf44cbae19f1af19940c85a00000000041314cf00f9;
     0x5f281a92bd8b4ecf6cd4e91e34678acbee228a0000000001a1608d9b37f06a00;
     0xa49ef5eebbe6165341eaf0381864ddc90000000000d09dc30057207d845c1fb4;
     0x1b2e2b05462a7f92b8a4a1286000000000002ed557ad6f99c7d05b145a67e3de;
     0xf96fbd3525a7f61fff5a00000000001b1fd09a8c92ea3bbfec5d955b2167cbdb;
     0xd71d1503368b580000000019ab697e809f64c0fed218a09ec502a27897adfd74;
     0x03d9af27000000003b9b629680a4018b2eb1534e275db76266e4b979cad7e37b;
     0xf000000000006674951aa78acae58b6f85929f8d5f06065ff9fced6f32700000;
     0x00000826299e00aa57ee0f5fefdb205066ad8577b3459394e57c3f0000000007;
     0x9ffebc7ac2949b49bb1bb6662526294560581df2c5f2ff080000000074db0204;
     0xf0da3c97ea1103e8b8f6b63313c72d3ddda30394e60000000000861c4acddc31;
     0x9d79be03860fce49781086e4d7ca02449df00000000000684ee180e6da972de1;
     0xba77d07032f2159a27214a6cc7b2f10000000000684ee180ef2f0e942f8ddc15;
     0x85af222a9184a4a1d056a0b9000000000055ebe5c9f655fe048ad1e49915ce93;
     0x3297f7d33979e5a177000000000029b92700fff92af40c17d8990c5c0b5b20bf;
     0x73508389033c00000000007d09dc7f004df512449111ab60b9721f15bb26de48;
     0x4f4312000000001e4778f9720920d09cf2705c5ccce40d17efed9bd401bfbd41;
     0x0000000002ff9797460b28da77fac452321aaad99eb9451241fa1204ea000000;
     0x00019963778015464137648777f03a89799bba3e70f78284c33e00000000053f;
     0x431f401e4a358b65d421323faa79d0728fd4c4f19a5b480000000002f692dc89;
     0x3f09f88c7f1c185ffc7d0f28433d1ab2b2fb735000000000002a3339005d6185;
     0x072976bd221cc699df25658ef323eb2764000000018bcfe568007c991feced41;
     0x09e80b6b4e00d4be4f2db27a820c0000000000675e8e108b8bb6c260892bc62f;
     0xd0cd4ab11d15560a5c0004000000003b5fc7cc80990467354749583950268f1b;
     0xdc932baf2e1f2eb40000000000655a0b8099be78ef96b3f1dcaee88d9c737e96;
     0x6f2f29de7101000001977420dc00b5326ac47f375fb9dcb924228c49b7938bb3;
     0x7770000000010003f48000000043e8b024ab000001977420dc00c72bbb3ec6bd;
     0x50f678b45f567c497517737ac0e70000000000684ee1809184a309e12d4e9b88;
     0x454e6e642bbdd4eefe3f6801000000037e11d600db9c6ae5094593a7f48e6b66;
     0x9f70603a420db5c8000000010001fa4000000001bf08eb00000000037e11d600;
     0xf0f24a15c96c3b7ac077a0b2e03ec0a588220cff000000000d25f146c9285e0c;
     0x24c9f50157b2ed7b7a9f1611efc3bfe9a20000000000630916a02ff5ba846d62;
     0x306c8e23b803248a4d53be5b6a440000000000961033e34199a8dff10509386b;
     0x2aa176e6381977f1663764000000000af3d1f0e4475677807c9ad517f47eb719;
     0x3937c5464ecbdef00000000000342770c04f2db8eddb9837bd8a356b01de6053;
     0x26945f5d440000000002a64871204f63b41216bab1331d4e2b86d11814d8d558;
     0xca220000000007f8c82dcd57b314ecef60c8b6f2e2c1c7a768b9f7f40657e700;
     0x0000000029b92700fc3687f91b8bbb1cc24b55dd640e3c9bb23261a901000000;
     0x098e4210c063ddd9ab4e5d3fb7b41ff2a06647beca2fa1f52a000000010001fa;
     0x4000000004c7210860000000098e4210c069d5d63653970853e2b019febeae72;
     0xe8ddd600a50000000000009896806bad6921fb455361f6a972ebb3de0a6d67e4;
     0xa4f0000000000002faf08082a59473c9b1cbc0a3f119dfd9d39445d57b12b200;
     0x0000000290451f0a89306b4189780061c721a43aa5f1801b72063a9d00000000;
     0x018261a0ea8ae5758de38258ae9783ed616b9e19590fbe07440000000002da28;
     0x2a80924eddc10023be35b70baae59de13731dbd88e050000000000e2149640ac;
     0x7dbdeb3d9ad56fae7f1e36338fa0870de282fe0000000000bb9c17a2ae715f49;
     0x9557f5a66df7d3d395ca0f82b5adf7e0000000000000989680cf483a48691a10;
     0x512f9e4582f5a8f0007fd0b9a600000000021353e5c0e2dc37feb51b146a86ff;
     0x453815c63f4ae4c24baf00000000052c59822034991cc7d5f6d35923e101e198;
     0x8e8a6361d13749010000000ba43b7400ec567774bc40ae5b832b378d8791f4d5;
     0x660d33a0000000010001fa4000000005d21dba000000000ba43b7400efc55012;
     0x37a26fc4957229aa0f6a81ed1b296e540000000000202fbf00f6c7af0f8c6213;
     0x900235f95c00745cab0c843769000000000615f4914ef7c8034bbad7a6f62f44;
     0xed228e8fe120ea3f4b03000000000001312d00038227c6e91cc32144c164a1ba;
     0x2183f7256e5767000000002618cf5c402813a2ffde3aacb03390aee56acdcfd4;
     0x8d009a1a0000000002098a678030d2b4f935846f2600921c19ee291a9255e0ad;
     0xfe000000013de0c9c4915328f6604fd72ec38a2ea672bf3790c3b95e63390000;
     0x0000000988a6ef7a5e35367157e434b1f3c03e5632adf41f73b2f600000000cf;
     0xbafa68d981ccb8bd45c57366fc6f9a1a8af291de3bfda4b80000000002ce0e11;
     0xf0abff0b570a00ee4592467ee170d76aee885d084000000000038dfc0e00ad03;
     0x8da0314cc101853ffdd3b17dda792f62edc8000000000204734734ae4ca15fbe;
     0xd7b878c7d727703e78150db50bb7fe0000000000d060fea9cc74f9fc0794fd3b;
     0xdffc3b504b55893c4685488f0000000000150cc9dfcd82c37907f1a05c9cfdb7;
     0x6b5511a40e94dbef3700000000007cc0a540b11d3074bce47572db0e1f06ca84;
     0x4655b1b6c90c0100000022ecb25c00d1336297b4f76d04c2921ea91dfef23290;
     0xdea79a000000010001fa400000001176592e0000000022ecb25c00d1fa924611;
     0x04000909d78eefcf99fceeded75dda00000000041314cf00d722afe540f32e01;
     0x52bb65df7b14f8b0d2bc1caf0000000004f4630800887a8a093d0b4bd862b741;
     0xec26ba8bf5572618160100000022ecb25c00ddf7adb0d0a547af45fd75f5baaa;
     0x015d20a1bf59000000010001fa400000001176592e0000000022ecb25c00ec95;
     0x6180dcf3771ca4a12d1a851432a9604c8804000000000c2d9ea17ffc660ebc35;
     0xd4de3dae65df744d2feb25d315e7d40000000012a05f20003eab11d3253c2d3a;
     0xb30b22a5d1a5bf4c637e4ccb0000000000684ee1804108932ca62d1ae1efe144;
     0x3852d7e928d5c778fc0000000002218808f46741c9aaa1ef26427145a669599f;
     0xd09d4a74719e000000000014dc93806d28b4f435b2fe77a2b9392d908101dc6c;
     0xc514c400000000000dbba0006e47bfb7cdf1f2ea32eabc8a26ec97770bad4bba;
     0x0000000005997de0809523569da9361f27d45d8bb01c46e5a52af35549000000;
     0x0000d09dc30098554f526e1b4c2f771f1d5a503b46ac7ff19bf40000000000b6;
     0x8a0aa09d6ca05782381c03743752a33bea339423041fcf0000000000935cdf45;
     0x50caa3f93655b5490ba368e19eaf8cad0a9cd0c80100000011601c2020ae26b0;
     0x807ec8dd46eecc06575d8ff974f3435405000000010001fa4000000008b00e10;
     0x1000000011601c2020b43d58ef11b5e3099c45ebdc1aed387740e1ddda000000;
     0x000178c1cf53b5d270b619fb0ef41f34a8e9e142daad4777dd6000000000012d;
     0x49548ad7014cf30595fe93dbff64d75f95be9cef768eda000000000826299e00;
     0xe476a59c63543b674cfc0af6f63f54bfd929b1d1000000000fe3b80f40e70ae9;
     0x16fdaaa831da488932d5c5a55c87b8959300000000623ad9855cf7d4aae4f872;
     0x15652a5d5207e0f6aa896cdaee5700000000009c765240f8159ae32f0a9ad692;
     0xd43ff362dabe6d41c4747f00000000001c29c72019124f359b365385e513a4bd;
     0x20ba5c2809b88ba20000000002048666622b723459ad70939a3ce3f35b39a7f4;
     0x224c31dcac0000000000fd1aab7d58b61ac624552e422cab4bc7d7a7b648f6e3;
     0x64df00000000152613922162fbc9bb7a3d572c684dc1e6b19ae0e1e54e1ed500;
     0x00000000f492a0a67a16b5d0f196870f710b55ea4eded129f628282100000000;
     0x0138446a1883a23ddcff584a89152b92fedafd97eb0ccec0490000000000f171;
     0xb1698e1439e55e0875f829929efa9e9cc88b924fd8080000000001682d0c30ab;
     0x453bfa23f44ab575ab5f85dd56174f55b2065f0000000001d2445c2eb66094fd;
     0x82d922141f54f55ed9dd32e5dcfc699d00000000003823b6d1d6227fdb956f50;
     0x146298229b81bda363fd5d0ed50000000004795c5c535932b8c7192412897bef;
     0xebf40617894be9d84e81010000065dd0837000df44962e6c54d567c6bf3c06bb;
     0x55271b29ff6733000000010003f4800000010fa2c092ab0000065dd0837000ee;
     0x69724ed8df0242dff6069c07d0db37399644d000000000146006bc00fd0caeb9;
     0xb784f6df7d228a578205d043752aa07b0000000003ffb7d32febcbf0de7dae6a;
     0x42d1c12967db9b2287bf2f7f0f0100002fbf9bd9c800fd34ab7265a0e48c454c;
     0xcbf4c9c61dfdf68f9a22000000010003f480000002632e314a0000002fbf9bd9;
     0xc80004f198ed235b8a12c5446f18dcadbb707b8ab96c00000000003a82f35905;
     0x06cc579d24ebd3b7a7f07a2c26613f6410b37e0000000009844ab02706b5e6e9;
     0x011da3febfc7e950e0960a387f48cdc700000000005778fa6e18f90a199048e0;
     0xd7ad72647b7fc6ec7d5772919900000000006103370d5700fdafb9442b7c6e01;
     0x46d38335ffb79d67244e0000000004d69a86cb5f5235a35af51c53ba98852850;
     0x1a0bf41162ee970000000005330a16771b9d98f10c9bedfca0b2275e187fffcd;
     0x2ef03b020100000005d21dba006a90aad1aec0259401e0ef24ef08d9890f4c74;
     0xcf000000010001fa4000000002e90edd0000000005d21dba00b9b7a609042daf;
     0xb8e71f0aa97856441601f0b71601000000183bbf2e008f37993974111be44c00;
     0xae51bcf51679673f4819000000010001fa400000000c1ddf9700000000183bbf;
     0x2e00913f9d43156ac22223d8417a94177aea6a016c5d000000000008f0d180c6;
     0x8f4b5bc1e147f39d0f0d0b0784ca4cae2109ed00000000054c017380c983a8a2;
     0x0b69c3e7d31a0f900f32b33ce9f5b9790000000001cd6faf38fbe040f47f707a;
     0xb55a7c988746550c6a9cbf41870000000004eb215760fe0212a71ad52673f834;
     0x35d5d7a52d6a878f5a7e00000000005b89ed2a02adf7a2c84ca2b82290a546e2;
     0xb77d624e67535b0000000000c5c5714703b1a0346440823ef12090687c9c2f20;
     0x6a7eca3d0000000001c3be5cc08d692a48c3b21b5b2846166aee6e0cffe4d5bb;
     0x8f00000000002376fac0968fe2cfac463f69e5731bbc2c283fe1cb8393ad0000;
     0x0000002cb59d86ae0bdc606e6c1e143bc9d00fbff6019e44c1b0210000000004;
     0x6be46780b5a2d1bfd78b8f7a51e708f41e1d4162aee5466400000000001a7b01;
     0x12c5bb024473a999c7f87d2604aa2fc8b3ea8ab99100000000035ef76b18c5ee;
     0x82deec18981e96c782e7a9a27894486c4c6d0000000004b4de5711db0e1fce4e;
     0xb40ea0a4ee18b35d4ef11c78b991760000000002098a6780e3f2f0ddb7856c40;
     0x5a70c470afe498ac73e3296f0000000004127c3880ef30b02b4ff0829e7ef493;
     0xa11d6167535eb0c802000000000274188aa0135434e1e92c732274d09d28da61;
     0x337c1751e83d0000000000341fcfa016bc48d87aa4f68119f5c1fff175ed5d47;
     0x733c810000000011133d2fce3a3531ae7dace65853cc20d4a31fc2e6f31d1880;
     0x0000000000b71c1c136047af576890cec8380216c29ad2a6dfcd791297000000;
     0x00008384be4678e5c138fe4c56e4247dc666402f5aca41c038a6000000000267;
     0x6aff408a7162d347f72bebc35b1fae91f7779318ea787c0000000000fd1cac79;
     0x8a91aa161037a0b2f5302d4a40a398a25f6a8243000000000342770c009871b5;
     0x607c073ebe9c0bc8fdceb7e2591497ff71000000000005f5e100b2e37361cdd6;
     0xd437c45d732030b95de59b0ef97500000000000d0a9fecbf0ff8f44d261ad735;
     0x5efb7c4210ac9003d580410000000005c2485d60c26159a74cc68cfc7ec2e8fd;
     0x43bfb001d975fcf300000000006743da20cef3bd7632ae0e9a806845395a2478;
     0x5d8057e6dc0000000004633ac4bae3ca2f53b38a3075f2ec7489a7516795e997;
     0xdc03000000000602a44829f825839e6dbbc87f847a37bf42a487d4db20710d00;
     0x0000000000989680fd6cf7b9a81138f8c33cfe1f7301a6857569756700000000;
     0x012de32faf0f85d7680d3bf451fdad3256031e3c8ef02023470000000003b7b9;
     0x153e101921f951ced6c788ff74f1f20405141d70739a00000000002df4f510f5;
     0xf84e21e5953d45f6a20b5fd7b65d50e23fca0001000001319718a50011339ad3;
     0xd1fbb5f1b7637fb1a8a725845e7fa7bd000000010001fa4000000098cb8c5280;
     0x000001319718a500243cd73467386ef32b31f8cde0b10b3cc3f4887400000000;
     0x012a8004002c02007a026949d5a40eed4a7874da22508d22c800000000029050;
     0x689832b717e44762782f93d687ad7b07962bdaa67c1100000000001067380048;
     0xc57c7271cb35853727c8bc4d760f2992f1667e00000000001dcd65004ee6def9;
     0x919aa3dcae4bc6b557a42cf5c8ac3d5e00000000003f346b80612430db2d8b1b;
     0xa50a740e96752b45b3ae51e19d00000000043bd901e783e190d47c8ebc963b05;
     0x6b9f5b1a9426e7cac03e00000000009c765240968d7ba6af740e27d3685854dc;
     0x89985220dcd4c4000000000029b92700b98e4a742d09c063df85932dc56fa211;
     0x2f92b42400000000001dcd65007c7450a286b85edebad3e890acca0d453de101;
     0x7a01000000517da02c00fda768991255ad66cfe4e5d0d40a81405e1c38b50000;
     0x00010001fa4000000028bed01600000000517da02c000029bf7f69711e85f15f;
     0x1f6b003b648ab4b0a98700000000025242208024c1d5d624adc13b41ff91e6e7;
     0x2bb78a9493d39600000000005b21a51029c3404d167962b2ba4ef630872fe333;
     0x3708c960000000000051131b6f4f9b9d632147d07fa24c6b23d9b519d640a668;
     0x4a0000000002098a678062c08fbccd26bd23748b7de1d1e71859a6718a390000;
     0x000000579e6b8069479c2c05c9c961c16c0e3dbc13168744f9c8930000000001;
     0x5faf679a6d0e67cf08a1879673f9412bf124d5668b42742d0000000000090422;
     0x9b7e20eea835339666dc4011822f0245f411f73fd700000000011cf22ac08e8d;
     0xcd3612adc818de33c3100a7c506f9ecc6c4a0000000004f35d711bdc24ac5538;
     0xb857bab8f2b30635b4b36d799e89d70100000056e08993609b3e6fd99faa212e;
     0xb6f4aae756d1d4ce1997bab7000000010001fa400000002b7044c9b000000056;
     0xe0899360a0208f5181418f8f558d009719410cdda0e1864f0000000000127a39;
     0x80a259073902e42cb437795ad32fbb9edd6a7f6dc6000000000132caf774a80d;
     0x8f8e47c1e70774561924e5783439f728ad43000000000789b34bc0b125b63bfa;
     0xcd180ef19fecfdd69c1fbab1036fca0000000000684ee180e27e14eab6c0b2ad;
     0xe569d1828b59b799fab923140000000002098a67800486c2fc0580ce5a3f81a4;
     0xb2498a1521517a2d8800000000a3482a2fc80ab2f12da31cc1f08b741c98df78;
     0xee4f3e3c5a1a0000000003b5744fdb1892477500eafb8192dbdeaf60cf5d44ce;
     0x0395cf000000000553871c4033315765403d336b73c663fc20c0836593b44450;
     0x00000000002625a000358e06cb7091d21d9cb90f3053746f3be510dd38000000;
     0x00001dcd65083991d4c0be3bf7c99809185ae0476e5c3fffc2f40000000003b4;
     0xe7ec003b756984782ef0602798591d5838ec22f76bc73e000000000bd199e56f;
     0x4367e8565ec3133d783ea68fbd89e36426323b130000000002098a678043e7b9;
     0x2cc29a56b67bb494ede3f270493f98b2c5000000000217f4f4f75644a3f0e1e6;
     0xbe6aa2b592f59ac5e8255f56f2390000000001de042af3579dfd0a2d9e5ca573;
     0x22b6c7827b2c9d8521c3450000000005d21dba0064feb3e250db1d929eaf63c6;
     0xa4f7a7ca7dc9659a00000000005352413d6dfb7a9e904bfa5726f918b7d559fd;
     0xf3005a753700000000009c7652407c880f8fa504ba6f3c7ce2b37acf71e6eb26;
     0x4e4000000000003209a49d8536b84fab2786edd9b5689d32eb8bc0dc164aa400;
     0x0000000030fae880a7301b3353e7ca96d6f5134245e27006bcecaf2d00000000;
     0x01dd7fd387b6d905d6b5b685d54aabc31e8ed81ab02551fb0600000000022472;
     0x3b92bb5c650329bb9d94e3bd458834b403406c0ad9b100000000041314cf00b9;
     0xf566a93b98f8e201d58c95437268c918f843940100000019f75c3e40caf2525d;
     0x62116d1ffd9f26166fb273893b11d61f000000010001fa400000000cfbae1f20;
     0x00000019f75c3e40d4257575632f5bee84f1da96423ec525a2e87c2c00000000;
     0x0af09c9bd1d93bdceb281855203f154d559863bb6fa3fa5f52000000000014f1;
     0xaf0bf0495fc75825da6d19538cdca879c7529edf05f10000000000d09dc30000;
     0x8b1c09dc3b5a9f3522e3c9ff38be5c23b189540000000000144cb3660d96906c;
     0xa547926eec1378c72173d73afff6f67e00000000061c9f36800f2e7d90ba023c;
     0xc4bbc466042b5448b8ae877f3300000000006a1fd4f115f7c56604c5962b2990;
     0x59426fb4ab9b660260c60000000001822e00d3207a1538f1a080b6a004eb3376;
     0xcb9f52a3eac6730000000000be420e003704f6e8bf1336880f46880bb96e6244;
     0xf9f3782600000000000dc755cf4a88aaad038f9b8248865c4b9249efc554960e;
     0x16000000264eb62cb3ef64af75c3aac5b3b428d2ba1f04e194d35660a5820000;
     0x00000826299e00657d865cce807ac823da15a4fb1df30aef83eb1d0000000001;
     0x88cac1696e291104e658f58073cb8c92137bc38d5938bdf9000000000026c962;
     0x098d167435b1de223f4933532fceafa0f24601a67c00000000029b4a8fba8f49;
     0xe79e8286ff58cbc114416c0df407880da26c000000000389b2fa70a95e35672d;
     0x791c54e4fcfdae52888bd2e3eace57000000000005f14d20dca926ea86efa699;
     0x1fa7eac8466b848b4f5182a5010000000813eae6e0afcc373acd784edf78aa52;
     0x0663f7113d40e8d7e6000000010001fa400000000409f573700000000813eae6;
     0xe0b45f87391d7dbefc68d48e2526c87a84f2648a9a0000000000908a9040d53c;
     0x0ccd94640028082d3a650beb44361b3a9f9e0000000005434dab00d6ac3b190b;
     0x94d229022273b423caebc076aa332f000000000000989680deb98e363faa545b;
     0x777ca5b387af45ea0762a98900000000003b9aca00ee39e4430373bc57512688;
     0x5b5cf7185b5ee05960000000001da8b11152f37c6e6435515bce43a0792822c6;
     0x275a4af769f7000000000001312d0012eb384849f3b717a0cc346faca0e27bee;
     0x3b753800000000041314cf0019cbb770041f4eb52bf64997e331485401a65cc8;
     0x000000000066851e002870c479941364fd7ef5eb19f05a9ba6c8770f69000000;
     0x00006ba2524039d49a14c355d3286570192ee088460bfdd8ca95000000000066;
     0x4b83e853c229989dba30dc01a479ec5aef141130a5659200000000121ced096e;
     0x5c33ec026903fff2c427d5e35a664e048325084100000000072536d16297fe0b;
     0x030b0e3bb9e286c5f947cfbb4d28973da500000000007247ad20ac794620c169;
     0x6807b7b34f1702041d75326b36520000000009fe6d6b74e2d80b16017a422208;
     0xec2de85bff22b77185c3330000000001941e9700effb3bd733f048a7055d53a3;
     0xf9529cbe4f60b4cb00000000003709f740faa1a1699c69136cc98fd310624307;
     0x83df24a28f000000000005f5e10022038946c93a95cb5367a0d4b17d6f156617;
     0x466c0000000000009896802c89c00d0b2470ef6d4ecf91856b2bb77b1b969a00;
     0x0000000138eca48036a9db1273b4e43126a1ee65cd4249fdf3780fe300000000;
     0x013e49ef00566bc15dc9de58fb751fe155d6622dcf8c7283e000000000003c4d;
     0x6d10704bf66340d3d884ec6af406e354692c49bcee7800000000087f7b10b174;
     0x6411006cad075ce6f8c66ac42048ef81c6612b0000000000cff588988589ac76;
     0x5cb763bb8c5369a6e72f146d80d441220000000000009896809a1e7ecdc31678;
     0x86e1380373fccac35e435373b40000000000684ee180a33859e3aa51f2535921;
     0xe8c0ff553e6b3dd11bfc000000000079db2479aa543f0b248a0d70606dc2083b;
     0xd16ee4478fafe500000000006771a0e0c98f13531773daae71eae49f19f9b504;
     0xeb3d06ff0000000005283978f3e488ee9e2ff633565227e064fb2b8c55080b77;
     0x6c00000000015ca95c98f5e984c0e174bd86322b1c85d7ae9218f9b7f5bc0000;
     0x0000003fc6e780f763a36871e53e4a853aa7a86bed241df1d8bb4c0000000169;
     0x09f21ec6f8b0e4e8512c87e882a1d00a5979022789d77f3c00000000cbba106e;
     0x000cc92086cb2205a83a50cab9853abc367ef1ff3800000000002aebdaa01481;
     0x6f205bfa0aef472578eac86d280f91d4070c00000000027bfb4780038bb07acc;
     0xf595e7f4616ab62405eeba90a8abef0100000011601c202026149b477ffc32f5;
     0xf17f15985b9df73976fc6145000000010001fa4000000008b00e101000000011;
     0x601c20202c83bd300ecdc03c9dc853233736d6cb80f56eee00000000083aa6bb;
     0xb0378aca95f338af41314449be8e8f4ea0a8e0a52d00000000041314cf004094;
     0xdc0c8376d6514f9710894d637228355bee510000000000d09dc300463dd84365;
     0xd39aebb8eb9fae59182a564458bbfb00000000002cb417804fa92faa9b2bc664;
     0x0d30d44d479e75bdab31e82d0000000038d880faa07286cd2bfaad56a96b0899;
     0x2fa301b3d6244a160b00000000061ad57300734e550f02f1434c8acde94fee51;
     0x56c18e73e2f100000000035e360360da79d2a81404e24f56c58cad2d5e10ff7e;
     0x403d3d01000001319718a500dd468814ba5e31e191ca6c4621053c75f6ce7a7d;
     0x000000010001fa4000000098cb8c5280000001319718a500ddad4970dcb89dbb;
     0x92f2832603da0299ceba334d0000000003e56727c315cb035ec98c9308d61b81;
     0xf083b0dd2658ab20e2000000000a2fb40580208a18a517690fdaecb6a1598684;
     0x0d60534420680000000002716e52302edf89f377b2be233ee52d99616b2a2a72;
     0xb8e9fc000000000485d1fa4035d6168ba468d2647dc12708cc05ede8d6ca9f86;
     0x00000000054319335a3f5c042618dc7f909304c569252d324f4eda6f52000000;
     0x00174876e80043c27686a45242b4676a921cd7c035aa135cc7aa00000000032b;
     0x0c296853a87f9221c494b5a51afc9e2183016b0753deab00000000041314cf00;
     0x5bdf1aeae384a73f5df517811f9bddf4978188d00000000001a13b8600651dbf;
     0xfe7f1a91cba9b543a4c03e04a9a55d74680000000002da282a80745e3112286c;
     0x20b1b2e77dab44f12f2ca39df3b40000000002540be400bb5049c1620eec2528;
     0x5e91ad1273713eb892def90100000000f49f98a08a417d7cceb41b0084356247;
     0xd2bc0cc3f7fb3464000000010001fa40000000007a4fcc5000000000f49f98a0;
     0x922c87ce587cee6e2fe267d96a2694087c9531f0000000000169f2ff2099d4f5;
     0x9149e927309ea7b34511732021d581e0080000000000d09dc300b3e86242d194;
     0xff7e8377a7d9c7e0b1eb326e35e80000000004cda8e9bbbadbb3d93160e90612;
     0x089080676cbf3357094ee50000000004f689cb0fc764239f77e8079604bc29ca;
     0xbf24e0a703fc35ed000000000008647000f496da3417067b60f57f2785e26303;
     0x4f11a739310000000045d964b80014c804c4d80bb639b32f01d4d2db5a4fb29c;
     0xad6e00000000054c01738018aac26dbe5c54d6fe502ffdc0b2e4fd19df9dde00;
     0x0000003887b48c684ef39a468c406939e5dfdd3336c10f2d69b3623200000000;
     0x0006307900535edc85d7b5d0eb0c2d433bd7f42b8ccbd0e04700000000006553;
     0xf1005ed2d51b9cb3bed909766eccf13c1528245ca49a0000000000684ee1806c;
     0x25505e92c2a7bc30a6186e7d34bca8df424de50000000000009896807ba8904b;
     0xf4fd49bcbcccca76820cefcb9f37d31c0000000004a817c8008ba80d6bbf3f7d;
     0xa5fa25c5a3b7733b27209883a40000000002da282a809f39d2e6d3d378cce91c;
     0xbceefa26dc1322fc99fc000000000097595b85d3c6cf68bb8d7b86dcaf807efa;
     0xc3e58baeebdc960000000000d09dc300e3f391e961efe25b7299383f01a0f07d;
     0x8be983c7000000000f177bd1a0eb4426b6fb46957b3a2f2151e6ae0777cd2392;
     0x5f0000000033e92750c0f14220176d02916c3a3770d85f3ead3f2469330d0000;
     0x0000105558c706fbb60f73c5e1e0e7d1e6413f8eea28cb62a449690000000000;
     0xb784693203274715eeb0dafcc92d49b3d5a242b95d2ef7b00000000001583781;
     0xc0097ee4758bc78000f27fdfbf91d1e70b6223d493000000000549b036fa1b3c;
     0xabcf7700756534fa7ada8cb92a589aae1a010000000000684ee180187f6a5baa;
     0x47ef0989c761ea95819aed876a01cc0100000022ecb25c002957847390b1f556;
     0xf3763c15416e8c6eccd7f806000000010001fa400000001176592e0000000022;
     0xecb25c0054c67d869528f5316f8fe131cde4760353abe0860000000007aafbb6;
     0x53639b82c4233b77286a1f56bfc2366bafbc81fbde0000000002d3011c808275;
     0x4f448f81029a7c31f7927974416b6058eeaa00000000000e4e1c008722ce50ae;
     0x2b4c8263ca8644a0905633fe7d290100000000138eca480089445dda013c7e61;
     0xd08f51525cc7c10a0d84822100000000070cc9f1358b9aa1b77a7f43ac2f4d94;
     0x4f74f94cb216c2bd8400000000003cf85a5e36e7aa58567373e516e4909a013c;
     0xf35adf17df8301000000037e11d6009103403910061e89416a2b09967b808551;
     0x3d6a99000000010001fa4000000001bf08eb00000000037e11d60097917c6c5f;
     0xee055df152ce3da0f80ff12c5c5d630000000001487b2fc09c973d17f24b1fc1;
     0xd66a8a8ab4a81d7956548c1d0000000002b71d9e6cdcd4929eded73064f66838;
     0x3c066639404bb37ee100000000002cd11560dd22889ef7e7e8109b7d02c1547a;
     0x2c175781ffbc000000000e054c0318e03c8ed2e789f9edae8fcf3590633bb2b0;
     0xa565f700000000092928ded0fcb1ec7f993f561a04efba683b1651528e3b8cac;
     0x0000000004d0917146fe16b1685673c16e23cd7d3cc37dc57748ce025a000000;
     0x0012eae09c800dea1e2c69ac5406e3bd96a7b9494b27467ee3dc0000000000c7;
     0xdab8402e37d28d68c051ed05fbc77f90119eccc1de30a400000000003d268159;
     0x5195f7a76a62aef990a6c5f57471461ebb507afd00000000104c533c00711877;
     0xe8f5698feb433e08fe1308dcc30214ae6100000000008f0d18008620edb7e37a;
     0xdf4d2d009b1d899c8e2c3166f6210000000003810cc680942fbc821fc838d8b4;
     0xc709f96f2cbad0778dcfb70000000000677bed98bab41249fd4f5d93c6adc4b9;
     0xc90fb999642f50460000000000cddf79d8e90d2910d5470795406e208a0e2382;
     0xe00727e57500000000072cebdc900063d97bb3effdfede3531aba9fd08810364;
     0x658a000000000091b097a21270243c0180f90be55d108d1931f51671dd57e900;
     0x000000005de598f529ddc433e00a7ff1b5f3c7293131a2e037cbd95700000000;
     0x0023c346002dcd2c604fcfe9693163210c06cfce950ca28667000000000002d2;
     0x1d3c3405b896e66938e31ea7b4f7f2401a9ec10a78750000000001931228b649;
     0xaa45599fb5491b9fbd7b76f21214291efa00ba0000000001df2cdcc77067e83d;
     0xef38f58d770010a42ae1a5af56b16c2f0000000064eac7e3a577f8d8f58e84b2;
     0xc67da226280951fd003f05b7eb0000000000b2d05e007cee418b519c1ad7082a;
     0x8fe3e11a7e13ad93c3be000000000010a5266e92070970cd4e5853132baa7d8a;
     0x0ce4868824a28f0000000000684ee1809d241b99e72e5e2d79e78203189bf40b;
     0x3b7952b9000000001256a11ab804b9962dee342eb7c04b34627ab2a0e42df8de;
     0xa70000000000c708c7970c440093a95657a1681212fa5472c7fc2c55a1d60000;
     0x0000004cb4965318470511b9d7202748fdca49dde600534b78cb420000000000;
     0x27a318401f421926804e064ea68891eccb439d31688864d500000000008b874c;
     0xa0222ce938995fee24865d53a28bbc0debc2ab70ef0000000001ac9fe80d2d2d;
     0x48f1972d3353c2a4469d6bf0b96c3f4d848d0000000000d09dc300442b49c889;
     0xd9ca76100ce0156f2a69a8c4b1ffaf0000000001dcd65000459a88c660f2a04b;
     0x819a1a5e318c8abb41c955f2000000000059f5933a481c665ac14b52443ce2c4;
     0x19283c78c7b6b6444000000000059e4294804999a6eb6a2e6cfa88045ecb6ed4;
     0xd5f6e32ec8a1000000000271d949004c796111f3cff4330d4a6c52964dac7482;
     0x2e2a2c00000000015e2b21e35cefeff1347f24fa7c87d8e898cdbfa12937971f;
     0x000000000066be5670647499b150702e872d1990fa5d28ef64efe5b97a000000;
     0x0000009896805ac5d2d01f8ab891ae8281262b406863c21bd3de010000000cec;
     0x0ecb00b80a400d569c1e9a164af334e53ddee55f787170000000010001fa4000;
     0x000006760765800000000cec0ecb00bbb805b0bd9762607a15f231bd7291f6ea;
     0xe806930000000000382c1ceabd1cb7963577c51072b1a31693d674e282a3d433;
     0x0100000022ecb25c00d66843fb6ca5d7f9e469046f2bf90d691a1a7ad4000000;
     0x010001fa400000001176592e0000000022ecb25c00df19f1de808813f2a45558;
     0xfd48e35a78cad1179b0000000000bec6ce6026d1ba1af29715657f459f4fab25;
     0x084c868010b000000000023026d56e3eab0d0cc412705a42409ebf5b7feb6589;
     0xa2fa720000000003941fa1905d6efa1ba31887de42c2fce28035c300f3a5bffe;
     0x00000000000a6e49c05fa4c476311b91b28f3d21452384d9248bd41545000000;
     0x0002d934daee6384cd77f1ab6e23dedce9b45cfaf9f8a1c6ded600000000002b;
     0x6c53536a664f46a6a491a7e4876c1a9f8937c3d1c9108a00000000196bdbb206;
     0x7e9f9bb12e0080536813062d030d8db6882c67c200000000001efe92008addc9;
     0x28d4f72f012ce59a333515e6027972ebe00000000005e40933dda3a3747d33c9;
     0xf273ff3ef5eafd2192b8348259d70000000000e67289c6a86d9afb40bf333c2c;
     0xcd0aed804f396ab23dbeb50000000000d09dc300bcab74d57bd7b5c33fa1f6cd;
     0x18d72235b8b7edd80000000000d09dc300d8cf783a965d0f8d6b36dd50be7274;
     0x8e65f4d91100000000000d57080cf7fdf7b8743b3149aac39e7b315c1458c6d9;
     0x610100000000192739796fff36f6c690d24b8abaa57484ef3255d2c3582e6300;
     0x0000007ab13de879ff6af7a2e5dc70105f70f408a8eb59a30beba88800000000;
     0x158a8a095a06baf3a6174dbf36fb017bb69fa0faf3fe020f59000000000067c9;
     0x5dd019a980683646391210514144141308d73e97632500000000006729263035;
     0x1880c1e5cc48d65bf84e65f92688197b5f51110000000000d09dc30041f55d4b;
     0x8f2386da3fd9ca5d4c2546443675e62f000000000000a7d8c0424194f927f7e0;
     0x9701b4decaf86e2167b4447a2b0000000000a1ad772056f65d98c9c570d01903;
     0xf38052d90e037149438c00000000006d86066064f4e90f615af5ad44756a1802;
     0x6c2d5123f646aa0000000005b114f72f9379fe8ad815b1e7d2d2656d4b2d70c3;
     0x7298e99d0000000000c861d62c9f442dd2d5984a7b4a3b9e26a08edea5214eeb;
     0xae0000000006bfd4dc10abe298ae9d97ffce3dea2292269bb73bd23467890000;
     0x000000c069209cae805a939846f35a3a7819313b99fc08bb612f4b0000000002;
     0xa600b9c0b5635d09cb4aa4e53e13c8a83a3cbe78770b2ef0000000000a2fb405;
     0x80dd01a614aa5a13128850d70f9e3011897fab6ee80000000000c62f7940e69f;
     0x607c7476b2ad550afbd073461445f8c54274000000000022368b80157c491e02;
     0xd205c7f3424d8a9b26c2a1c0ac863400000000025be8fc6031fdc0eb3610c71d;
     0xdccc7c3e70dcc07dfe5e730c000000000c8c1824803bf0136b71def36633c162;
     0x82d353b21a23cb04e8000000000c0c591c2e449b7c6c3f42f66b9590f3ec3ed7;
     0xd589a193633100000000041314cf0057df59ca6552f02e716fc268b60cf96bb6;
     0x45a3b9000000000066bef0f85a42a905eb4b92852a08bf0a9a0d909f9b3e497e;
     0x0000000000b2d05e005d28045a2ed817dea68a2bfe9fcaef0bf85d382f000000;
     0x000251afa4807d5b7f0bffa087122bf45bdd721c4234bde79deb0000000001ca;
     0xaae4a1619feebb031c22928943cfef49a2d43d122c6f2c01000001977420dc00;
     0x7dc5ae35322d2020e9ef8967781b967a99a95bb8000000010003f48000000043;
     0xe8b024ab000001977420dc00ab409b4c4f940f1ddee823d14aae442738b20c1d;
     0x000000001d837fccbaae73f605dd7829ec34da93000b294aff06cb7b10000000;
     0x00012bdb2730b67e29d613bbf23c22aec19083a1f7d97e4ac0e7000000000f7b;
     0x90da00c08186503c5968e4f96c3177c373084fd1a079ff000000000082bb171b;
     0xc952e94a189f0d8b9752e44c1916cdade1a3e5970000000002098a6780d6ede1;
     0x41274feaaf7b59fbde74ecb953c71fd688000000001c0ddebd2eea62f93ddc2d;
     0x5ab754fee4cdcc8a638336ecd1e90000000001097fc119f29bce7a79c869d126;
     0x1ed2614b8c2f8827c340d70000000006f7ab4340f30cfe8c502769c165440db0;
     0xcc7c5f7bc4b13cae000000000044babc2a1c7b254afde504141efc1278dd7e1b;
     0xbae63177ce000000000035e05a7a25085ad333036c88fef766b0bf845b8237c0;
     0x9d720000000000d145fd682b391bb997557ee5bcdd806f1498b4cba88defb800;
     0x00000001348935de323f39b08a69e07dca65108bc46dedc041965e8d00000000;
     0x01c8d55875362ea31baf01030f683309ae91a72f544192436b0000000000d4c7;
     0xda25600fe8de60c12045941a8f8e29df809d1a5945fc00000000019268a9a070;
     0xf2d8f498f29022b45cd98db8cde1a331bec214000000000008fb877f8f519092;
     0x85939306d53f5dd7a010cfc8714f13f0000000000171d5135aa9989821685466;
     0x262e6c1fbc09bb1c1c2d5cb94200000000846c244780c3d85e9db6b2ea524d74;
     0x1f768f1f9d387d6223660000000000486c2d39da169db24ebe463b2f3f399d25;
     0x06a281e26490410000000000d963aaf6e931e73605b8e015aafa46c059b4c938;
     0xa5565e9000000000003296e5b0ec35402e0ca22b1ea85298eee177bc49e90ad1;
     0x060000000002bc75d8e0f0ff58e6ad7336ba2769a0e3d66114f4b5363c0f0000;
     0x0000005089ad00093e43a8f5ac3c5b1afa63890227456a6472c6c40000000000;
     0xaf3cd700384f5f4bdda58b7ee33e141e556545b5e8f384ec00000000002602e1;
     0xc348b018f3532d7e99b468824458741eea99e14574000000000bfd60e96d5cfa;
     0xa0f9b07c01539f475623e41ff970c6d688210000000002ee6c278077d22c2b30;
     0x3d45abd277640f47439434481df51a000000000015e79ae095616f96f7fbaa08;
     0x5a2b9b389051efcfbdbaedd900000000023db1d840a2aafeecf08839f7ba15af;
     0xfe137b141ecd76efc0000000000254a47a80af10f4e2f543e73871702f481464;
     0x9e5f82ea4062000000000074d33a00b0448459e5bbb18941381013cf4a15dda8;
     0xd0d6070000000005d9992f74bc3d5f818bb289e2d0243fa957bc1c1926f5f623;
     0x000000003279b0e180cd624cb6661f64b7bb204a927a9d1072bb9c24f9000000;
     0x0000826299e0049d58ed26a452e6e5dd6d62e40451544bb50490000000000068;
     0x4ee180459407b2763cbf4b77b303588e19a7f0f4f3601c000000000014dc9380;
     0x567ffe755542bb1ecb47be61d03ec8441e889c6b0000000005602e5024582ae3;
     0x12177dca3adae38ce582a4988bed089219000000000067a6a7188d09f5b96d28;
     0x0c1dab30ef6176838072f5e835b70000000000d09dc300a3c6b754ba760c2ea0;
     0x5f5787e8241f3ed760a36b00000000000e9a6740a754cd3e92f61d24f487a63d;
     0x4915aecd09596d4d000000000342770c00aaf9d78c7d2ac10e958ce543b9591d;
     0xae5752d2e200000000043ccdf600ab6dfee4bbe68b983ab47c4b4588d8e36069;
     0x2eeb000000000059c8cc07ca3afb38685f68757670c1b29b84c95e071d531f00;
     0x00000000217ab022db1be5f6bbaeb6ec78736a750b3d68367ff5f82b00000000;
     0x0000989680de0086b188032758faf4dddec921e3f16bcd798a00000000020ff4;
     0x0a4af1948fe53bb6adcf133b60f1eda8691b1e5c832d01000001977420dc00e3;
     0x36165bc6a094ba3a02d9f330f3a1815a499a14000000010003f48000000043e8;
     0xb024ab000001977420dc006152c081a3c42784b9f8ec51f3120a9512ca12e201;
     0x00000015b822c680f0d90cfb9ac370b445cc4b3b10632d6e2cbd89d900000001;
     0x0001fa400000000adc11634000000015b822c680fd65e5744fe4f66dc4d504e0;
     0xfb988d3dd3afc2b0000000000012c684c0041e573a68aaf6f63d62277a93470a;
     0x2db546c42c000000000ac4b6fe8010aa81a18582cfea054e997b5f65cf4e1a77;
     0x983f00000000012a12c3401a255a972b52f4e990bf60ef8bd45edfb2c5d88300;
     0x000000025b278050226d357f4a31310827c8160c6dc8bdc6a1515bce00000000;
     0x00684ee1802fe1c2789a0c8c9c9618a05246d6f59a3c9919530000000007c632;
     0xf7803531e14764ae2efe80c5c31556174538f4a5d4920000000022f89e1e0046;
     0x0cb613327ecfed969f25b9424e3864eb9f4e64000000000068029640473d8a57;
     0xc741396902b3c7454b27bdd0d6a134ce0000000000209b2b0063a34a9fbcef1e;
     0x62eda4711a62f2c839e89d4b87000000000000989680645ae642aafd3e62787e;
     0x75b8bff980ba9513ae4a00000000019c2518c56a30ee0050b9c3f7e29acbe615;
     0xbcea9498c9f5200000000000359efc6870b58b43e2a44d00826dbad5d543c1d0;
     0xf41e0c81000000000267d5ef1078761282c37682b801473ebfc649a84053493f;
     0xa00000000003810cc68079d202f62c8d05c89f13a461ffde25f0c705ff590000;
     0x000008d0c2357c8b0648f256a086dddccbf5312aceda8deb811d2b0000000001;
     0x500d0d80b7816b642fcfc7fa3bd0403c661eca855710faca00000000041314cf;
     0x00c7f9cd94923b41b3ad4f2741004deebce12a05ea00000000003e95ba80d7d3;
     0x40f7eb7b65caee23abb154f203f3e9246e43000000000191836069e4b1114a86;
     0xab74616ea9b7b825ce15931bf1e33b000000000039d10680f4fab2abe4aa1e8c;
     0x7da7f82104f8514d48a95f440000000000684ee1800fd4b3eab9ba7252380db3;
     0x57951659712fff5f0500000000001296bf42259178933ad25f845a032f10204c;
     0xfc1d55a9b88f0000000000579e6b80299078dee7c2dc448f1c6e36b5041a0b9e;
     0xf674c70000000000cbb6b9f03fdd114fddb31693c1c81e839f3fd7299a63f016;
     0x0000000000b6bc45226183604cacd1834606a771ab3700ee9804fa335a000000;
     0x000009e8c610680777a5cde5cfe0130dca0c73c8f0634a52f289000000000068;
     0x4ee1806f494e6b2a717fc4ce90faca520e75abaefaa49500000000000bebc200;
     0x79de4495619e83ed63607d71dd65bda41e88508500000000007a3fc6c09a77f0;
     0x787f78fcb35b557320cb8e67fa8021b72300000000000ce90dc0a5507bd6c799;
     0x0a7cbd7d62b34baab39ed0af7537000000000002faf080aa3b23342a0cbde043;
     0xac0c4f3729984881ba6a7d00000000006bf57b50d5c19ad331a048f00305ca80;
     0x4cd2dd2e4226294400000000012bdb2730eb2426afa3ed909105bd5a29050d99;
     0xe646ac42e9000000000513493000ab3dc5715bfb300493cac91e99f9f9b239c6;
     0x809e0100000011601c2020ec74064fd52b987aa391c8f112d5b5fbfd13e5a300;
     0x0000010001fa4000000008b00e101000000011601c2020fb6653c85ca496cd0e;
     0xad67549ba43b01fa192b0000000000000cd47450956c10a45f93a6f1551d2d43;
     0x36ca7b7aef1713db01000000517da02c00466e5f891b5693eee6b7514cd0d4b4;
     0x1b1c9c8161000000010001fa4000000028bed01600000000517da02c0056468b;
     0x3666a3794f544f8b480d73065c8514d5790000000001794c22805d45e7c7f599;
     0xf2fbfae955754b420c9aecdd89e400000000001f4add4068812af6b461b8fe24;
     0xb10458125c5f6a64eeb2d30000000004b2d1cdcc6aad52f4fd213b6b56724329;
     0xefd2fca167becbe500000000005d81fd0077931b44c96c6abe8a5bb92be70368;
     0xd91b7c9abf0000000015436e5f2085ecf7b47e236ce13977858dd7d20ef26808;
     0xcfc70000000000037502809d1d847d53b5391b92fc814860870b50146e6abc00;
     0x000000042b091bbe9e2defc01f109f39258ec99ec7cf1f40d69fc89700000000;
     0x0ba43b7400ebcd43eee1bc3e65256db7693bf8545b6460a6f900000000016c09;
     0x0de0ec06643251ebc320a967999091f5fd6d921d957c000000000052a0867af4;
     0xda56a25f236be6a272e02b864b9f59e04a1f2c000000000d722b1180fbc1f648;
     0xa3a3397fe9e7ac927cbb75a0a5bf7ccf00000000006959e8e0fd3937027ff09c;
     0x5c295d3ad9f1f9cf84a6322640000000000000a7d8c002e8105822f3b7039d3d;
     0xae5afc34aedeb2b0186d0000000000131d7e6003e7bfd63b373b4ebfd6b2e078;
     0x287cb55d1dd8d2000000000e66690220179f9df528170f8c191a9e1a8a09487f;
     0x80fc972a0100000015a37707000e4efeceb2111428012ba546ee801c88cd8746;
     0x28000000010001fa400000000ad1bb838000000015a377070012a84058cba3e5;
     0xa057f20ee0ea9571a69b954cc800000000019781eb421523dce52fec5daf966e;
     0x2a601437e889b5f7113f000000001732f1c59418475a184a480ee8a66e2612ce;
     0x1290cef16c569300000000000098968019a96168b1ee3f698868bcc79ebaf81b;
     0xb9bec7b40000000000a43fc76b289ce62b7c304d03373a119fad3170b6f12304;
     0xd1000000000001bcb7282944d33c958455cb5341a730564b2c7a493f55010000;
     0x000006521a42452d63176728c9941684367c8df22269d436bd530c0000000001;
     0x0c388d0032eb8d34303feaa007ddab51d4eb34171f09b1950000000000be2198;
     0x3c5fe88b77e889616aa0db5f83cb36bf0194ab85b4000000000342770c006228;
     0xcdb46cc1e222543c1dc4eb2d1745b5819ea90000000000684ee1806357a04c1c;
     0x2cc20c58148d52dfd177a160618a2a0000000000611f24cc7f53858eb74cd1bf;
     0x7a2b4d874c51b20bceaf5fb5000000000bd4946f708807f24e7c64452646bd62;
     0x8571395ff82bf1990800000000000a6e49c08ba9427c28734553483aa2ebe8d3;
     0x8527f15d78b1000000007a3c704200912a686122e90db31d11d8b717f41585c3;
     0xc810fc000000000260432d03ac4e3afe4c75cb13e14f3d2c456c0c6678f89f4f;
     0x0000000000d09dc300b23f2135e4efaced6b4ed0ba673d6206c61ec719000000;
     0x0017be2d0647d8a3647b318d415c7bf0f909c5dd311495847c7b0000000001e0;
     0x69d700fa0fa85982c8fb0d5f16d8fbe9e343c7dddf5a4f0000000003d8a07c27;
     0xd12e0f24ce0ba902afd72dd02d984798da887a14010000000013ddc120268ee9;
     0xcb7a2a1b4fb10a393163ebf1bb253dca94000000010001fa400000000009eee0;
     0x900000000013ddc1202d9ed186b202ee438176b3709944b357bf92df2f000000;
     0x000271d9490032af6e62c122cb08884575a65ff43ef239b25e8a000000000061;
     0xb1367c39bcb6acbc6eee0f0635e3dc5d5c82989fd611d700000000039abb75a2;
     0x59c1ccc185ceb45ea42b0616f3e4341142c1ebd30000000000bc46f97f5bc099;
     0x5dab943f099b3c7d3ffaaf326da41d6f4000000000016048e3b063c222d97773;
     0x83d84a3e05eb26d1e5b102aa33d1010000000135f1b40070bb852483af3e2fc5;
     0x65b57a212e9578ec994a0a000000010001fa40000000009af8da000000000135;
     0xf1b400779d078c97e399ff3e52e066aaa7a4305faf11740000000000d09dc300;
     0x8710d869ee52f5c896c6af48db885fbb3686e6ac0000000005600995df68093f;
     0x5725070c6af0e5817c61c900fec0b7d702010000008bb2c97000a68fc5172d94;
     0xb2bc17b7346699c526b8f7898d7a000000010001fa4000000045d964b8000000;
     0x008bb2c97000ad0b04757f1b11b2bcf0a3bd9d05855250abe760000000000209;
     0x8a6780d52204dfb45af47d9aee040d4dfd4ee659f59da100000000027863eff0;
     0xe4cef8a2a16fac1ce26f58251cf526c2d1603da90000000000342770c0ffe48b;
     0x4932ebf98ffed0792093c63ac9e392d78c00000000009b55c1c10a5803bee8ad;
     0x8dea076e2b820b4050cc07c11b810000000000b2d069972b45c6ebe69bc21091;
     0x8305ca332663c8d5b601570000000000fe24ef9e2cda63f1dcd0c29ce7858c8b;
     0x0b5b5992be728a930000000045d964b8005411e70d7794cf3858ab0b2ade8f56;
     0x7601ec5dae000000000148d407f655cf7cad4d0381de9a4837330efcc2031fa2;
     0x3d3600000000061c9f36808ff0922102bdc7cc16c19d1bd8aeeb46c6d6d93c00;
     0x000000018046075a95bbf0b6d3421ee55e92a0f98d1eb50968db4a1b00000000;
     0x005c221bd7b3163812dafb225481d1e10c1adefd3ececfee890000000005d21d;
     0xba00e794b16f6c357c709eb1f7a6d761e69b34066e6300000000000c09eba9ee;
     0xea944ec3f39c781ae5cd867828f6b9451036bd000000000104c533c0162d306b;
     0x7e2467925d01e56747ab35ca1f35ce2f00000000023bab1d9318c52ef7b5bdbb;
     0x20c6f82d02e7e037e132d043b80000000000810914511ae15fc742ccf87ca80a;
     0xb63ac2e2192fd46b4e09000000001aa8eb73ec323a47584a5297d2bb2240499a;
     0x6065c8a3e4f0e80000000002da282a8037b993a060b384f80ff7942fc3e0dd3d;
     0x66f508de00000000012ea32a214fabbfdbec3e15ead1fe20abc21d649ad0788d;
     0xa3000000000166859dc05520534190a86d58bfe8bf23c248558c4ba2385e0000;
     0x00000950372c235eb163db0265319f11593250db03129b2f70129a0000000001;
     0xe34b62bb6415bdbcdaaede689fcd67ac780e49361aed3553000000000192dfed;
     0xb6683bbd5baeeddf706096174a8a76df6b40fbf33b000000000ba271b0809331;
     0x39a1a575f7ef5266b94eb00be18b23c25c64000000000017b56aeec024711c86;
     0x3ddf881329360119c5863621f115940000000000ef409bc0c48cb67268a855b7;
     0xa9246b2f20958339e1a0143a000000000103d4e050fd22702dff32cdbb481176;
     0xcc36e1b9ecacf6786e01000000adc114ad600fe2000f5edbbd459c78604ec9b9;
     0x23b56fc7993b000000010001fa4000000056e08a56b0000000adc114ad601f4b;
     0xf8be2336827c8a874954d55d3638885d417d00000000000a5765fc25a11a4ff3;
     0x08fdf2b3b382462a5348bc928c9677000000000be0945de032396c0057675a55;
     0xbbfb4f0a8d6b93f60365001d00000000001f26b9402a10b1a406eba1fe97b70e;
     0x22be68e54bceb3ef8f0100000006e76bb78036a76acb41687aa1ba4736368b75;
     0x5f7e997cf64d000000010001fa400000000373b5dbc000000006e76bb780473a;
     0x25a3282f348c5f42876b073222123fbff7ec00000000017f0fa8e07449f076f2;
     0x87d58f07cf8e1933f51661c60e13b50000000005715c2b388294f45b6cba5f3e;
     0xf5c844e4fcb3974530e914510000000001a13b8600aaefb5e58b5010a19d1a36;
     0x5a8809e19aac82de7400000000012ae79b9cb26ca3b059dfa1d451092034cee0;
     0x7c52c552230c000000000236e34a80d27b0ea419ff6f6862bc92188120a1e456;
     0xd31f21000000001e1704cc33ddc43f752f8f596d2b3a5c6a15d8433f55fcaef9;
     0x000000000d0a1be77651e767ee66507e237e184cbee1a162e7d1884548010000;
     0x002b46ee0e00f962d255fb6c8ba06b1192f7f73109f5df843ded000000010001;
     0xfa4000000015a37707000000002b46ee0e0003d2fef7e8a683125c75d355a6d4;
     0x2317dba073f100000000000ee2e814f095219727aed45415e36a2b5c19fb5029;
     0xe89e7701000001977420dc001144fb0f59a1ef7da03ad76408fc7d57eab0e7e0;
     0x000000010003f48000000043e8b024ab000001977420dc00279546cd3a5327d1;
     0x54ff8860b3e74c748e63efac00000000007444c5a4282787e57f03ad0993d88e;
     0xf704d6f8b63d4a1dd30000000001248a23003bc7216922db157c5dd2194e797e;
     0x665f68d71a9b0000000000d09dc3004076f4bdca02961be2fdd607780d941c04;
     0x509b8e0000000000bd5cc160ed324bce36b78c66bd9aea0e001dbe4cf1eb8d05;
     0x0100000009590c8b6047488d3ec1c521b448495d27117cb60bffd0fdd2000000;
     0x010001fa4000000004ac8645b000000009590c8b604c6c13937e9941020c8404;
     0xcd9bc299290792bc40000000000ae2846380609393725d1a32c6ef9e808b5376;
     0x2f1ef10805a0000000000138eca48062243ce8e78e7fc31e5e2d15e343c514d3;
     0xea36e20000000000684ee180644237da413f40f5416b301dbd21a31c91bcdc8b;
     0x00000000061c9f36806ee6119e0b6585292ad34a71299316a482f49087000000;
     0x000931c5df1e6fb3b4cd6052da5627ef8ef0090ec9790a432b1f00000000016d;
     0x75832d3bca276c437c1c17a40bec0d2c51bdba4f5038ac010000003c967fddc0;
     0x72a2a2f97cd7864f6cf471dace59981747cb13b1000000010001fa400000001e;
     0x4b3feee00000003c967fddc07ffb764c47c1155d2b87be7afcd57da26d673cf0;
     0x0000000000fa0b59fb8412614ad8113a5d54c5ef33b07a6739d99b3d13000000;
     0x00003d4bb822a8aa654e9506e47d291a219ba6327c6af6a18c4f00000000002d;
     0xe6cb20b311b33c9dfc5df0e8178487919402cd4523a28a000000000188be036e;
     0xc0119fe21e835399cd053571175bd995aa8ae8cb0000000009e79b6e9ac75491;
     0x0da42fee00eb84210e68989ee3c05a2b8500000000019f71c2803fde33e53abe;
     0x41b5c3c63c6cb641de639ee3ac48010000001a10296ce0080eaa9aa1fa175cee;
     0x84a62b135b81c52113f2f7000000010001fa400000000d0814b6700000001a10;
     0x296ce01017c3c6defe88a022660daf01f4aa124506bbc700000000054c716581;
     0x212e0e716c52c0f54fdb7dd8bb0b73d5905a7c7d000000000051a88a80480def;
     0x76f9209e5860ffbacf8826508140aa993100000000001f4add40593063f464fb;
     0xd6744d78f620155f6185fee22363000000001921b9b1006d1ba9eacde5cd41e4;
     0x1dbaf395bc09caa27fd1140000000002087f60207b0cf6313e1a18ea8c80b7f2;
     0x246d9da11115a39b00000000030836ab4489dcf37c39a593fbe93b7dad9be5bc;
     0xee95f244b70000000000535c28fb8e8f7edadd6c8162372bdf69f8c2af59d774;
     0x9fe7000000000b4725510fcd5fb59687fa21f09f82d2c392dd64965e4547a800;
     0x00000001959bb2a0e5a394c4fbb99739e6125e5bc9c3708aea10880100000000;
     0x010d0f8bed0a859fb3dce8a824a25151f389d0a72a53627f95000000000001fb;
     0x5ad0149ef8aaf6d2755f6fed9a10ca123ec999952af7000000000171c5b67021;
     0x5e273f29f6f0ea0f048d60ec602614ad34d6120100000022ecb25c00285fa395;
     0xb7bd1b1303f3e5e75d0142b3ca5f3935000000010001fa400000001176592e00;
     0x00000022ecb25c002d0f2ca4ffb222e0b45bf7cac566fdab8100e8a700000000;
     0x00342770c040bd4f62f7cec9c2588ce780909f9b22661ffd2b0000000000684e;
     0xe180435b54f40121c8ffb4500fec9b0b1c72f361a64900000000041314cf0049;
     0x37079ff49769a3a4a640609ead7c192f3d3d8200000004e5af8e5d484e976856;
     0xc089b5e855d456bef4bb5562c5a2b366000000000b08a024f35b792852421a2c;
     0x3cfd1bc2cb769bdedf4c535c10000000000053efad21855a4b220698d4f6ab09;
     0x6b01f37ab4305307cc39000000000a58d1d416867b2ff89a0effcd9b327368ae;
     0x80cd995be16aa40000000008bf7adbbf86dcfa56464d00d5c2d5c1c25359741a;
     0x856f15f5000000000080befc008e0a8e2f68e8084d4bddd3ba8421428670f1af;
     0x180000000000009896808e7013b7f44732cdc8ab2e5cb31e2737e02278b10000;
     0x000001fc72d5cc9162443606feeb4b57705d90ef324e01139dbdcb0000000000;
     0x34dfcda9bd759e714618b5ad4251ca073e35e134abf629bc0000000000d09dc3;
     0x0016f9abb72ba6141b3b15d5633114fa493382987d01000001319718a500c7f5;
     0x0beb51066e5def28e1f49d98feb72ae0a631000000010001fa4000000098cb8c;
     0x5280000001319718a500c91adcbe5430bf9d9f5cd89311fd65151b6f076e0000;
     0x0000001ad2fba5d06418511da16f8cb443f4b9999a36aec1d29aeb0000000000;
     0xd9a4284fc09391125573874e379f1f0a9297ca74ae7fb5e2010000002b70458d;
     0x000958e3590a269916569e7de9c631fcad6c6bd73b000000010001fa40000000;
     0x15b822c6800000002b70458d0012a967c749eea600a432988e41948980ec03ec;
     0x9e0000000002d21dddd615c10814895abbe27dae398311ac7a795e6fc9b50000;
     0x00000171fb1e501a356b628c57af3bed89702d904864d8a0d4dc980000000001;
     0x938a946033c0b260ecc2a8715cf7b7078d60585ac707a34f0000000000b1fc6f;
     0x003e09b20202bca4a7e45f4768808c6d2c927dffc80000000004a817c800476f;
     0x02fca635de0dcbacac55502ea75e1dc8366200000000007b347a654809e9f0e8;
     0x9772c6bd996794e0c31cc85e2854880000000001b618198068ee1c9a14a85ec2;
     0xd960c5b50af97e47bc89d3d300000000001b7125806a3a1a17b47f869f1250a2;
     0xc626508ddec86e84f200000000042422a740725631934f7c59bdb872d63f4ceb;
     0x34672c84e36b000000000015c9c34774fc44d06c5360721cf1570e03c791780e;
     0xf3159f0000000001aa5aa9a18800973446cabe423c6b327742f51da55b1f803e;
     0x0000000000d09dc300e446d4a5ad6f7299138b6b2a3fd56f18ea23149c000000;
     0x00007b8fb86ae909bab205ce9f86c26f3626f1fc91642bbecca1000000000001;
     0x312d0004d2e3a7a383c25ea344bd112e4d48cc284b833d000000000084914e0b;
     0x121a9af5c41e1921cab2319ee796a869571671d2000000001ba66d9c8b7412c4;
     0xce16bc1fcbf96320f04f9355a6a04e4b7f00000000009c765240e842a94923e0;
     0xf2f20adb087f524f81aeb105579b01000001977420dc0097489276ba44fea671;
     0xbe53943e6d0712fca587de000000010003f48000000043e8b024ab0000019774;
     0x20dc00a01fbb7a4ad8b3153e0d7eba045d3f7e0c09475400000000007f8dcf00;
     0xbd0c0a74a17a1382e6960e27f0d95ce545ca07e700000000040d1eee00c89656;
     0xf5ed3e4ac13f1013c6da5fc36472b38c3c000000000295b24077cc606a4bb273;
     0xe49a64603d037f083d97c22fdd130000000007d6f5e69cfa5b19d0a7b149aad9;
     0x6315bb432e5e157b2bb85b00000000005f10bf510039751a833f4641f4cfa4c4;
     0x2d1bd54adafedbe70000000000684ee18034d6aa3f06452d1e221e0d25e34473;
     0xad411170f9000000000005f5e1003df3ee2c1b7f33478563900fe880379b4674;
     0x3e8d0000000024322636af4abc5029a3f4697c1641e6c7772b4023a423215b00;
     0x000000003398ab2e5b760eb50f1d8740508f4e2fef0488fbb1e80bd600000000;
     0x012ffbd3007e1d6b23752bbfd423b426f57d216917f8ae006500000000058ecc;
     0x0c738ccff95c847f268899fff6abdf78ada7f1524f57000000000050a153b096;
     0x4316d13b7365589448efa2dd44d4c5db9eac240000000001759f07e4b0b275dc;
     0xca9a959a7e9c4c3ccc0e61344eff9ed300000000041314cf00d16c0ee40d4efe;
     0xfc349182d5a57796f5ec31a4d6000000000095957500d3ba323877c19e76fe5e;
     0xf6098b1e5bd9e913493f0000000001fc5e364058ec9228c514efaca08543ba09;
     0x69b145f1ab039601000000114f91cfc0ebd4ec914becf85c41585d50a81dcc0f;
     0x4bae4d3d000000010001fa4000000008a7c8e7e0000000114f91cfc0ef60558d;
     0x333e77839026fa1b0574e1b0f1e4d0790000000029ea5e4814f3a531509d46df]
    22%nat 0x87e058c2762672a51366c3ce3b000000000014345918.
