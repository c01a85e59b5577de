(** The signed binary expansion of the nonce of the signed transaction in EIP-155, with the slopes of the doublings and additions it takes.
    The slopes are checked in P_Eip155.v, not trusted. *)

From Coq Require Import ZArith List.
Import ListNotations.
Open Scope Z_scope.

Definition chain155 : list (Z * Z * Z) := [
  (0, 0xcb35b28428101a303eb9d1235992ac63f58857c2f631ee6936d3aebbeddcd1b1, 0x0);
  (0, 0x6ad2cb95963c033328d4857d4f8711deff557dd9faaa673b400442833f0efb64, 0x0);
  (1, 0x9693023fb325cc6c7bc993eb684358ea623d5feea8ff351df662beabd0efdc6d, 0x507c91e1644f2fa97a18a2d25744361310455a8629b1d15c1a03c1dcd202f6b7);
  (0, 0x22b7fbf9aef689d027abc38cac8261703ed53d39b6c0dc9fbb2f099c687c6518, 0x0);
  (0, 0x9cb40c99952c5623ae28a021f83de9b6d71740a42a407ba075d798f643d692fd, 0x0);
  (1, 0x75472fa91e2ca7b8627e1c4d7848616586e933b569570d8f367d887ede65b52e, 0xc80e7352f607616d040c13945652652a3077160209da592e0733a53b448c63f1);
  (0, 0x8c71e56cbda1c550894bb471b59903f21ebde0cc4b5c6984ebb5a1872fc3e03a, 0x0);
  (1, 0xb1cf2f97751ecbfdb2487fbb6037fedf8662bd5aa4e3a8bc1625a311d6cc89a, 0x4b92011fae05847d636bfce9d94d0fa9135ce95267119e6d8e5370e43aaad45f);
  (0, 0x391544c7f0366a5d0e223236b3d6363b3fc8e552d5cab823bd50987dadac67df, 0x0);
  (0, 0xefe3395fd356a3672e83f71c856829ef4b809b74d3cdc25dfa07615ac9a57c, 0x0);
  (0, 0x8ff0e915c824258e5eec8e9ae73aef1d3cecf33b1823e606c7a58a8cc3ab9e9f, 0x0);
  (1, 0xbdcf3aa525888be915499cc110a7b5b180e3cd092bc9325f9bc897c29ee46022, 0xbb27a8f8deb67b564532659e8abc11714e2cc5578686da350bc27b0b48d0f7ea);
  (0, 0x9111e8b8abdba9f3b3f9fed88943a85a71a6437d77757647e7b56671644fd3be, 0x0);
  (1, 0x11b1390b1a52732b4c46b24766d72174148a86bac77e4e850132973402cb9553, 0xc531f10984101ff5a1e792e18e9b80997b8f7f40c9b54c55fa14ade4eb8bdf4d);
  (0, 0x7a1aff40057e2fe6cf6727a9cf07f367864c8a3de3a492e03d37460038397121, 0x0);
  (0, 0x978e480942b94b43723ca818653d058607d32d8c3f4f055f72c0458e7d9369a6, 0x0);
  (-1, 0xe1037b5f5d4d20c9000b5f62f0e7dea5d1682eb4c12165d0e5af712d0bf1dc59, 0x1062f44adfa19775b660186682372e7dacb0048fdd727c1227d19d0a8d3b9c95);
  (0, 0x79ba5701e6cffd5f4699e01a901e0e642d6ccd64db961b788630467570f543bd, 0x0);
  (0, 0x35a3cf98a263004f45aa2006314d0ac26707e2d311120e8de742f95814a896cf, 0x0);
  (0, 0x2a8d5b3e1059b47adda805f49dce9610a0e7514e826fb97b359c2d7b10308a68, 0x0);
  (1, 0x5570350a7d4fc199308f1cc5fb7cd33679066fe56d325746f9b6bbf764f120c5, 0x69d7db098b0ac3f9253b5555c6e7666db79a0e609f8c012a3dc4ac3efc5eb522);
  (0, 0xf48f35baecbb6310b93bc56bde83bba14aceac35a8e876ccbfb03923d9a9218f, 0x0);
  (1, 0x6bd9e331a8ae66cbf8d2dd7c1b7ff7841e6adb2f16cd59ae0be417ace1e267aa, 0x3a5066d238cc30c284340716b6747e30b85fa0ce137693bf7ff5f14a529f94c3);
  (0, 0xdfd67f0ea0ae3b413a2220c56de17615b5e3f36dbec22a2e2fa5f1f21b4c1eef, 0x0);
  (0, 0x8b13a3bb87573b6960e489c5d53c8796c5d3fbb8058811e68bfbb25958ca5c85, 0x0);
  (-1, 0xd15b07a220a91f8588205d6eb642985d16983fccfec0f48c2ad2f8c84d38ddea, 0xab1e4088c75e32471d236eb70af8f08e633f845f87aba8d9e775c33df6c4b05b);
  (0, 0x57820951febab490586a39721506aa53c21910c63b50f1308becd3a0ff893b77, 0x0);
  (0, 0xc3132bb64c4d1c159ba292a79c1586da95013771bbd6c3e83c89a847f5891f9, 0x0);
  (0, 0xba76a0e3bc7449d7e71591ef53f98ff765ca1ff50c125cc793a23607c2094c88, 0x0);
  (0, 0x88e1f308b27b02f9156b81e6bec76d8aade981936cc19a2e2e833f4ce814d8, 0x0);
  (1, 0x1509b82ab88562e39b9a46af03b4cbded0d5d431426b486261b831bb25bc97b9, 0xf3f6912fc3c0c489906ca2f770e6b93ee78e06fd7557dc0df15d1d513a44cf4b);
  (0, 0xe569ee5323be1ec0c58535edb9dc68a3c770e93b882a3bf937a65b9400faee91, 0x0);
  (0, 0xcd717a33bcd9dbb5e3825c84c60346cfed25193635bd1242107c9e2a8dd6c1d, 0x0);
  (0, 0x8a16229cd666e5443e391a0ced267175a95f579624f512d7e42d771852c52dbd, 0x0);
  (-1, 0xbd2bbd47463d36528861af575c6f4a0065927fdcb1b9201ebd34ef47327eb6c8, 0xb99c61f481d1c11dc7c3d13dd638d237f2768f7d97b79c734b0dc5631ced60a8);
  (0, 0xd09cfe2d33bf679708404c67a0c40a5d32458664f9973e0d652e759936cfd613, 0x0);
  (0, 0xf4fd249217410cde68c16eae9464502e2fb73d621160ffba0ecc648c6e694ee4, 0x0);
  (-1, 0x9bb8f8b66b0b65a7b4c5308ec3f1a21a82075eee7ed614f44a4421a15c51a6e3, 0xc4cbcb5fe607d6824a75289fbac231f960ced44835d28549a0b1fcb5cd949368);
  (0, 0xf02a7b7a5dad341f17202bfc4f0272aadee9a918967e205a1b85ab4f89aea37, 0x0);
  (-1, 0xfe0abfb384e1b6fd1df2b19f29f1989b0811242e1f3a6ab0b465c6c9dc6564ec, 0xbd19d9dcfc0606438fc6b95620a57e8acac8c29a1a6a6f7de8f23a62129e7619);
  (0, 0xcaeea780e2a6a2d631136a2f668d219e0f6d898b3a644a5c4c9d73fa927daf67, 0x0);
  (0, 0xde47e02b3ed231a1d7f1db1c7774d9b2039d671070fc06f0f71d5010942bf187, 0x0);
  (0, 0x39c5d2ff575d5966f8a75a620e0f950c1ea597c802010a5497334a6be92b90e0, 0x0);
  (0, 0x9d5c191507eda483c4e445bad58fb0b920b92b42592ee09c788f1e36625b4e97, 0x0);
  (0, 0x36f9b893a111c0ad72cecf45ca6b3f784b780d3d3b6d73ae981383efc4afa27c, 0x0);
  (-1, 0xacd1de4ce54cb6ecfd002f6924d0e299a90568aa7270cd87c089f82dcb97a011, 0xe697da07e584e2f68168c639f70fd0d8d6133ae56bcb535707bd568ed211cef3);
  (0, 0x53bfb2d54990b5b5b8582dae635f5fe6759844d064aeb1318eaf029ec324882c, 0x0);
  (1, 0xe9bc4fbd43da2a9cebed6747e7a08db811a889b326f25ca6defab19f63f4b9df, 0xdd099658b8b80dab38dfeb6367b8b202937d6bf2189569ac07fa276bda786fe5);
  (0, 0x63f58b4334001fd6ef2ab0c34e750e97d58b4d5f46d26583db17fdeacd238f97, 0x0);
  (0, 0xbaa62793e158c5a5f9a4fc8a0b55078a0c466d3d366f720f38f965ab8b594b14, 0x0);
  (-1, 0x702f168618d017889faf64bcd6cd41322f50d1ffc0c1ec7dca1bc42c6354dbc2, 0x3f2a345d9eb18453ce93e65582969c0c29247f305a7e88257cd09a49bbde33f6);
  (0, 0xa1feb6eddc07d6e7c1c0e86f715bf1dc6bf6d86043aea38ede80f3fcdb1aecd1, 0x0);
  (0, 0x4c35dc79d1691dfc2ad6d45d579e9575feda8219c7289c2f9f77481e3f49d2fc, 0x0);
  (-1, 0x9fe5c0a25f0dd737a86e0aa1a7d10571adde5d988bbc63ef47bdf1df14c45880, 0xbce1d63d96e9fd856a6c1fa7878bfd4dcf629cedae71fbe4d26a9559d34f545b);
  (0, 0xe98f7727218bdbae3d84311c5b87f1a43b8a9322161c36a2c2201c8b98c55ba6, 0x0);
  (0, 0x7c3b800f5f2e51e387b5d910f061d3b311f90ba9e6fe10ef1b8db380c0f9356a, 0x0);
  (0, 0xb18c456fd538847399e4213b44416de4de49bf3c6c7b2db8a03b64c3eb5639dc, 0x0);
  (0, 0x41d4a638c3db29bcfc5ad7694bc97beaf6a1d6eda8b18b34c7946a203e8c3583, 0x0);
  (-1, 0x954661d81998e2f19b8bef558e1340b75a66993b9bf2ab15cba3548c4294a8c7, 0x71891d898af0314684e074f99758cacd46a2c346d51747504bdc222a43448fb8);
  (0, 0xeb375696b928cfc94448780cadd646da9caf1af7b986dd165310df241c26c469, 0x0);
  (-1, 0x7db27454d51ffa0a7d0270618a4873543149992539746c3c9bdb20505b18528b, 0xa16da32a55e8978e2492d31355b6d95c975bfac2661fcd171488eda19623d8ef);
  (0, 0xa12445bcf5a63e9e04e1e77cf5757259dae691d05be9a95f0633078828d65c96, 0x0);
  (1, 0x7d3945478756f8eb7623f30380c843be26611477a32686f40222ed6cb4884540, 0x23a2a6db1418c9389a40ccee90787c63f209b14b2ea33dcc1bcbdb399d00b70e);
  (0, 0xf3e5625068fb63263c3c379ad053be2ead40c9c0f8c0cffc977a9f9ff80dc1b7, 0x0);
  (-1, 0x4b7e1ace4a85f3be8d16c334f075eec98d6e00759442da7dce18d9075b5c0f63, 0x8bec8076e3a78ec5189471e02b899c4fb65682fdc077c0d70b4c569a41a2ea6);
  (0, 0x3a2a6145929e168dbc2d62e98cbc34c2472fdfb248a0689a9b1216d78ffc7b21, 0x0);
  (0, 0x680f3292e304b72fc932014642347fb2e00c6387242c424db1e05d3e13a90223, 0x0);
  (-1, 0xc174c4098479209eac0a3d58fd10950285b35085fadf7bff6cb270f0bea4efb1, 0xc37b2aeb19cbff5a4a0f88e2cf00ce69b08de3b6b567ffe296963516cd31d2c0);
  (0, 0x4ec5198aec22da1464ace71ba8f371c4f34ba11395d22b9a7e0f1ace71e6451, 0x0);
  (1, 0x2db3582a1e9aeefcb269b26b4239cb616660bafcf71169ef2cdae76792f8ab1c, 0xedbfe40443701b58deda34177379faa56e4ae4e764598ca0e20314ef94ec88d);
  (0, 0x6841bb11105e5a6eadd6ac65c61af23f0ecd5c46744cf86e6a20b42b31d77eb9, 0x0);
  (-1, 0xcaf764ec75077a3bf0132e28311df54990b4ad84c7ce7f287bd75de2faea4320, 0x828793f886aeb2ea51c4d04ffff7887f2e11def0076e539d97dc8268b3dd984);
  (0, 0x647bd2ce075e291f5d65dad14831a74bf6c9ca3acb4f20fc334d09c41e5d3848, 0x0);
  (0, 0xd6e93598ea9f77f5328037f869dc08c765af0f77291b8704553ebadcd1f48002, 0x0);
  (1, 0xc8501e8075a0b3772402b0a02546bcf31debc302ac7c0d8d16659a8289792fc5, 0xf2a626f4318b633d384cc5c9774b8d035d3fe9e2c9471c4ed0915ba9a44741b3);
  (0, 0x643582e5d08c39c99ff7c15753878252d35946af9404774eb0a7c9e5be41a6f0, 0x0);
  (-1, 0x9820976cfa955a9cdddf90f8dd2185612568db1296dd0291987f6d2ba7d29ac8, 0x5ab76b0046c3789614e6789371c53c42fa8c30cdd2f53e6a82a27a808a1f39e8);
  (0, 0x9196bdf62faebe9216fa047be663903a5db8b312b20d52e8e2d1e3d8c94c33ce, 0x0);
  (0, 0xb660f7563fb69b07b4ac86dc34606e2b85716a0fb089a875711061ca9ccc6d0d, 0x0);
  (0, 0x957d0c563151bc2164897bd4488d608ffd42c79e8d99c96d484ed9ba1968bd3e, 0x0);
  (0, 0xed06cb577f367c03c15929cd751991727556142e0623718ad4fd9c0e4bb25a60, 0x0);
  (0, 0x83a589eaf334778f112f03272f3faf968175667f3d26ea308f5350fe37d4efb0, 0x0);
  (0, 0x382a32be0f94cb10483b2cce6f880cf945201c99c053d3a7a2ca2fde1418b7ee, 0x0);
  (0, 0x8fc768c02604d82dba0b094a476fd762d212aeeef868ba488e660d30acf3b091, 0x0);
  (0, 0x410b6d9c49a38d0caf79af69e29415eff6241f7d724e2bbec8189ed669af2a44, 0x0);
  (0, 0x6e1d0390c1e71ae701daa0252b724b5706957c0d5458c2d9da8d25a9d7b6d2cc, 0x0);
  (0, 0x6e15be7225c93ae289a2e0a7f7915b88a2aa8f933904ec6a8a9c6360d2cfedaf, 0x0);
  (1, 0xdd537583741c2b2fddca48b99ef4a61d42910459e5731a1028b8931010386c10, 0xc25b6aac22fbec7e2e9f990febb8289f07c598a83a5f85dcb6d7e7f56481e5b4);
  (0, 0x27326bebafb83744c1f560186eb51e0320385f40accaa50686eb91af2bdb84fb, 0x0);
  (1, 0x9c2e397a83e31de7fae92ebdb0cfd1b29fb19eaf96d748613cc987bcf549aac5, 0x4c515624396bdb25ceb0ebc91d6033cb2ec3b8d898a24467bc348fe6f83120a8);
  (0, 0x17bfcf76f883c060cc0cc423cedb81cd9381eb98763ef01796550e51992fb73, 0x0);
  (0, 0xe2fb0f8c356aa1fc38d02629df14b3d2ce00d75a539f4e37ba9b951090b25350, 0x0);
  (0, 0xfd099dfaa12a9d8c34a45e2303e8ad329c6bd2eb9383935002576ffa2d188aa, 0x0);
  (0, 0xf82bc6eefb4f9916835c3c1e14c0c746fbcf56c5f0044de5addf67e6acd7e5a4, 0x0);
  (0, 0x42eb974341ed23082c4530dc3cecb7d59a255c8723da2f114652f26c48bb332b, 0x0);
  (0, 0xb455ccfec3ed25a111425b60ccea153fe810ff95178d8b3717020a6775de0aa0, 0x0);
  (1, 0x859e11fca5d5f1ff4241f286ce8183675df6bcc34213e7ddc673b1d918b23c0b, 0x7212f0211c3fcb3831cb955efa9bf7eaa8f3c037815601d87a761c3f2fe06229);
  (0, 0x179df0f3d2aa5c524653f5c44b884202461d8ad81bd7d756df48d41076e734b1, 0x0);
  (0, 0xfd059f88f5036dc79ee1e07cc9666df5a06026aae0f0d5c37dbd31c620b632e4, 0x0);
  (0, 0x7057dd6128399da5bbb4499f923900dfeec98fe50d79c4cb2e65f31ad9ed35e8, 0x0);
  (-1, 0xa7919792e1447a9d260a35ce183c6a85154413703a48733aa03cadd95e140821, 0x9c917c298e2aaa7bf7ece0edbdd73802132c37e4172884c0468091b118c83f6a);
  (0, 0x5ba46c0a95e22ca8a7fc9e6ebc4653b3948674772fbbedc726f7de5cf00ca6f8, 0x0);
  (-1, 0x54a89952b598f81c8ddb594d664784542f3905d34760532d34dfcd7d00809da1, 0x6a152cf86509b2bd3f1188b7ded0b98855b3eb68502a46866420c5aadcf98cb2);
  (0, 0x60e43a74c87796f95d7134eb305e4e1da9af5d60c179abdb5c2f5151f477b898, 0x0);
  (0, 0xd4363733890847a216ba8632a9d04b4e8de796256053bfe0adc38b3017b30e7d, 0x0);
  (0, 0xbc9f27629019be9508a9044eb5b60a90e7f1ec9a3d19e7699b8576bb5438b78a, 0x0);
  (-1, 0xf1afd92741ff437dcbc93e3a1b96c91b8159d62965a3bbb2af795df0c5fe5948, 0x7f37931fb339f277a4d83e52537f5583fcfc9154beae7d8a021bffa84e96e6b8);
  (0, 0xb04d119b285f3d72a04e9713b5aee91964059c87b15801e366b84a9b1d476a9b, 0x0);
  (0, 0x319b8bdfab4cfa6827bb08dc5b4f7957597d74b3cc85df7c810386922e47fbc0, 0x0);
  (0, 0x47429fe3e03654bd29a66154772395da0521e8cb42640299b7de9b857afa71f0, 0x0);
  (-1, 0x5aec60af42c6609314042c34cee4333f098efe060bd745879ec78e5c702fc214, 0x33477dcafba9ca01d8baada6c45d24b5abbb7b41f26d10fb9f75714388f377a2);
  (0, 0xea3a18f3df556db2d44bc8db97ef3fe62dac6f2242c18040a2448e5711fb830d, 0x0);
  (0, 0x1da75c603a623e3a48899dd0947ed97e5ff8730072a15b7c0909ad4eb713003e, 0x0);
  (0, 0xb46341217e803e00610d7c17168149965870cca261e01364f93c36b81261d2bd, 0x0);
  (0, 0x2df95fbb9d7faa8fb1298c7b1c1e2d5b07140b8c132fb42b5f37a9dc6530d92a, 0x0);
  (-1, 0xe1ee54e13f40ef1424336b58264aec62bc89f2a71d2188951f70ae3400158b21, 0xcdd488d2a3c446792cd8e5ccaa8d0a44a14c32c1579bfe7eb165e72c3cc5bb35);
  (0, 0x7be660d0ca6975928e641a529a8726bb789ef8fe8443e001147f46af557493ed, 0x0);
  (1, 0x92664ef6cf2801f5b0dea22ce0e86c13a2bd81a4a6717afc56bde821b601d2e5, 0xc3c839d3a28220f7cded4729d9c7c4f3334502f62f8a462241fb698240420120);
  (0, 0xaf1054fd349a9eeb921160afe172943a67fcf28fa0fe5c8d0d13a02915eb00ff, 0x0);
  (-1, 0xb9da48da07e34b63e36250cfc038090c5fea576119e9cdcb30a2e27bfc45e392, 0x8f778364ceab1436756bf2f4ad4de49292fb9dae5778924768f5bd2a095b0037);
  (0, 0x4a1ad0e41c51d22599e04ebdf77725f51f5acbfb6e42277418eec65bb4198160, 0x0);
  (0, 0xdb50907634f4d78b042dd2878c06e39b0c4060ebf7f7023823638ffba2ecbdf3, 0x0);
  (0, 0xbb7b5aaee08927d955cc02ff80b1b5dd06f54e0e225482a00b4eb1ea15ff0769, 0x0);
  (0, 0x898da4e1105a7017d1fa910935e876ce01c211bb86604e8a8285688739738ace, 0x0);
  (-1, 0x75b4cbe508ab59103a5dea1c787e3089c950c1fbce646e025dcfe37de457eb68, 0xc98437ef8ff7aa407f5e83a14e640aea8cf568978da832f360f315de26b0d25a);
  (0, 0xbd11deee53ca096d2c340754148a91f96ae6e892fc4e2d4345d1d5213f1cf6ed, 0x0);
  (0, 0xd19e763d78e1c0cdbc4194ed39eb785761f24667a8f601986ec14e7534d9b094, 0x0);
  (-1, 0xee3c5420d1442ae004895e69abc86096b72e9685b2ed0d5900529c358a0cc566, 0x3c0d5f7ce5d03fec9c4dd3b42aac87726402c2210eec74a4d8a3761da6b1a66e);
  (0, 0x84c5ad0d24b3a94d7b0de600cc11eeb50bfd69d1829aa14a54861b202f853eae, 0x0);
  (0, 0x57132bfc6a02e2aa0861a23bd92e54166cfda1bdcce1105900aadc2f6defe5e9, 0x0);
  (-1, 0x62d2426e2ea95f5a4f315211a8a91b6d911e24fa3b85514aacf0633e2880c632, 0xf236f07af0d3eb4e1f6ef5ca40449443d62dcb95a602257c684564be9ea002bd);
  (0, 0x5c9c4be5c4ba1d69bb305a98f6f6e8c21b7b79e55366f36b94a9149c504ab8c4, 0x0);
  (0, 0xd0c67ba2b754159eec676912510f8b63fb1a19a2d23ab513fe8bba310ccf07f1, 0x0);
  (1, 0xe6f660f546cb80ab6e4bee0ac42a34579b8fc5630940fe51763219e4b78c6be0, 0x1252a7ec425a9b678fb4b3e7b4b585909c4de552205685f82f2362bf212a88b2);
  (0, 0xc98eb8d711fe4e9cf2ee2107d165ee6efb313d1ca2d7a2b3331968b61f6ced0f, 0x0);
  (1, 0xacaf45d398de3897d8007f9f04da835eff3b32a63283158153fcb2eb93a8f702, 0xed755801e3b4873954d4922b7db4b11d762eca9d9eb0f606d6c3abb2c9cf81a9);
  (0, 0x99b786a2c78f207ed7b34e528cdeb17d29865c42cb53a9e719eca135545174b1, 0x0);
  (0, 0x87691d400108352379fa6ed469c6190c65467046af066791549f79dd4d9be26d, 0x0);
  (-1, 0x179a8f3b99daa4b7010f12e1f2c67220095d29d2475be4c8ed7a4bd9f9a2ad17, 0xc7dd2eab88e556d11b9825be439eac3b723c8efb85256b199359bac3f2061d78);
  (0, 0xc1e67c7d6962bd3135ef6aa3a34b25acbf23bac1fe932ac8505afb210ea235be, 0x0);
  (1, 0x16667ad32fc36ddae11e599cedd7c7fac7ab3cc85ca59b4cbeec76bdf0df7825, 0x69c56d6a427e9f026f00fd397e6673342cae557c5e8b4ac7830f9cb9cb460d69);
  (0, 0xc115ed67daf27504caa00265cb5c42fddc1d713736cdc70749b6ebba5a7b5b0, 0x0);
  (1, 0xc7c13fc154f6228384a9e3f7f0e569ea40f6f136f125edb156d46e6f76485b47, 0x229a096bd37821fc8f85b0f8df49dd9c6dd4ac4d9f739c937751b1d1921284e7);
  (0, 0xc8d0651b44491db2c74745d5f2e527f6fa7dd8807401cfadc1196e4681a4c61d, 0x0);
  (0, 0x1c5deca5cab29e729fddcee35f0a666f174a853d2aa40737aa4785aa1dd92779, 0x0);
  (-1, 0xb957c2b444e51e5442a42c352a1a1076fae5524baa14372ae7cf251c070bfb58, 0x128aedecf29c61e992f73d6d838fc610278a619e510c5ec2c2d9171b6da667c4);
  (0, 0x9f0077312ce9c1931f96fb56a7346e6a806ce87bdb7114867c1924f1cb86d184, 0x0);
  (1, 0x97dd0f1d6b5cb4b8619d9d453800852d56c0436ab486dee494e3eb7d62b09f00, 0xe55ed2f84b3c8b6f113192479c3b1d38bb975aaa53e630c0ad072434e4e8d134);
  (0, 0x95f0195b1b2d2f0e02526b3458cd07371c9a4d147ac20d5557a2881a0f3e13a, 0x0);
  (0, 0xd57d15e76d576f978acc7bb95848d10e968a8c79585fec6de5635a221f60d2a3, 0x0);
  (0, 0x84050218c54a928e1f6305c67810ddba7129d36f4068ce50d714fe38081c9b40, 0x0);
  (0, 0xfe5b953cd519eed53482a215e158372edb977eb6937081d030baf56e488ddea3, 0x0);
  (0, 0x35d12304f97b2ee0c3bc96d5eb9348e769273e80d0c795bc6a5d91ed1ba28a0, 0x0);
  (1, 0x73f4b9f5d5df8f1aa2db0ff156d6d991db4febc4e300d259a73b4382c5455ef, 0x86ef267b2d17bd40c0f95fdb03166bc4c8217aa363ad1933c8c284383f80e494);
  (0, 0x2088ab55c51eee277389145d9d79fb59c4cda2d70bd9d576dcc6edce0703bf07, 0x0);
  (-1, 0xd1abe61cf62141d15cd121f370707d10bb846b6ec2bb3d5f409f75a4008739d9, 0xa49050dd3586e7a50755f41e95e8ab657f438ed50dea4a30eea07541b925e1df);
  (0, 0xadbff9c5470c43757ca6f8c7e19fb5ec0bd26351b352e49eedb38511a16d372, 0x0);
  (-1, 0x8cb2784aa1ff62cfa6408721680d74c5218b50321639ac8430c4824e69ea7403, 0xbff4397d53be7d6dc690aea4af3f94ca1c4425fb472aae18c4a6dbdab639c88b);
  (0, 0x30cefbab232afb61aecd97cd1ca7a5098e858c926e9e1c8e285d65e3342b8c17, 0x0);
  (1, 0x52970643da40d9d86a4899b7412f9602b20a5ac7d8c4eac2fccea1e87e4903d9, 0x5f85d5c07c3317bd84537a3e9ed1ca27efcb55684d9a0036cb8843abb725d102);
  (0, 0x620abaa901296a2b1b576b6080c1ea57e4c5bf9f556b9386373b26a9ca48c847, 0x0);
  (-1, 0x25cdfd3095d68038701a1d5d3af2441e9a891f01d1765799ed4d69201d144d2a, 0x45e1e8db3eb3c38c7f459bb0ce52cb8e78dc89b2f434700e3a4f46b2ed60a6f1);
  (0, 0x1e30ba8bc66c030dabc242d6ef4c7f15409358edb2dcba929add44b76cfe392d, 0x0);
  (-1, 0x856a4b1c860c6085ffed4e4691fe251334466ec566754293088eb8982281f57c, 0xceee0df99476a9bd36e2fec9c16025b04d702a0a3ccd615bdf347d2974a01a0e);
  (0, 0xc5676eef6264d7c82d133269f45f39da2df743d58212a8bc69b5b9327482be3b, 0x0);
  (1, 0x38568dc1e67e0213a5470cf8bb5cc12d7a4412ac144efd8de476369f604443be, 0xa94c059c5d2fd59826702bfdb679997cd99a4b8401847d00bd1cfcc3a9d649fa);
  (0, 0xbfbce48e5e2fab6b5006e569d83a4b1924b39477702ea0db39e64de8439da239, 0x0);
  (0, 0xfcd248e99bf163f24fe8ef8a4c5e3505c46ca15fa62fd093906cdfc7cf7665e4, 0x0);
  (1, 0xeaf8ecb1fdf6d8291ea7ee9b276dea12dbc57518975edbbabd1e4cb6accd4129, 0xe9ebaa11676adc904fa4bd6aef72b1737638b6ee450d43d1a1ca389cda226a59);
  (0, 0xc9662c069d2783c817ada69ad3cc684aa147d7f2758bd1580736f14cdac68072, 0x0);
  (0, 0x98249c0f8ecc029a2ed5e445a4b3ea257cd0be488da4ca4e5dffbf62df2bbc01, 0x0);
  (0, 0x270bbcdcee39627b8bfb6959643889bff6d1a46224a0ccff2c083bf26911c288, 0x0);
  (-1, 0xf9c99d89ed5e90a7ffcfbd609f219a77c2bc735265406ad872bbecb9f926cfd5, 0x54f4232c62215c57f84e8907d2545cd90bbba498fbec1d469ac06d1dcb3c2ba9);
  (0, 0x4a72b035aad3afc69cb73ddbabb92a444675cc6957f80226d716206d266eae1c, 0x0);
  (0, 0xcbcb2ac4e4b60260f3bf32c66cf95ceafa45c2a1831066b220d629c0ad52a9d4, 0x0);
  (0, 0x70db0a4116970fbbcfdbbe471e6051aef25b767ef863877a88215e2fb799c5ad, 0x0);
  (0, 0x888d3cb6a4a504bcddbd7f608518fee94d0bd8641ba5b1e6d9a9ef27ce5d837e, 0x0);
  (1, 0xae22bc0e9b00f463ac6e0532e6de218f3858464f62258e2aa6656b6d516dfdaf, 0xbe1c56b3b945b4742087ebe09fc3ed209b4a6eea661f5c9b8ed598f2a2e9bbb);
  (0, 0x4dc15aaf7379f4f3e0e57e8e2caa7077c466a305f4fcc6e872bc5ccd56cb37d0, 0x0);
  (0, 0x6f4e4726892ea42f164ca23d22584a413c0e9edcb247aeb9579b85319aadc380, 0x0);
  (1, 0xd5712cd7bdfee149acb1418e49798b5de895499fe37182ed24cad73796d4eeb3, 0xbc19b195b06655cec6e3ce9513c3fbf7817a2ecc42b178badf816cf54b149993);
  (0, 0xf8061a20bae306439150f0ec152e5fdb25d5bf574d2a01ee1e9953c4d0a29bc1, 0x0);
  (0, 0x940a947ff6551a6747c0312eeadd280a80dfc91d878ee98fd397e3f207a2d3f9, 0x0);
  (0, 0xefd2f0636c1a340be5a7da43021e53c6f6c8a318c39ded555d32a592c7d0bac0, 0x0);
  (1, 0xf37582460f29ce8dcff01332b4656aa542044c8bbbc4544db8b800f085be46c, 0x7e570b8887f3a54e622dbc8629f8a0264576cf95d9f4efb6e0a98bf5b4c84f35);
  (0, 0xc4b2b4cae59237daf8bc07dbc64eb84ded968bc255343ec815b704502fdd3486, 0x0);
  (1, 0xe60561f4e80c03aaed9942cf148b8f323a32e88c9c8111474ead88b0e3876946, 0x72b48902c6aa880e5416a2ee47d89bb027523c1f5c301336a402b7ff2cc9c72c);
  (0, 0xfe77c83808f5250418819d397e49a163a752cda973cef5c9267b1559b76a1cde, 0x0);
  (1, 0xbdf041d8e70dbb738ab4c03e46deee25eeb15e770f375d730f56d4071b74c550, 0xdb8c0586a0a9da9a5e7d112f32028ec257acf6625a0306579a6d1cf37b439967);
  (0, 0x9fa271cad43680d6b73bf526f5bf6ca58d3f9cd90b29bb93a14ec4214ce5e6bd, 0x0);
  (-1, 0xabedd48556de707686c829d4f9068290f126cfd7024957a7abce91adec498733, 0xd9c15773775e63e8f76aeffd9ca9516c0e67c4aaa634219f7b8b202c9e635816);
  (0, 0x3b5d539ba80d629df9831d4fcb12d6ca5a1c6391dd2eda141b01431443deafb0, 0x0);
  (0, 0x9e056a2c7b2351312d237aacb6d71b77fe9cc0d09380dc346777b4d7402a909c, 0x0);
  (0, 0x7f1cd39c3dc707e19264bdca0caf24ff9a22e1303b6cd231b9e6f9fcf956ee82, 0x0);
  (0, 0x6d0b54975bdf8ecdb5123d9fda1b4f48398d545b75b81db7257de79a14601ffb, 0x0);
  (1, 0x556830f42dab017205f4143c4ff3d2b381831cb109d7aaec81a930d7aa7ec0d4, 0x3e23911b62830d7c85b89051898c73e1fc19228a749235928876609245f475bb);
  (0, 0x5d5838f984603d78ac29dfa2834ecc134498b5893bb1f95e8e01e1030d15ac38, 0x0);
  (0, 0x5fd3835a66661de75925cac05ec44baef19dcbab3e919dd22a53655149be3ecb, 0x0);
  (0, 0xdf85f58187a22c325a9f41eb5a0693c05537393143d12c7abee12a71c2e43e67, 0x0);
  (0, 0x7b01ec681690965b64e04806f1bf4c270d0f74bc4b49d25a6fde698819088f6f, 0x0);
  (0, 0x7d03698cc83f69d5b72a7b40b8b552bfd14ffe79d2a39930ef52d1da0408223a, 0x0);
  (1, 0x824943a6344a81be90eda5c847a21a7e6908aa1b48ee1b4e36ef24fa757c1c66, 0xa14586223432c25cdcb59fe5a21ffe878fb41b1637e80d9090df243a083f7cb5);
  (0, 0xb4e100aa70e31f440a328ec5867f36afbcce1050da1fec3fbbd2719264cb61df, 0x0);
  (1, 0xa786e6aadbb05697f7427972ecafa9f06f22b4d999bd29f51fd6cbb66cebf07d, 0x86092500724d8bd563da58ad16a99b91f29e2e54ffd6e73fbfca581bca541b1b);
  (0, 0x7b598201ad40e82dcfc02a71122c84931a9fd105dfa70bbcafdfe6fe60734ac6, 0x0);
  (1, 0xbf968f29ebf7483ac52593d19baf7107db1997cd3b5479429ae2eee3c92a7cc5, 0xd2edbcf6bf71481ccb42c191491946d3f7ce14cb19728b41db8bda9e1ab62bcc);
  (0, 0xe9996bdc60a6758721a298d8f12f6e03e21eb0934ec051b5a3a067a2116b5ca7, 0x0);
  (-1, 0xe018f2b8f08503466bfa6fed5dd504a91f13bffa051bf14942f02656c7925f01, 0xa2b3c420e556f827ebdb0cdb502b9a4c0dfae26c8e020ff1482e5cc50f8f5267);
  (0, 0x98b2718333d5dec16d754630b44117bfa2b3ad2637c95b9d68557fd099847c27, 0x0);
  (0, 0xa28dec9fb82b969bfc2a0c2a076552fbdd2fab4d1490b8bde41e79168c75ad10, 0x0);
  (1, 0x5bf50426c53c45609e52b644f16feb3afb862d678e2de3d3bf2206b1d10336e2, 0xec03c69379b85a5622ad700d1545c46502c3e387059643f516929cbae17a3e74);
  (0, 0x443a78a0b096519f8f6e37b945a55d7d59472d48babc8b474eac7375f19d055d, 0x0);
  (-1, 0x471bd3a1077bb2bf38c74806115630f25d83bbfa4ac4318cba921b74758265c5, 0x94402ff82d5002cfeb94351228ece614eda0d42be805a5fc8009f4385543893a);
  (0, 0x3e654ca99384fcb68c02188e85e43fc2351e307295ce4e1c183d68626c866612, 0x0);
  (0, 0x5110e3170ef38909c28936467f710a02083e1eb05269cb07f748c1229787f515, 0x0);
  (-1, 0x43f75054a6ad3c06ab92b98f5c89252523989d514f7013052c1c6eb67bd0e16, 0xd9a39099fe05d4966a47831b1d24d1b5dacd1d93541422bc774f9395771d87e7);
  (0, 0x9da03c7b4f7b73e6bdc8247d0713c4b768c4a1d521b1f9e533816da3f77d1937, 0x0);
  (0, 0xd4422a93044064fd0fe302fa7a68094401298cd316dd56383553b548530b24e8, 0x0);
  (0, 0x33a2711ce97ec1786d2ac46c7242455ef6f3f2eda6808d03bd6258eb80378a36, 0x0);
  (-1, 0x804414aeb6a6534ab1248d42160357b80c0bab7d02c7e16c989fd902b4462fb4, 0xc40201dfacd22f1f5b16230290b6a033362af8d8d0c45752fc8e9205ee9cbb05);
  (0, 0xb3f9f084fe0d3852ebb73ad41ba6618b46c11c4465c0c5fdcacd7e2450e98264, 0x0);
  (-1, 0x989c9cbbcf6bbe4f01fd277268c5c414307fff23eb5422be7138ce8906f076b0, 0x89c1af1d3d42018d37324feefeef1c5af2efe2fe022cacf455bf0dbac1a4cab6);
  (0, 0x17f20fe2018983069eb53dcb88f6ce4a465f2526457b39b49319a4b5ac4fd17c, 0x0);
  (0, 0x81c7b16e5f9770d7521b9a24f4ddab871a53b91f878d63c96da0029ad7fcfa68, 0x0);
  (-1, 0xe5f7fd8c682fd2aab4d720fa0e162bcce16ff9a8c62a8ca83436586890c1d992, 0x7f96f7aed33d2b811cb9decac6ff53bc1bbe2e6c788ec49e335c2351ec96cb00);
  (0, 0x43367e6b326e3bac8563428fb8ae75354f8a7c68a01f933347d21865de80a19e, 0x0);
  (-1, 0x27deb11f2f622806ec6c35096646bcef087ea2848b5982a39c048aea6d3e655a, 0xeae9948d1d11fba9780d53aba63bfa0927f77155c4953d3685dbbc66ada9fd53);
  (0, 0x8501650ca7027b3d7d00f740450e88ba91d5d2ebf9e2396bc34e99186d458b58, 0x0);
  (-1, 0x40f75ffb44d7490993b1f3792fb08ae56d937ebf3f2926e06eb1542d8bd87f46, 0x3f9eaeb62c78ca1ce05edb603f0ebea537333db0b4314b3334d62cac2296b253);
  (0, 0x5f40fa1529dd92c9f8da0124ab826312fb7d5a543e5d1bf2513b6d54e48cb31e, 0x0);
  (0, 0x4dfa94786483f2676683e966d9d33ce9f939d93902971c5b83054c0a59626ba9, 0x0);
  (-1, 0x969e3504a46a97fed4404aea0f95b2c83cbad0b024dbec80bad0e9d56857109f, 0x8ca1eace22dea86c1868170234cd116076b216be5dd21d362f08b94146013b94);
  (0, 0xa6c7ee28efdaa66fd70c86b57db00f11899e0884e2ef02129a5f199d6214ced0, 0x0);
  (1, 0xb2f56771e7c2b96b5de8fc42e4a85df0f22834dad69f4c1f2060a577ed5dce57, 0x58b057a3bf72801d93ddd8f50b8e68b8ce339b8324c862a0dbf345c910958cae);
  (0, 0x44e986a8d281275549e24eb5ae5a2d7f6ad620ef3cb494a925c22f5299239f82, 0x0);
  (-1, 0x919c28526b0658bbfcc3d2d64fe1e88e9d9d5672fc9a6230c4ece410eebc0981, 0xeb00d4734e714f4f6b3502718bc1b349d5eaba355c8d8cd3a769f31596e3d15);
  (0, 0xd225038e476e77ea36be5821c9502a33254f01ad8b8078d7b86925835fc969b8, 0x0);
  (1, 0x37f838a903d8a2aeb862007b093ff81ffd3ffd7306a7b482bbd2cb63487246c9, 0xe8798844056af6e23eb791ec2ba69d862be155c510e4e9e3a4e56049acbf8125);
  (0, 0x956159453db695d85531b031ddf7f87218bb6a64cd3bf291faa0f4ee36d1aa60, 0x0);
  (1, 0x1c6e10f61a19b4c3435e40e6123b4f78a87d0f634e29241a1979970eb8bd2bbc, 0x7885a5be0e91f471e276623a585b13de9ffbccbe92ff3a40343f55aa90e8aafc);
  (0, 0xec354547fcdcfde5cf9703b5fd45e14152dbaa76d080d46f1b2d4acb0061524f, 0x0);
  (0, 0xbae158fa0e374a3b7d6114652d78b971beb59086f04771c35005eb8cb284ac2, 0x0);
  (0, 0xbdf47b713b91febdd9f71391b5748ce3306965627e7562d6af94dac0e3f6af1f, 0x0);
  (0, 0x15cc9cbf35824db8d3222f39f6a2808b7b2a08db4107f60798d09f7ae7bc133, 0x0);
  (-1, 0xdac4110497f2ddba7b6d79a3de2f0a57e8d34db5c07b5d26f3b3d77f355cc88e, 0x836f09b3132e5df7e901c80c6f1a588536fde9278323971259275c5c4f4d2181);
  (0, 0x8594b42132e17feaeabe0ea15386c312c1a23f28c5ab0672fd05781a23e9211d, 0x0);
  (1, 0x51399d0988ad98b6b80d56eab870ea7edf80023932c6de36ba0367dbe0de8fda, 0x961bdc1269aa2d57aaa06d536b0b0a25e9815950a74849834f1a85799765145d);
  (0, 0x79d769c43e9842216540b3f225f22e9d63c2b5330280a2d9928ceacf6854c4db, 0x0);
  (-1, 0x6b55196d46e1c4f78edfa8205e575889d1e50585ba37cb012c49d11a00ce5fc4, 0xff9aee1b3e74e70458d5585895907c2c3cf4d1d0ab0234c43982a9ecd5c68097);
  (0, 0x9d5d3fdc532eaeeffcad71ecb3f08d8281f33612b680491b47148d96f8171690, 0x0);
  (-1, 0xc69b67e89638ab4b632325189ea1b7d5ab2ee314bbed18b9bf35d630524c6533, 0xcd2f0e85c7d0fe77fe6168fbfb62564d40337c91197f6d0b98c2c87d0cf17566);
  (0, 0x4badf2a8c524bc1b64d4c2281ac7f1861adc2a1ca0f780098155911fb3b94f96, 0x0);
  (-1, 0x48c5ef67a47642c92dd0a4391555675741672236a1b196eb5ece464fb29529d0, 0xb08ce3227b886ee86238b9ca74b63ed5876f0232394e2087c9fc5cfa534ba46d);
  (0, 0x2a7cfa46da67fb0ed5a1d190de662937e0b7a9daacb7fa3574e3ed0627733c63, 0x0)].
