(** Signed binary expansions of the two nonces of P_P256Kat.v and of its private key, with the slopes of the doublings
    and additions they take.  The slopes are checked in P_P256Kat.v, not trusted. *)

From Coq Require Import ZArith List.
Import ListNotations.
Open Scope Z_scope.

Definition chain_det : list (Z * Z * Z) := [
  (0, 0xa249bcb3191802d3cb56fc75a8731f848e7b2caf080f3477a4e4d904a671af9d, 0x0);
  (1, 0xc2489a9eef61dfa06d3741ff3b405300988bd0db42a937859069b9cefb576e35, 0xca83eef4a3259faa07da557754da61a363987a301994848ac4a01dafc4c7feaa);
  (0, 0x97348e88f9533aa20c890c6555e3f59001b8e45279c9aa2da811786525635c13, 0x0);
  (1, 0x33ad926ba20e90b859f8865d29d46e20259ab47bfe894aa5d41239939f8ec842, 0x62afba335bf3e173650f093bd5a40afeccaff182588c06f1a379b94aaa275df6);
  (0, 0x3737340e08d8a5a6c6c8d4ec4ced0a20821efa384ce5ac0dd3a8d1dfa2011724, 0x0);
  (0, 0xfe0dd2b23c99a048da20b1f7d9c586b034c53a3c9b16ab1bdaf81a3d6fde25ba, 0x0);
  (-1, 0x7cb905a8562de561be7bc4829d185aef025b139d07e3a8988f65c322a06e80c0, 0xc0344e5914e34c9b16aa63667641fa4b2cb0024dbeac00788a1ba39281031eb7);
  (0, 0x8a91be6739958343d985c6278ae9fd238b86543bf9dd5acec5a498f5f88c3969, 0x0);
  (0, 0xdc4c4468a57e554fa1d4c7965f15c490e1b739664885ca8ee9bb1258da818f62, 0x0);
  (-1, 0x2a9d8ee200e3d6443d637a782e2305926c57a25d75f02d2a8224d6ec3ca2b6ad, 0x95d3abf748878b34153e5577a8f785d024508a29a033d0815f6e03ae4a8f0f51);
  (0, 0x734ed14cfd254a61224cb0f52e519dc0d9efba52497c65b1d64705d31db4e1f7, 0x0);
  (0, 0x1b8b85c8e8613769a8c89da17aabe4355b08669471949b5ae66a3d14f501409, 0x0);
  (1, 0x84e5272da14048fb448d7de266c33c4d8e5e7e9010bc676c54ee166bd66c7fc0, 0xf9cee2694026b09d73edb7ddc50fb9dd4af24380a4be8bd1721c260389c2ac3);
  (0, 0x2972c381bcb436b3ccbfb27282f816e2fea8eb14c4f200d8848d3b9eabb51698, 0x0);
  (0, 0x1a437aff556d5105ffd5058be772ca75a9479e038e4f7d7d8017b675162dae4c, 0x0);
  (0, 0x2ce6dfbe56f9bb35601616f7644317438a62cc5e1e36a68fed51397aa272697d, 0x0);
  (-1, 0x7b768df333c5d4f0f06d726029669198a96be6707d5777e1d3995e94bef791d9, 0x5bb21466d028105465492cd907f44a1e60183eee927ec7e2bda8d933f443a72b);
  (0, 0xc08579b18796932b27fd7de7016ae8207a9136014bb4b567ec2e605443d5b0d2, 0x0);
  (0, 0x109e6604157aacb8df7668b499b29a328bfc069331dc13070928d9860cca9174, 0x0);
  (1, 0x3b769ad35968d1658d8337c152b3fe4b4d94e724219070b6e2d5e2a7a4832be1, 0xbaab483df978ee07c0e81426f7f908e88bfa25a9a47a37fdde4ab00e396d2f4b);
  (0, 0xf30b30b7b4d86480ca61829ed43e6940226c7150fa2564a6ddc54eb0badea0f1, 0x0);
  (-1, 0x6facb2b811406a1e96f6ec3ee509f065170d9c71c006f7bcce7f1cdca5501343, 0xfd4624e8adf46e854920c7ceaa8644efc47e05673ae593ac29641d46950cb0df);
  (0, 0xab416fa9cc9b0afc4269fcb4fbadcdde6d0ca6a65527412f3e70fbd27a69d910, 0x0);
  (-1, 0xbf09bbb546702f7d9c3771a347638623537d339758cc294989f7dee828e1b907, 0x4dbba64d578f254abef5976767d5226891242d1ac1a4a22c1570ce0163c7b6a7);
  (0, 0x560a2652c3b1c8a9eb40d9b4b65e5300aa9e0d7bf83a9e02c6a3a05e41699793, 0x0);
  (0, 0x77c162f7c43874dd6228d56cdcf3486adba2a5f818e3e17af3dfc8cff62f1f10, 0x0);
  (0, 0xa57891b826df22f54d063c71d31b8ba3fe2d23073ca5af489751f8acc4609b77, 0x0);
  (0, 0x697dfd8ef00538768046e4fbdb6a2498cde966cb7cdc23dd05b96182a347a22, 0x0);
  (0, 0x4c7da97898b6369ffa1e65ae72cbb0ce4b93f9af7062ff735b1e1c25e9f0cecd, 0x0);
  (-1, 0x1d0287aadac153d65c61ee98e6e1241258de99188a176fa5c032e92ee3b2cb17, 0xd7881bd20a4ed959555b95a51b0a9e067778502dbd89d29b3aa9c4422ceb8bf8);
  (0, 0x7dd57663fc0ca01a2ecc0bacb937d3fcd7675e8cdb37dfb60d4e14d959ba43ac, 0x0);
  (0, 0x1903aa923b815c9d564c50fa11b6fb49f86386b337fdf375f543527c1855130b, 0x0);
  (-1, 0x5658ec240d4e931338db01c4b1966445b7ccdc692f74e9a3cd2dc9275dd9fb3b, 0x92bf75a44ca65d56ab9c98bc7a382a26271061c496f67df2d79678810b7aa2f9);
  (0, 0xa8510daf9a8399be213e9345fd3811a0111acd7cc19471f048b8841bba529b58, 0x0);
  (1, 0x33c7ab5347af022c8f29982faf13cc39730e17bdffbcdab6410d34e2eb0d7067, 0xa91ad89ed1469977e84767a5a2f316f0296eeafd4726267bb342332844b53dc0);
  (0, 0x4d54bba3e20a00899073b371890348561581888798d7988c5503f6c336d4a288, 0x0);
  (0, 0xcbe06b197ae9c1169caf84ae3ef793ff9ff4565c8ced09a6a6f8bb4ba6896ffb, 0x0);
  (0, 0xb120a0f2f25bc768a315115cd419b2a79719ac665034ec8d0a56b1ff0a2f5cf3, 0x0);
  (0, 0x8bfbbed6be8dea4ecc4a9e257651e496364935415a20f77a3dafa2b09dd536f5, 0x0);
  (0, 0x72cd29de8bb290a347e061748b6b821a46e5eba39bf8c8f744c7872006464575, 0x0);
  (0, 0xb819fc85237775367358457875a1a42f213885888048bbd9deee946c29766863, 0x0);
  (1, 0x74325d904bce04395dcaa55be33e281906f353478b70b250150baad5e5b47009, 0x9ff4cc7c63aee2d1626ba207f9845adbed749562cbb32dc21f25c9ae1a870591);
  (0, 0xaa7bcabd99352b95405f7c0321cbc6c1a79ce988814187c75de1bf92d1b86c95, 0x0);
  (0, 0xb21218199ccdbf7c29f181c87485fd1be9c239ab70abfd9ec67dc249447306c5, 0x0);
  (-1, 0xc2130d3843b86e69c54fc6a15c2abf964e28053c8170c2333556598cf9b81196, 0xdbca4ac91b4acdd82687a3472f69eeeef450e1e3a5baef8d178679e11c4f5ae8);
  (0, 0xa96febd48ffd3450631f7b992b2b8a9560ce510ea7b4ca2a48d0b24efbd3a925, 0x0);
  (-1, 0xe1e0746c7f03b94d5db139fe2b9055d463ced013668ac12abf6d286cb58549e9, 0xef91e063bc35240be8e207e5285ed1ba465bcb572ed11490fbbd151bbb9d3a98);
  (0, 0xd6f95ac3afd74d8c826d5bcd3aa6c75c0c158bf02f8b1057bc01cbd603648802, 0x0);
  (-1, 0xc775f7bf28abefeb335a3e3cf1c49b85f67d56627d3a4f059c52fa68b0000247, 0x4e3eb3e2feac0ed9a0d5fb782619b9879e28348b5ef60bb9f873295f82312c28);
  (0, 0xd996f34a50e2fb587be386d3901975e07e22697e27b8d115e317830401df4da, 0x0);
  (0, 0xe51cd1db6f8d5078c6c849a752877a0e3440769fc1075a7291f3ff45d5a3b6df, 0x0);
  (0, 0x4d435f444d464a82cec1edb9e20a9fa5643f694574f5ee67010186989d907f54, 0x0);
  (0, 0x27c01485d53ab74d8bdd756add187cb10958dc6d7d729284a831fe9897250f8b, 0x0);
  (-1, 0x24d3e98d2326d12055dad9b5aba96ef8ad36c01bd44623dc4f889c0c58f1718, 0x91e10f259c1285fea05ce9669c14f2066cef0be268c0df061dd05e82699c1058);
  (0, 0x97e812cf65e0e905495c9b15a52a219bbd3ebf831ee6fecd42a8013aa5362709, 0x0);
  (1, 0x75c7fbfcaec895e173d0b59905282c194963d1cb3698c6f9887a4387798c374c, 0xf2b9b387a173a72307db08c16a257075a5e0f74ff4f30f651d2b51744289c6df);
  (0, 0xb36aff67a381e53cf00ce5e6ec0393f0be398e388f9f72ed3f6ac4c65375b08e, 0x0);
  (0, 0x6d2b4e68322f6c1e58f65e87a8bdb0021560f923f63d3b833d529b642cbca207, 0x0);
  (1, 0xa57d63050d4e828c70a3fa29eccd0e9beb3a37ddaacb4733a66b958abe614c17, 0x5207107168788b5df9eb3b2947923cc6b65d95d2c15a6d05826fc02a068ea03b);
  (0, 0x63a5fc9a8e9bfa27f772cd92da199a26fecc081dc33b8d58dcd7b906a3cae835, 0x0);
  (0, 0x25d7c569feaa19b943e4a1955b37958cff422514a242febd8b5e8cb81bdbfc83, 0x0);
  (0, 0xfed5c5cf153c97e0ee269af2a0e3f26a80e348ddc1fdab1fa43e410921bfe29b, 0x0);
  (0, 0x75d94409eaf0d1e15f0a896cabbad492d721b1607f20505875ba64479b333195, 0x0);
  (0, 0x51b424b74bf8bc18806167b11506de17954936db5ba9cc5fc44c6b2fca0f4685, 0x0);
  (0, 0xdf193a394bb891eb12877d0aabe34ce9cc76983d64c13eacf00b2fc3eae9a513, 0x0);
  (0, 0xe4e5bb8a199536d823bf8271a7065dbc385e6b48fea06060201c08c5ec7422f8, 0x0);
  (0, 0x88473da9a751722d38ec128f64968e02b4df2f7d89002daf986938fc107d6209, 0x0);
  (1, 0x3e80d1c3389a0217433d739622fbc0b50b6d177f442c646b8deb77887f57ad1b, 0xc8bfebb18d4476938ec94d08b16f1b441cecbb8615771a91ca600692e7a24227);
  (0, 0xb226c095c0f1802d838ee17d4b2ab7197ebd583e28bcc3826a179fd7f86ff9a9, 0x0);
  (0, 0xf7629f9b2c2665fa6697b3738bb8fb8a4d1c0d10ea2f641f79e93af0e5735390, 0x0);
  (0, 0x7adaca0c273c49849889635da5f0aca555706a576f5c8720c1a43d1fbf7c51df, 0x0);
  (1, 0x61d3b07079d07c8e76c1a3245aeb2341c391448e04c7c49b77bf8080906c3c8f, 0xe6fd8fa5ad2ec419c91e947b09af1670e563bbb0545a645076687c14a937e534);
  (0, 0x927e5168915fb06bcffe6ec00838e9ddc202e31b97d67f77a23d944587a1cfb4, 0x0);
  (-1, 0x66a2170020699c77e1c3573227201d0ad11a057659a6e6e169cecf221e5c5531, 0x950039ee1f49be65ca17615e6768fb36b72fb0042c68084c66cf8570553923c7);
  (0, 0x96d76af367f58a3107c76f72cf08cc6d4a67cf50a6f68bb38d9f15d671690595, 0x0);
  (0, 0x139cfb8bd61c4aef6b492fa4a5863b7618d4dafd30c714517509357d0afda0e1, 0x0);
  (1, 0xde0bb8d0927e43d9568575eb11c24e57c856fbc3bf2ba4ee77d4f8d34c3b0878, 0xed23e954c67ec711f234be785216fa64ed731c7aaf333bd16afa832b8e0c2f3);
  (0, 0x52113869ce0ed30b456e3b9666f0f8c634e1effa8c30d008ea12a256e775c5b6, 0x0);
  (1, 0xb0ef08074fd28f81cf1d04304fa0a1831719e451e5a5ae3283c22589928ccc3e, 0x628ef4940ca5a5cd1e1257fc91fddac901e45d965ac58fff75085c4cd3c6982a);
  (0, 0xca570e2161abacbce47d2c570cc726999576596ab34e02aa8ac278f1f295f2ed, 0x0);
  (1, 0xc3f75e296bcc9664e3a7a561daaf4a9daad5daf5b5e319ecd26063e86fb1e400, 0x1814b042dd966338d0e8f5b6ca46e7c398a652f1da8104e7e0cd2a37ac437180);
  (0, 0xa5905d7131af9efef0432e1dca400c12c6715bf80406011b40458bdbe90ce3da, 0x0);
  (0, 0x2d8cdf017f2980de7207148e5f9a5a41d54d9a21358511990daad518df0d484, 0x0);
  (-1, 0x89ae342b1499c1b34d30838618e9332e6f5f4304aef117fbda34e764cc127da3, 0xa4e343403e6434d41920a3ad2355ee4528ad500167fefd6de40382d529b3203b);
  (0, 0xba8b4b55c24eee37d5a0cbe3589147a34d12d2cede4a8ed51e758585c837fd62, 0x0);
  (0, 0xc1f942dfdd900c0bd09a969a1498fe8a190c37ff5db8f7f9fc5fb2d9d7e8381e, 0x0);
  (0, 0x2e8bbbeac14b9eb39184c1f130b8cd1aab3f8ce8e1e3a786abbb8ff64405bdd0, 0x0);
  (0, 0x3d9b47061c0c39d26d5aee0002afc8c9491951c84d28bcd11b5337fb5cca4564, 0x0);
  (1, 0xb30e09704f3523a4f8d78e20502a6bcfc6c512eddd6737c579ef625ab920fd43, 0x4b30d50b9f2c5504d3815452012743f54cad08500c002b2c01ff4354e542cd3a);
  (0, 0x281778a391b99f118a42f64d7558c6c9bce3fa56bd3b659fc0cfb88e772d26b3, 0x0);
  (0, 0xc3bb2621fc85d751a14974fd26bc7e80c6a66d8a3b4658aed373998997146da9, 0x0);
  (-1, 0x46eca79986c763f1e200197425e8e043eaee696b86cf301d7e760fe7eb8526c0, 0x7b82ca9dfbc67c95854a89fde23a226dc5a8c676c6b6c4c64e3776b47b2c0dd0);
  (0, 0xb91830119581768662e51aeac760b2ed14089a3f9c2c4dc9588908aef21c2b4e, 0x0);
  (1, 0x56b2d52d4f262f7a6483f084e917f864ce968d984f17b72ccd5397d2ba7588b3, 0xbc897068a80524d3f5ebe6fb27b2355728a47af5c13ba9fe59c2281c6013d84d);
  (0, 0x3ca804014adf53965205e3a03bd9ac8ffea67e622465c2b5cd6425f3ed44e8e, 0x0);
  (-1, 0x924730d3f7647dffd813ec785aa9f97ee1cc833053ae6b45f100121e7609f14, 0x1645093af4e3148c6af8fb7d5b84ffffdceb726b4ae748f87aa49337f4daabe3);
  (0, 0x6e22e87bf038b912b351a7a7b6c5bddf2310caecd46dc8caee6d683d8095ab4c, 0x0);
  (0, 0x28042f89a69e02c4bf70e7afbc7d42bf476f6cbaa463099994946cf1334f3a9b, 0x0);
  (0, 0x1d2baf14158ada06a9c66bf861f3055430820f7e8504981c9f62be07d16ec12c, 0x0);
  (0, 0xa0d0a48ceac28b580444ce536f3954245824290665610ec020f2750d8d912e09, 0x0);
  (1, 0xcd3019218e950a2f40ea7569b069af6bc8949d4917ba48bffe1135624dc940f9, 0x599ac1df08fbf23ac8bdfe98d57e9dce0aae4664597ac6fcef2ff4a5f57d917);
  (0, 0x263dd4c6f337c297637781c169c61572bef38d3c7472eaaa9f792cd3a5fcf205, 0x0);
  (0, 0x3d728333c93f4683f1673d86ea45898de4eaecc4faa47a0355178c105c28551c, 0x0);
  (-1, 0x64ef23741e5a595877346e222b55b2749f6a29209d447d24bf8030ce78399b0b, 0x983f0a2122d84dbff217110674b627367a3c514504a7dad448ae3c95a38adc78);
  (0, 0x59d2c44787c7d17613e0b4f999deb7ecafefffa0e33901a9801448e0e40d40a7, 0x0);
  (-1, 0x4cab118bc9ce1ac18dc51b9af9e221eb270a8f1f283154148aa1a1e077fb1334, 0x73970a73d829f0afd0408f9ecaae89e3b542af941286ae239e706d6af29359be);
  (0, 0xc45c633c6ef6448eaea34a561363603bf7511cc83841917b68c693ef49d16953, 0x0);
  (-1, 0x4b530758d0329452feb53c743ca782b82d25ffa220fd927db9379f57f65eb9b6, 0x7f941ff717b5f6a8a12ed430afd5a5843882e0550072657e78b3d46c648111f2);
  (0, 0x9cc23661b0aecff6da69283bb3379390e52f79848e3ecbcf3fd98c791a47fdb9, 0x0);
  (-1, 0x3bcf4a54b5c37fd83df02f1182024a461fe43374e219e4e88eaa06fe9e69f765, 0x978f01dde44d372a4a830fea924e9e9e8e60b0f6f4c7e7a096a043805a7cf32a);
  (0, 0x7e6febd600d0765e297e92963cfd8f122afa3fec3ad75cefbe1add4d7184326c, 0x0);
  (0, 0x8ab1b2004ae7efd5291e6ddef0b89b9502440223e301c0419135c8396a523241, 0x0);
  (0, 0x33885555c4239cba157a536851bc57924e0343bc1067335ad025c1c9ba7064e2, 0x0);
  (-1, 0x66a4191d968e75b8746765cdffa6afc3a2cee83ad8f56bf5e8acab67b65021bc, 0x1c6972996075a20452ffbf0b8cb543045e6c0a6ef3a208e909498a8f98a1e45c);
  (0, 0x387503721e8a39aa90222512629f7952d78f285c28b607e3f79bd4c28499c35a, 0x0);
  (0, 0x1ff34bf4a032bb564a66b49ece35b84a05987ece2fba61afdf27a2452f30efed, 0x0);
  (-1, 0x32c576d365e0f15b47dac827629b77805a3f9ad7a764b2f55be6501423125d88, 0xe95d3a4d6becd15bca52377e87a4c82b80821a1a3b7c2d236feb40c23ba877e2);
  (0, 0xcaddc5bf937d6516b7daeb6c780f8ceaa82fb56f7ced56d29450d6bd880f6340, 0x0);
  (1, 0x9a90f67de7047f1ddc4b11dbfda55bde56b4c592d2856b712d2a7cb5f80815e4, 0x11f9abbabfeb2d3595ca72a63ae5f473a6fac3f3fb69ad9a9b16b754f5551336);
  (0, 0x33b42048141ffb408daef915a84b1257ef75d2b8c2b0931a30d401c12ba509d5, 0x0);
  (1, 0x388e0666f61bffb6b0be9c03cbaa5960c126409ae844678cd2eb361176f7e690, 0xe42d4859311287fb69a1ce97b41b17c4cbff210d2a687a79f3963faa305e448);
  (0, 0x85d9c67368acb6e284df0f4aa6962d8ade5f973483bf878956fc4b1470402734, 0x0);
  (1, 0x72bfc36b5589540da6a1296d47bae425d77740fa39344ca5ad6a975bf4911112, 0xce5722092e302a03cd78f311d9ae2cd35a0fb880a4b1a66e61db437c722e8526);
  (0, 0xadb246e517dd71d882056b61b46cb54f99bb720b40b10a5a065a4d668dae8eba, 0x0);
  (-1, 0x454e2a8da76747f0fb595f56b444f3ed72247d56fe12fddf31d8560457b521c2, 0xf348965a835022cce8a69201331ba2c38109dff9023293205a4ce79762208d5b);
  (0, 0x6f9129c87753fb34788633842e32647794865d3449ce66b6a738103c28ac312e, 0x0);
  (0, 0xe6742e50bc134cdb4e85132f6f0455165a5e7399279525adbf1e38452a81adcd, 0x0);
  (0, 0xe477d4cefb706aabbfd2e26a3ebcfbdd8be117e27a2538325a56a109792d913a, 0x0);
  (1, 0x1da33ece17435d0feeb48878ac7406af72dce33b1c992ea8db134c703f1d6c57, 0x7c8a9c8eb7ca8ee8e0884d48976f33017a98c170f321c0deba43cee240b06fe);
  (0, 0x915dafe4610d63ae0e999af2eb0f47d556e998fe66b17ceb14a2f6d5cd53904b, 0x0);
  (0, 0x4fea21832e00dd08676e41c40d0853638ccb724e73b51020f590fd0f52711a8d, 0x0);
  (0, 0xdd3c688035409753fdc3c5f157dae7be77a33a189b3c9abe7af89c6f8c915662, 0x0);
  (-1, 0x6ce5ffe9d7dcc139c9c7f212ee80b57e45faea67cb8295c10a6c06ffefe840b1, 0xa7ada81c02d0e77fbfef3798d1ec97daba1ae44f9c85617629f35813c9150850);
  (0, 0x89a92b8b0829f8380aea85cec6cdb7e6552b417d462b47a67079ed18a185ce3, 0x0);
  (-1, 0xd5a9ac111f06b9992df7c709671a7b8f553aca7f8ed4e5a816b5132d7d23ce7a, 0x4b0ca7ccd2b75de6cfb8d3c3a103012cbf589b62cefdba0d33f16ae57f6727d);
  (0, 0x2451724154539d9128bd1985a2a0a4a2c74f111dfb97bf0ea89ee8b4f5e90e26, 0x0);
  (0, 0xeac69dbf2fd6b7f12a70ae9676e2c26ac1e58eb0631d2941b07e049ccd40e8be, 0x0);
  (1, 0x97604c0d5a6d714f756da215815bcd2cd6759ab6ac268f6d01a483eecd1e22b6, 0xaf550125961051fd6778cd5bba373fee024bc621f7882285b5081a3eb9b72fd3);
  (0, 0xd9d5c6d761701b7715af0c3abeb24bdd43e012b79838808a5f1f8f19d9fcb44e, 0x0);
  (-1, 0xe7a0b70818c8561b6d05ef640702652dac74bdb77a84353dd0c3c34207393dbe, 0x35548f4a6a0750db38e484360017d581dad749bb9850a2f4b3a4a20670411d46);
  (0, 0xa108ac69446ebc77001137d7feb731575a1a2b9faa7f7298d871a40db0644c40, 0x0);
  (0, 0x9288cf2cc14a8f6f750bccdd9d8f982cfdae61a3e32874e52233329e05a4df8e, 0x0);
  (0, 0x3cf41c142a533e0d91212662958b0c2ff137f61db83c70b4cfcb6055c5b54927, 0x0);
  (-1, 0xef7c848cd55c8434335a5588e6f249600f4f322e36570648a7ea0bc65692f899, 0xb5406a3af9daa48674ccd9fad581598b4ed0c807223164e09dc7ac95d8cf356e);
  (0, 0x224f6fb0e5c25978961fab38e218d9403f6d8f7d081b58eecf066c66e987f6c, 0x0);
  (1, 0x9191c21276a2a97db2fb857ea26c8ae9d843497d3cc1b4ca1cc3557b56fdf18b, 0xf3fb433059f99738116f9a38d643f4008a6b8365abaa12809e357ef02869eb44);
  (0, 0x95c1950b71451203601ef32007c87db97c54c1b1b009427fccb463a206b3e370, 0x0);
  (1, 0x43929cf063d71ba8105545e718f6ef8e33423611c9e4c6d13b51ff5eddee6449, 0xd865678d368a907bde2573459c7dc68b316290d08ed1608f9708cb6ba2e3b590);
  (0, 0xb8b0cf7774a906eb761ba682a08c44869e77b71b44f4e1c3d14da1b76c9a5ff9, 0x0);
  (1, 0x1ba79e6811eaf7b0f3e2594dcbe9388d837e4434196cf5d694c1f1b1737e3057, 0x8b8f2818a3e34d6191c9244c126051a6cd01393227d12376a1078be51720e5e2);
  (0, 0xa2706cdd9c2a7eecae394b5224cb6aeb8d94b66db4d95a54f3dc43a8595adf63, 0x0);
  (1, 0x996a409fcc5c300cf686472be87db4eb60ef76af92e5dc9dbd69aa7f1085a4bf, 0xb9ed2fa3d6515027ff22cfa04db040019f9cc64475c399f715b322a392f0a958);
  (0, 0xbd078f9d42f6ba2353890ac19514cc28b84a1bf65fda114f3bf3ff2feee108fa, 0x0);
  (0, 0x9ad6d8d9ce0d7a83a082cdc85dbaadef2a6ed716e94da172fd7054c7a9e9a990, 0x0);
  (0, 0xa448103ecc782ca0bc212cef7980f3812a473f73f0d99351cecb17e921e39594, 0x0);
  (1, 0xf45cc6b050f046a27b394816fb12e8ff22ae409b92b5d8c09e43d1e9e04ca951, 0xd5994b0595c4e0b562c24beeec69317dea96ed55f28b5192c962724057c7c7c);
  (0, 0xed6cc5615171e2e4f3685b4fab0b1387caaa9b2754747675c342fd44b25b440f, 0x0);
  (0, 0x62306e91e3bc43aaf0c42c3ad8112991d4a3722ac7340a8d57073e47b0e8bab5, 0x0);
  (-1, 0x45595406fd9addfc8e39794d29835dcf778e569fc33f15e8f8f61e5cfc9e15b, 0x3903bacb61fc00994beb1740049cbde453f96ee708df3b68fd60be7d2b269bf8);
  (0, 0x154e8d0ac8639958a5cd180817729be3e2b06c2f65f67d7d7a484166297a56b, 0x0);
  (1, 0x61af5f40fc97f10a87a64969c6cda0b872c746b005e895f2ebb0d2b105f364ba, 0x452327a7ba2d2f50ea95385cf364bec8038d08fe7e4425c352c61f45c4329b73);
  (0, 0x8de4bab88995befbc16d1ffb07a8de0edf3221cc7a8059bf31b8927d9d83b227, 0x0);
  (-1, 0x21e3cf078b1cf25d27c9a5042f0c98604d5f72f7b90e3bf3faad12fea8d84996, 0x55a095d2b3d56e253b67a42c8e53e9fb344b3d00003aba7dceaf441939294aeb);
  (0, 0xae3a4864b65f3755dff8e8901e2236d9989a10585303510dcff79d4c5d0dcdcf, 0x0);
  (1, 0xd719252849aa0d6da2ab8ed8997b7b93e77c91f5f1635b789d9de94426f52792, 0xaca60bcb4c602b5a500a4d4f3fcccbf0febac8ddc03d232833cc6c12212b6343);
  (0, 0xbe75f1f97e45ea191e359c5b0e73c66ae0c059319ba3cfe3599acaa766596395, 0x0);
  (0, 0x5a4e998683ebbec86e13917b05c56ccb89751fd1b82ba64c6010671e50872e, 0x0);
  (-1, 0xd051830f27d541e0b00b3a1ee770954960751b15c7fa029e92f056912ceb1fa3, 0xb2edc6bcf69cffedcea68a2c17853e26e6e4dca241aaaaa8c63256e68abb9f00);
  (0, 0x4b575bdd5f3fd57baca7611ca5b67a8ab62b02db8ad768f9dcab0c2c2f830142, 0x0);
  (0, 0x53bc57149035223966ca04674d74d94878f9206aef006d12916fde93a71febca, 0x0);
  (0, 0xae34e217c839d17ed525b9fdaaa18b9a3afb8b6dc6f3ba9c3e231012f1923c1d, 0x0);
  (0, 0x7370d032ef8088a9e02febcd7fe94dffa2958ed2c371a3966f93a51690497918, 0x0);
  (1, 0xb7b26c9563edc9d6b83be1015a1de7520072e6a529e37b0334d0428a0cd4b0a8, 0x863e3ab6ba08cfe24c47106ba89b6cc983c110496a9263f09644b3f498a489e8);
  (0, 0x3919d0a8019877507d7238ac384d81a85847df777081cb0dc7798d323571b40e, 0x0);
  (-1, 0x1feee524c253a18fdc86ba7e62cb48f6c4e462d27c4cacacb7c49be00299dc33, 0xc2e11b5eb35732e2bf81b2e5ef037de3f038f9b4325ab0556e48b2c35ff8e542);
  (0, 0xa2ef8a85c11ee1d9ad14452c393524f68e0259a40b59d6d8e0470db85a41ae47, 0x0);
  (-1, 0x7b8b5dfe3aa30e6bbd40e6c8e2d3147397367b7f60633aecff849e6d60995d72, 0x15e5a6065186233d3d759e8ba8a460166bf52db392f009c30788b3ffc4bc844d);
  (0, 0xf4a3ce9f4739f619d52fcd8758d3be849ca58413330acfb8046664232c88103b, 0x0);
  (-1, 0x6a5057683f93344f6429ab555c8cb82479a56f3a9654b9307628eec65978953b, 0x130019c47fc7034507d6802709df9c565c208f0738c3776e0747e11d1ce0352d);
  (0, 0x9e3e35482113ce3fc144f3731153f8dbbc555cac683c6cfb81c47e0283b82049, 0x0);
  (0, 0x8e929e24788cfe1b66ecb662b2b14ca6e9ec7ba6a397c73cf92fa223af89765a, 0x0);
  (0, 0x96f4e472e8549f0835d7ae520d2bc28c3d9bdd203d1778637cdd36ec101fd6db, 0x0);
  (1, 0xa644350787a05607838ac633033ee504fc6bfe39ce1466a124f661045e496250, 0x38789a00ca2a992f639b83915813d2c4dd837b6f4eccb813e2425ed226e56175);
  (0, 0x3b9a71a3109b244a60e57ded1c73c8e03a0a720aabcb9f3fc937be481ed3efc9, 0x0);
  (0, 0xebb4405e20bee79d6ed4ea1abcb0536906c5e079d982d429686d7232cc15aa58, 0x0);
  (0, 0x3c968d96d60156df481d549251946e84fd21a8e9ddd3a5b13c2c16045b5e00bf, 0x0);
  (-1, 0xc0be0a0f94b582a9709862c9e25f985c48e79d50dd52886b87a0617bdd5060ac, 0xd2abef9fcffeafff9c51cb0258e58ac7c9cb481441a449456c6a7ddb1ad72c14);
  (0, 0x244ed631c890fd8aa44bb5f2eea81966d5f1c3de2a6bfeff82f3b9b2343546be, 0x0);
  (0, 0x51869d453c9cfecbfabf1b0e3d9bf0373fb4d4f0c87c23be75c5697c9db1b424, 0x0);
  (1, 0x49874ef6659748b1ea52b271e61f530831b9f9611084ae821926371791651f20, 0xacb8db10f7629238e5e25e3bd692a70c246e54040dcd9070e9255bd9ef813314);
  (0, 0x825209d0d9be8d8a296d954e77693967dbd44881c544c783179caa37c69dcae9, 0x0);
  (0, 0x2f3045f92d468d5da7dadb3a0116b20aa3cf5140870891157ffeb7fcb5bd6c1d, 0x0);
  (1, 0x4a10cadb960e25c233b6bc4f26cf169b1e0293efdf22a089f9a92fcf938d1d7b, 0xed45830458a2f1d1921e42a49ff12154f4b34559917042607f0b01484fec2726);
  (0, 0x6fae03166a4bb16cf21de6778a4b42284de12656636d7f26bb1cb52ecefd0a25, 0x0);
  (1, 0x357b7439f5c58c1da3fac751df93ac554968a004910c8d1fa12b46666c916451, 0x4e592c3ded3638d9595d7a96a4c401dad5c97142c652933b7a71909a41169d74);
  (0, 0x319d5c95f9b394449dff5d56cb4cbee95f4b9cb2943ae4a9f6c409584cd04b88, 0x0);
  (0, 0x82b4aded6529536788a6ba84547476aec794880174cf61b53a27297b0ecaf0f6, 0x0);
  (-1, 0x4bdbd6088ba310de641c5852d3fd4715db97f172cb88ced97ef8f231abde9e25, 0x808666fc3c3da751424665158b69c630e21eb42b8d55c8f08434952b0faf733e);
  (0, 0x8469d50e979c537bf69fd19433d457126fa6609753a9555fe2bb3e3100228bd2, 0x0);
  (-1, 0x81a7681ddeedd748c48321b8675a27211ca6a4dc17d12c04eec89c5c00bac27a, 0x4c24baa839ac22bee949aebad4c50c07eb2f638158e7c18621a2d2ee8bbc67f7);
  (0, 0x43df860697291f743201c56527d06793e1804ab3b3a3e824fae28a9a2489f0e3, 0x0);
  (-1, 0xddf9c00d949bae09a8709fe6da4cbdaf8fe99a1842dbe2128f88e185aed99e8f, 0x136a2d81d5b3419d44cd4ad1a913818551cc3ccce5dd6b5a4451509378b5a1cb);
  (0, 0xa6215d5ea1ab3be2067fefbbbc011eb9f2ead5126acdfc725cd1cc67c9c31e01, 0x0);
  (0, 0x3e683ae080a5d8dd8a38d9cd64cb689b544496a32c3c3c519901f6fa78e85348, 0x0);
  (0, 0x446615ad4c951ed05447db83a8e5369e46299acd87bae64ed7015f29539f600b, 0x0);
  (0, 0xbfa1d2c346b991359d301eff7c4a6aa4b0a5932bfa6a0e8a5a19152017f30244, 0x0);
  (1, 0x485e8705d249dd0a54effbf24235c1c3c42d45747524419158a0d63eba8b3d44, 0x802d5983b8c2e8622335968d627cce651aa657ce08a3fce97e7e989ee5b6c8e6);
  (0, 0x63149c5d2223a46bc58ce09296ca782880e634f63e448ed3762c15c71cd56d98, 0x0);
  (0, 0x293d265674f075811227be6a4da1e4c024b563623a6082f49785c5fd95ccd947, 0x0);
  (1, 0xfb08b1fb6b2be8828c0652e6d623d8027d415b67be0391fe5ff3ccd8059e340f, 0xbc4c0c0691e05902f9baac3c0b8cf8eb7d0cd459c6a80cf19d89de7dc2d6acde);
  (0, 0x45cbd0df5cc3afe0c6767c7d5b349aebad6f50b1d6cd28ba0b6b1343347b4c01, 0x0);
  (1, 0x4e61c43a30ed711cb3b92316b45738f11a837a868c0aae463ebf7330800ba336, 0xb5163d904925deab5e389f21f2f08cb38fb9213c064825405834da5c5aaf6013);
  (0, 0xe430fd4829668799b7040f84a2cbbe353817a9ad422c2954de9d55f522077e5d, 0x0);
  (0, 0xbe6e32663b38cad65c1d56a36770c3b8dad6380ccbb81f95d99dc375d45ed3a2, 0x0);
  (1, 0xae9ff7b1088d8bb06cbf389b2e213a8170ec359a351432427328028fdc233518, 0x68681b85c14c48b462e19a6b37fbd478e1b4fadfb15b838e3f9c1f125df7ec58);
  (0, 0xe35aa27ec1059fdd930c7eac71a9be990e6304dccc0614eb336b9d207e4eff7e, 0x0);
  (1, 0x763cf44cfce67a6b49cf1e8404e0952fa7b0d27840bc51759c749ce4afc905ec, 0x290b84689e93243cd901da84c3adcb0e1491095f18e99cc5ffdfe6425651b6c4);
  (0, 0xc397b384785504889bf907dc5fa240f36f0b64505ff15ead9daf4a7a8d6b8a6b, 0x0);
  (0, 0xc6d567ecc5e889e883d47dfe0e95601fe74de515468f7340a7745d9732b20e11, 0x0);
  (1, 0xb7b6c38cb98e9963a15a605474cde9056848e9b5b8de6b6e7b05fe19f15b852c, 0x7b43892b1e02ec54bbe532e03bed3fb0c41aeefeff92595cffa25ff7e2b09738);
  (0, 0x674a27aa60545ef1f420cb72a8021683c940749318c16e93a5cc7482ef0f740d, 0x0);
  (0, 0xa58a0cc089ae5e1e5af16c9a28029dec68f63e4ab230d92a6053c91bf4af54f3, 0x0);
  (1, 0xce43abb21e02cf6a2171a71789eb6fc5ce603dbd50eb77c5375a7ef41316186c, 0xc59331f95db20af076c97cb76f7baf930eaf75ef329717f59900e8ec9617133e);
  (0, 0x8af749a26b000385ca953fe6c8ca9fa2c643c889efb300b671c0db7d67c8ee18, 0x0);
  (1, 0xe7b542874c1fdffbf33a51dcb287e4d8507f809b42ad834719bf554c031643e4, 0x7d39ff29f2118db46dbde6d0391aee670ebd0c469d5403976c6b8e87b223db30);
  (0, 0x1971a4af10395e3e464fb454422b1b2c4e9cc513240cffd65e96d4a4d1b8ef48, 0x0);
  (0, 0x519b88fae5b8127a3cc1a794570a604246c5c4c8a791c5adb191db20df3a0efb, 0x0);
  (0, 0x46cce912e35711a8bdb191cf4feac7e6ac927d41f4b543f14dd38557c6ed5da, 0x0);
  (0, 0xa1fdf1b6198fb9b6f40e29fd5be6121196bde8a5a35c60a51433867ce2f79fd8, 0x0);
  (-1, 0xf5e01bde855eca99fa9a41670be29a26330edf017d05a8ae9c2fc7287c832330, 0x99e08a6f6587390f879c0c33fcc7b089333aedfbc6190f0b196d8116715a58ab);
  (0, 0x70f849b323cef4510ab07097d892307b16a9d1c88524dba5ad4dca43dadedee0, 0x0);
  (-1, 0xc767d2616d33c94a5e271716fc3ce61ca36a1f29e4a493374f9bd0d88d50e2d3, 0xde5070a69efbea4392035a005e1b019ddeeedd5ee396c7bb8a4fdb0a901decb);
  (0, 0xbc6ffae40777190700f5fa0653946ad66d2d587e67f4afe281cc9d4f23f024ab, 0x0);
  (0, 0x8f189d9fd8462d672b0e5ffcbca71110bbfc46f176a9ffc5e866af7273f400ff, 0x0);
  (1, 0x43e283ca0a4e4e5764742134bbef5affd9ed813b8f3a24dc67417d9ea1319b6a, 0xee18f6740728fdbb54e4f7689931853b3f71d77fb63fc73dd74cc588efb5056e);
  (0, 0xefc97aea51778669443ae07fdbcd5859e59ac714ca0a61de0279cf874409e634, 0x0);
  (-1, 0xc199af65b9b8561dcd74a1dfa313b098aff64421bacd2169dfec820c590810e1, 0x201266b609fd414d649503c4b0717b092ead57a648e8f5819644301578521b53);
  (0, 0xe7425914a5ee80ac2b72e3368ca5bb7f712e3032105f321c1ca208f0e6573542, 0x0);
  (-1, 0xc3ad5c741b63a4c7bbd91387502fa7721487006386260722af076d7b727b4285, 0x9b2df994198efc316efaf34ab593700e3458e92a92efff49cf265651f2f39d50);
  (0, 0xd7c049fa2237d396ee3d29bb885e32de9b88aa3c3b41e339c4371cb5555fea1b, 0x0);
  (-1, 0x8ad7a17bcb8ac6bd28ab1fc1d001fc7779ed6233f246a66fefdcc4c3a00acc6a, 0x7125e577d968f42141232897bac94f4673880590aaceb7c0e8fb9e1e930bc0a6);
  (0, 0xef5ab9da580f559a7d9a25a3408b0c7b3bc9ffd9561650e633c6bc73e8237ac0, 0x0);
  (-1, 0xb52187ec988a3294440bb5c6a5c727ef57c9462d16ae8f2a4b00b0a40169814d, 0x9e510175a1f76e174bb83763b45eeda80e6ffbd31c7b8162aabc4cb12c7b57ca);
  (0, 0xe08aa8672a5c4782e59ceb84581e92a953fe1e7e647a35210cad4699c0c8f6dc, 0x0);
  (0, 0x391d071b857e14b9cbbb2d6df933a960ea7e96d0bab1e325569fc68a34de09d, 0x0);
  (-1, 0xb0c3e0bda1d313fb6e613be2823392be296ddfb362d997dad9a72d53672b61b0, 0x3242058fec46718a3ea86c4f3f46bc0efe9812e4933755f1fde49cd77aebb154);
  (0, 0x8a3d07c31892fab2b7a33a31ec22cedab61eef2e0a5559d1dc27a2bb645fc639, 0x0);
  (-1, 0xd008c94b89da98dc4822cc846831a8e27139ea4613169b85984d7b3906d25308, 0x4d2028a8ca072ec3a36539f50c1e7976b4b71f5008dde912a47b6d97660e098b);
  (0, 0x86b38c813d14656a6e2fab1e0aec4ab9e08d49ca93f61cb11362c4e0f9acb5b2, 0x0);
  (-1, 0xc6247bc8ac4117009f7767cf37d3f9f30f60e702af2d7351620d6bf10aa3961f, 0x7ad7a22e864f14f23c833ecc1212e996c809c6a821eb8e3013d5aa687affd5a2);
  (0, 0x41951f93ca658c518d216f5dd329387bd362d0b5fe3bf7159e1de94302f992ba, 0x0);
  (0, 0x8be00c8dae27c96b01e161c92f6f0b2f45cdc641309c6112a8d7d502616e59c9, 0x0);
  (0, 0xe8178478b66146644ad7287c43f05c0e6c8203a98e9b9cf852ffb53c034ee8b9, 0x0);
  (0, 0xf6ded369b0957ff38b9aa5d3f844d8073e158e02253755d141f65d99a4652fcb, 0x0);
  (0, 0xb8337ee9169a4f6d4aca63bdbe657a02c19d0a6c044550544ab3a5c56e7903e7, 0x0)
].
Definition chain_hed : list (Z * Z * Z) := [
  (0, 0xa249bcb3191802d3cb56fc75a8731f848e7b2caf080f3477a4e4d904a671af9d, 0x0);
  (0, 0xc2489a9eef61dfa06d3741ff3b405300988bd0db42a937859069b9cefb576e35, 0x0);
  (-1, 0x3d3f7094389059fb29d62c12aea203c23c53ca0f84ba9265d34346d498d0ce10, 0x4173ca5cc88f55c9ec0979af5de4f23ba5938c69a78cb58a4c2643205aebe99b);
  (0, 0x4a9ab06359263e9d745cb65a2c51ac731df3819a1bbba20efe18e198a5073626, 0x0);
  (1, 0xd812539c96dc846ec1596e85f219d7bd46d24f996182d48debe38e911d262895, 0x7296220afadbaa1150eefc6ec0f332de05b9ea81b6f1ae04f7a8a9edffa271a4);
  (0, 0x4bf29ec34acd1ccf472932fdbaaaaeb53ff71a5f78dd442dbc736da3f815c4c0, 0x0);
  (0, 0x794739674c5839ddd069514f2b267d181dc860bc27b307ca7e01d1c585e102c7, 0x0);
  (0, 0x4b670e3632afb85299474ed3ac3f44a9f51e5ee17dcfbff385c4235cb51ccf85, 0x0);
  (0, 0x8fcb0ecf5c3b06c51f0ed3c2b0856d05d27829cc4ba7a126beb14eefaa69ddb9, 0x0);
  (0, 0xdd70477152413e082d27463274d41cbffb9d7d0f36e584941b7fb86d3709779c, 0x0);
  (0, 0xd3295992c1916b33f425cd773c13861bd204a101415a4cd14c2d6615a810aed3, 0x0);
  (-1, 0x900693074c9e3b4ad761ab85d6ca583446db90cd5120613947a88114a6df2db4, 0x9d302b8e512e60647038ab196e203ae238422ea446b32569055c5607af13d37a);
  (0, 0x2a4ea314820ab76399535a6403d1494abd39d419c0721ca227ed7cf0d0291107, 0x0);
  (-1, 0xf797fe48a565bac9c003d7897a2a400fc86b730119750df9f88618e5da666505, 0x72c8d778d66a166b0e8d90649d21581ea5b8c17e6583d4daa3b9f725a8a5adad);
  (0, 0xf4876d313d95d251a33a13ad305eaefb134dada48b471569dea3cdff2da3dec4, 0x0);
  (-1, 0x6d9cab76053312db41f37a9839b2138152249aa0e81576adf738f05769d3efe7, 0x6d98455ca94dd1f15c27ce26b44dc46ad20d7a120e9de83142454b21447bbc9e);
  (0, 0x4072e8a45c3cd59ca64d3383fe1e8f8b006defc42b74db9d2f8246a8303bd156, 0x0);
  (1, 0xdd7c431e21a48e034ac3b2e41b31b1e5814ed0cd9d27a686837e8a2c5c826be, 0xb61f0cbb547096ae85416186adce877083f1bbbf737b3beae6335464037ce511);
  (0, 0x1ba0e823ca4a1c33e831b20aaf04cac3f8578f7fb73b4907f05ced2958f94e4d, 0x0);
  (1, 0x73ab2240215c86fa955b345bb8a2d5de9afe7305f7af845e5fb8145e1d0ef06d, 0x971415aba008cb11c2f89a8d97ae4f38732934a48e7e7aa99f519277fa63e60a);
  (0, 0xb5dd3c201e5dc8c53a34995ef9dea74a4da2cbbf22967b294d38f385435080f1, 0x0);
  (0, 0xab521ada7f969aba81cd70a9a6ba03e11377b7052f26eff18f13e0b31d5f7a72, 0x0);
  (1, 0x3ed4d5594402dfabf56c6802f570d6d101eabbbe102fc91ec29e762c744f2e23, 0x3a01590b8a4b9f108b3b9198951451dc48716701d7bc04569c08dac3e929b124);
  (0, 0x9ee34f70af167997cf014b01de3bf30d3857b275cc8339785246089b8a0d3014, 0x0);
  (-1, 0x240dde93cd5911a3eba6439ba099686838513a4d028efb629a4c2edad426732, 0xccb2f1da8d513d3edfea55459071b158e8296a3c2d8c556bc43e08509bcc8b39);
  (0, 0xd03dfbcae938e9d4cc816ffd092b424af54ad97a02b0fa07defb14d5a8b20a6a, 0x0);
  (1, 0x605cab5b36cfb07de0f8bdb1798cd6765a92e64e55e6adde469e41b3b61bf1cf, 0xddca4facaaa73987bb0322040ce6ede9a5849318267da9fdca237575e467f020);
  (0, 0x83a00239ae39ed9d56b2a1751efb17de5cb92079e64511a93537c4fa14e06d69, 0x0);
  (0, 0x18d3a23dccac205e88b846f3f39c6a436470c5a10982d3577f29d1091700abfb, 0x0);
  (0, 0x3b64683b35204fdaf46a93c7681df45670f07fdc7c85a55e2eb77d6b91e13646, 0x0);
  (0, 0xe027e3adc557cadc2a4b1f41f2bbcbdc6118c7e7c4d1cb35bf562e2e6183070d, 0x0);
  (0, 0x99190a35539681b69cd429c6857de54942ff3b6dbf8ca8756e4ed961c430429e, 0x0);
  (0, 0x2cadb36f2d7014f413b05824b2bbabf614b10c2c9930a374df2b6b141716c5d3, 0x0);
  (0, 0x6cfd20ee962306abec86f68e3684248878164410cdec6a401580d2fd1aba9e63, 0x0);
  (-1, 0x4eda73baf997a831b39f9c1b4f6fc7c859e9a8b7775dfdf7bfbde650ea30429e, 0xa33f08cc7f5c8dea8176c6a77eb189e7e0147d758cf87ad31160f41461f07251);
  (0, 0xe0a55f89af52ab05b4e2617aa6b20555f2d2a6c1f275c07c9b60ded2f9648f23, 0x0);
  (0, 0x2be80d6dbddcfccc424d56684353ed66946f3ba6b48e3706d9c2b1287ed64a6d, 0x0);
  (0, 0xc80a8e4128c7dc26cdaa2f4086ccb0e81e529a7bb74d03fcfd2605e2bc3c5867, 0x0);
  (0, 0x4e54ab2e7fc14c3e9ca01c9fd1325706e5fcc376d867cdaddaa7932ecc01efc5, 0x0);
  (0, 0x2d371639e1899487b04a98a7dc4de7aa12aa41f81782cba3da45429375c77c09, 0x0);
  (0, 0x16d971bbcf2e6808b7a3ed0ed4d10c8527249c56d868e3af1c0dda37f8f2f773, 0x0);
  (0, 0x9ced6dbfef7c73076ecb37e8a1d2285a832d179b59f2deeed93847e780b53edd, 0x0);
  (-1, 0xad875e117c8b60587c8e9d7c99f3a78eb35c5c8291cbf06e419176ab55f007b, 0x9d3e1a04b928ab9058e7b0cf4870e7699fd50a78fdb803b36bff2aea7a1a6fb8);
  (0, 0xffc337c43116536ed2b6b5b8f62018547038230913ae74181d9c842e3f04d98e, 0x0);
  (0, 0x4fd8f1a3e18bf160bbbd8fd40bc6201b597dbdd84fe6a8a68c11e856f0facf58, 0x0);
  (0, 0x6f5f475b6684f10f631b01915aa93b023923c87ffe21ef3886627a2ded80aeb6, 0x0);
  (0, 0x4f808c752d740311d2c4734df9606c3b3d7c3438d9d0f6ea1d13c14961c63226, 0x0);
  (-1, 0x819567141bd200e48a5794554ceb6e4111266de1f933a61362d7fde365c9caf, 0xe1ca30fa1b41637906367f976416d572ad964e47f0212a32befeb5cd397d7a76);
  (0, 0x494372d6d6e3a762088df98ee249212d1061c8d24be489388ce54595f77fc3e6, 0x0);
  (0, 0xe4bb1c6a7adf8a885df8929e9c7b080475d4cd5cc037883d40b27bb2987d8186, 0x0);
  (1, 0xb3f28a48b0558d9f425d50f98e2add7ff438c58addb3b60f7d3a18d9deece2b3, 0xf9c4666c068b0fcbb6d0013a947b692292871e30389e6fc1cf03c5954415e6f5);
  (0, 0x7ea721b049c48f4a552ed37a1e0d1decae6c9948f867a48728f1fb39adfd3d44, 0x0);
  (0, 0x29cbf94b1310eb454c10990effd1f6bbed3a1b1c0ca03d5987c40f29aa8ec6a9, 0x0);
  (1, 0x9b91d14c46e017f6bd0d49a13fa4d89312172f3bb0b31040f03bd314fedf7735, 0x531d553f1ba363e5d9eda69c61d91b03ea3e9262951f2d8b0e610163d11205cc);
  (0, 0x7fd87b23f377daa7dbe523a65777ad2b1e1afd3f72c84c9ceed856c39b135bdd, 0x0);
  (0, 0x75b3c9f578f7ce1427f164d02bcc368e8a96e91717b030ab5266471437ca1161, 0x0);
  (-1, 0x22a41eb9482a5735ea8ea91b60f2563eb6112298220c4e43a78bfa0150988bfc, 0x4db5ba911e8dd40d6fde2baf4b03fe5a16abdf7b81bba42f2f5cd73967b7495c);
  (0, 0xb6ff92a46f697915f5137884ec1efdc0a9cd886a299d767294bb039ea7bd44ae, 0x0);
  (0, 0x8b0407508b9816a4e3d8651497d9232538eac626644a9644d2a68eac5c0565c0, 0x0);
  (-1, 0x2019b9be4a08cb35772d10342f5e195183ac591029c0056c51f7ccddcaa17ddf, 0xdc452e2f6d165e6ca3cef8358abdfbc22ce58cf814fa0208856b33351c231db9);
  (0, 0xdeeb61a25ae3cf58cf6f6b8b9a546b2d9816f8637d91c28f62ba13a82fea679c, 0x0);
  (1, 0x928493bd85a4b4618a55d9989abbed3fff1fda9d9961ef97534be05cf0ca62e2, 0x24b8ad580fd697b05b28f4736ae5112910e7959fafde641df0e218ed1559b505);
  (0, 0x1b23b01fb309865c3443d3dc3bc390a1831ce6f80d27dfd85eb02c3074ac573d, 0x0);
  (-1, 0x4282fd922dc63e5d8a8b35967f8586348d6df63ebe7c1e09ef173d51ae750627, 0x4dccba4945312e36c7855ca1c9a9b12280ae6431e4f330375d3a0ae289256842);
  (0, 0x8cc27e0637ab79d690dc85df6ca3f7b1af013cfefa0443cd4bca0a74e248e1b9, 0x0);
  (0, 0x6d264329e6aed382fdf0118e05d48632f7ad263d08134a68baed7009ec4c8375, 0x0);
  (1, 0x7daf6c4c8924ad35ce20711a13ca1031a395f9c93b03bef09aef9c870c831cad, 0x41233851516922aae23663c710d57a2c19d5270701a2bba69809612c028629de);
  (0, 0x7a435a5f6fc6bcd0ce4a6e5200e639d7ea839d9e7f1f0ddfbed736f7e22eec48, 0x0);
  (1, 0x14da802b548522ea4c26b80e49df39a0285fc2950bf1af5d3c80e1acd5ea9b57, 0xc9216c188fd7130694e089874d2e9cd47f9507921d00c7d12d6c6c79d6aaf35d);
  (0, 0xfd740ca975e0234c7d731526e55b3fd4ea3dcfba9848df4a23782ca47bc086b2, 0x0);
  (1, 0x5d424885c4a47699a4e078b00e13c4f269fd67e0d9d38b8e81dc7bbaa6a7833b, 0xc2465287663546f25694d800d4b1ade7f29093fccda4a2900b2379dadb68e879);
  (0, 0x53b693654c51fd41cfac208bcc467142250c8a507f49f0f88a4dbd37e70f8e36, 0x0);
  (-1, 0xcf8a71524f1ffd8dbaab25aa061907e08c11ccf715a5fdd303a787a6fc9bd842, 0x486a8175ce3c1405bd378611de7793482fc91d5b283cec533b6d57a1e69ded4c);
  (0, 0xad5948826f5ac293b9c1bf2a745df0fc5fbf01a49be116c8df3426116112134d, 0x0);
  (1, 0x6e14b4736310a4a05722047f0dd7bb8296f51df2ea1ce357f908a60854923c67, 0x9d4cbad6d14f28b4b279300c913051e3e1fea2a0cda16f9cf4535c43391e5fbd);
  (0, 0x95b9b878fc07af27a1a457cd4db8994c137d16747cbbd649b4356ab1df0e3991, 0x0);
  (0, 0x1b317292a3e78a3371c33b9df4e053bc742d7ceb125c375c8ae665c4857633e4, 0x0);
  (-1, 0xdaef16f0d6d4d5ff28bbca7985379d75b40dcca5c7a9c9b9338de29a18ddb87f, 0x6e2e31a0d626ef63337778aabd9aec065525cdd0e838dceded2e03e260bfc4e9);
  (0, 0xd0f101e3d5a9031e8de98ee0f450ec39ea0925ca816456da61fab4cdcd35effe, 0x0);
  (-1, 0xd27eae34e3f5c4c2ccf48089746bf6619eae6f057e8e407ab7805833233b083c, 0xd5886661f77521b65279a0a76d8b021e3ac561f3088db991e1f0313a9ec06342);
  (0, 0x12265548e5875ab1b559e1da0ac6c13d26ebb06a2d51796f7b4ae888c42ad11b, 0x0);
  (-1, 0x8cac427dcf6f6a8c1e4cde5b54a9f473b201023eccdbe75ba27ffa7aa1f500cc, 0x1a10f30f758158ec98e14745a604fbd8295474b06092bce5faeba71daec88789);
  (0, 0x59c08256073107a784a9b590292ddb45b971862dd76d28976e1a4c089233f205, 0x0);
  (0, 0xc129762d458a236b07139ccb60219daec4002a5de23d03625ec5f8057ccd98db, 0x0);
  (0, 0x9c371cc90097557a0f9377ee54f9a81469902f992b3a6ece7933282122bc3519, 0x0);
  (0, 0x112f71bfb0d2f8170fcaab9d888f4cd9aa700b2a8cef06ee4438aafe1540d14c, 0x0);
  (0, 0x123ec88bef24189cf6085fb51f53e5f8139104203be5d142c41ad43161c53c75, 0x0);
  (1, 0xf9a5d7fc5fce7d9474d626253897a5196a32a1320164a63c60c45ec77e0ee279, 0x825adae54aff9550db8abda280c849e56b001526e1a12623b49b58d2815d7f25);
  (0, 0x74f5eb2f44987196181176153a26c2584a6b2fe6aa512013dee35e29cd9b4c71, 0x0);
  (1, 0x36015b260e40828bb3a5eda929396967236f9e7e10bf048af68491a6148eabca, 0x90c72e52207370cf5a045d01530a372de21fd5bfc41443e1b2bc15eadcc54d06);
  (0, 0xbfe78a2c44a9d7c1f5d09f561b1c479d0b424ea894c4b5e03b85aff0b0872b75, 0x0);
  (-1, 0xdaea619bf93571a0e5305cd50468b30cb12ea94d9173b347bc2cac1f3cbc801b, 0x4a5deee26d73f69a3d2ab443ed4f7de8b5ffef6094dc7cb30d2d965615da04ae);
  (0, 0x74b6f6f6b536b05e8be1e903a58caa26cf53f59729bba5f3b952006f54ac2a0c, 0x0);
  (0, 0x61104bd9be47d4581b393c32cec7a1ad28e213bbd7a520f8891a8553b79a9a26, 0x0);
  (1, 0x3cce47fbfc5b9a54b091e13381cd5dba040d64157528d4cf68daab032817c112, 0x2dab68d44d5ed11534ea20e3b188c10e86a747ddc4c0c3e914e01d83dedb11f6);
  (0, 0x3472e6b8983728570190bd9b09eda97a8b50f23cae5e819b8d9d5184913ac0, 0x0);
  (0, 0x47bb7668f4471992614eeafd574d22bcfba6fc37e7de3210011b49f0e26c4130, 0x0);
  (1, 0xfda197aa8e1bd136e9e85a297b0773e3643a6d9e010fd238f6ced07995b8a731, 0x39fc37101b5963dd5842f6bd3bc0165239b5f6fae98d2764032b17554a69f978);
  (0, 0xa6054dabca2aeff7dfa02f35a74b2abf0a52018ccc1bb61294b67d8a82fa0af0, 0x0);
  (-1, 0xc91f35309c7d08873dcd13c869fc2e7530d22fd8cbcd5accf924045e94d7d1fe, 0x1a0be336007bd9324432cc606a19f5280ed391aca3083061a408774b2b5272ea);
  (0, 0xa906042e69d231b5c3b520789527d3835b4690a5726f9254f65286cdf95133ca, 0x0);
  (-1, 0xf39b72af601fb6570a6707d04a6a79632e8c354385c2136d91c993063041301a, 0xaa2b82576dd31cb20a0c7011854e27a4ffead31b1e07571db43a0a2abc119aab);
  (0, 0x9be805a5f74e1e1623ddf6afdfbe2ad34e184a6f72952392bb3ad1f474a84d4, 0x0);
  (1, 0xed2eddb7f0ff21ea0e2e27330eae8ede9669c86c8b7a475b588b41e315846de3, 0xb71dc74c5212d0b88fcc854fee5decca1adc944ac6db5bf7adfce252967a1f9a);
  (0, 0xe71913b254d240bb27328d8a4abc448cef70b053267e97225f5c33e86b830359, 0x0);
  (0, 0xeeed47ac56d07ef80f6a19e8164975e09df37770473a708289317bd006042912, 0x0);
  (0, 0x9214b3272695f2c93ca1d3b976ca775e26f19b64ad723aba8022393d689159b0, 0x0);
  (0, 0x2d590ba86618c5194066ec8fb19ec7953a67c738500573ea10de788f17fe9435, 0x0);
  (0, 0xbf06dc1f1111c6b3b419349668060aea9ce1743043cee8a5d8e563bb07fddeb5, 0x0);
  (0, 0xc5833324de878e402231c1f73808287b5ec1ceef80f924d6e7930667b5f56de8, 0x0);
  (0, 0xeb60cf9f096b0907fbe7c4036888f8ba9ce082cae4e4bd412225911975eb3b33, 0x0);
  (0, 0xb9734cc86058a4219f1a979c234dcd941e2c3b572108bdb0702604ec37cfcc0f, 0x0);
  (-1, 0x9301530ff84aa2ec777e0a78d2513de150242fd6db9804705eeeb74145c4d8b7, 0x88e0267e3c65c53b055e475f03393a55e92bbd7a37dd5276a7b001ec49f1f8bc);
  (0, 0xb1d1daf2b77808baf559f6245d5745421082cb41a8b3d003afe0149a4eb7b2a7, 0x0);
  (0, 0xd4368359eecccd51f9fe2adab8bd68459332ddd17b77178081a763e9e720b692, 0x0);
  (0, 0xcb73105b3ff2b18726715b202526b1d462480afd7d3ebd5d34cf29548ec0c1d9, 0x0);
  (0, 0x831ca115000f47bdfabe70fcf2671c311c75aa2581767e90a67fc5e4d4cbf5f4, 0x0);
  (-1, 0xc230fffdcf5e972b7fe63a2ac2508693d506af23f05f4380c98125b195a48ef9, 0x6212798f81a7af3d7a8eb2520c339848f8faa5397eee2722e52e5f4a1e04ca33);
  (0, 0x236a6ae3a02b305bfb5ea0222dc6a435b2ab51beb5ad0da06fc389aaf983e188, 0x0);
  (-1, 0x42a74d1e2c8a563c8a49158f1b12abb3055e0361ce56bd438aa7670ba1595d83, 0x7c49c7648f2c1e08ce4b1d1c7db64e9ca0d8679bba5f14fbb975c2996802c3fb);
  (0, 0x5bfe14fa97021d82011661df5cb79c96e9db49992b0775c4da9bc0fb099a89f6, 0x0);
  (0, 0x34a04dcc469def2bc1c320c0d2aba555a1f1b1fe6c837343c687bec24f95f889, 0x0);
  (1, 0xe858808053ba7f76bfbfeb0a1bd0b35895ca91f7242a489cd9a3ccdda190c477, 0x6adc8de769e1336d23951892fc54c7c7297062ab7e63ccf976278324403d5982);
  (0, 0x6522601cc8d0bd2675e0bb0f36e68cca813f47a1866e8faf11cf26d5c0a45598, 0x0);
  (1, 0x49bf676efba8b9c3df626c6df264e709e9608b8c3bae953a154d76cced9a795, 0x52092576f448442238a1d73420568a0460f597eeef6c4f745c55a1b1feb8003);
  (0, 0xf3008a95307baf5aff1d1f637e946b1867e1f6b9bfebb28ae75844312137e6cb, 0x0);
  (0, 0xe369e411b63c35acb1fa618f75c9d7a4db3a9f1284af354c929a2ba6379d9a9a, 0x0);
  (-1, 0x8a91b454dda3e1e0a57f6f7a1d991bb1e19887bcc67f143e7057eb517da4b9a5, 0x42b651d2aadfbe9d840483c997dbf4b26b5400a8d7b41702b0aa8019e0a5faf4);
  (0, 0xc744f4cc907a48caef19f3e45a0427f6abf5de3b20ee61059f5c581b05db6fa3, 0x0);
  (0, 0x2da173a1617ed0820a99f2fa347f92764ebbe7fcaa65e001926de0e4d513023f, 0x0);
  (-1, 0x22bf8ec19d60649213df2927f3efb315d570c44b52a53c3508de04a9fa40a41f, 0x1a2cc71558fd52bef01d68d5b07f2b6fdc74e5f9d35c49e909807c28a23f5632);
  (0, 0xfc92e0947a60b3c97864549d589e5459ccb76bd30a4591b0bc6edc741ecf9830, 0x0);
  (1, 0x3ee7184fa2bbde7449f5cfaed216d65a78ebeac0319ca779f05ec9392a6e6b60, 0x35d496c75e92c6dc2a01f1ea244ec7be3dbac2079fae6545d09ab9fe552837a6);
  (0, 0xbf8830a4ef337353aea4d81ef662b10327b818565ec558b47b985d3ef80ef2a0, 0x0);
  (0, 0xbd379f05d1080162306a56ec5394e38a7e0e19e794365049c1c6d5d6fd0a21e8, 0x0);
  (0, 0x2b68d463e0c2c05a944b4baf6fd48bc732ef8bd3457d0b9315370d88308f4c93, 0x0);
  (-1, 0x969d32f1eb2c319a70b3dbb27fec4a1d6d23f996fa9b959a94ceb4dcbe59a912, 0x574c14a5c92ccb42728f76514ce203b6f6155616551851ac2ae384b55365d197);
  (0, 0xca2885e5055611c1394676bb46bb6ec1d50c9637e1de3dda7f2498a97c18157d, 0x0);
  (0, 0x438439d442ec28f53f350b1cd34928178bffe22ffbf6568fe43efc35249819f2, 0x0);
  (1, 0x7240a5141b7a59e78b4ac981b4b7102dce7dedbd0fde4a66e5466a49ad136c92, 0xd2af6e2a26f8b82892b53ca0d0da3734d4dc8e863bcde1033d9562b3a45f2db);
  (0, 0xa973bff8fe18b7ac5f4c703918734606dfc4e3099dd76a55e7dcf36e2ab5bf14, 0x0);
  (-1, 0xc2c9188518a3a5baea674b452db2b177add8d1c66a780318c6076b1e5a92c711, 0xad0f6bfe600bdb9cb3d653ff935657e3fd0a877c48d741f6de2eefe80014ed54);
  (0, 0xd0cc37b872984c2e62338fb3fc1d3aeb1554256909c6f961c4488c55dbe4ecf6, 0x0);
  (1, 0xae0a68d66fde9545fc27749092436896d17f468ce3162e11d8cfe668e89a10fe, 0x68f3a7882643e469efade6b087171da41cf5befad22c130c8d57f48279edefaa);
  (0, 0x810b16d66e3a310a0129184c2ffb56d6ce966a4a828a524035bc2e90d774feee, 0x0);
  (1, 0x5fff2b98191a8ec9ab70f117b6d7c3d75ebe302c73208892552b9859f65d0d18, 0x6c6bcc2d838ed4786a313d0da502c9f3c03043a296f5791e633ab3e30cb3f80e);
  (0, 0xf36ee87a39e4f756979809d48289da3216f83fe1aefda3122ebf957afe7137f, 0x0);
  (1, 0x711aecfc63db35eb9896838e88ab5aeee84cc199d46f0208ba4dc49f3cc7ab33, 0x510b859b7643177ae8c44ab2bdd8f644f24e1549475ee198e881c845a2fde23f);
  (0, 0x4fb85856ef6549a83ea6e42ee6bd501cbe6d84d498510665066b3d13ea95e062, 0x0);
  (0, 0x30cb3460f2265442dc20b54c525c687f0c6e8ca5d520645d8abaad4ff2b74ac8, 0x0);
  (0, 0x4cb7feec32e4559c7c0e1fb8d1df148cdeafa92883b29c83cfcf33e2f90a4eb0, 0x0);
  (0, 0xe6937198ec4a7eef3f3b81c55075a9cf032e1ef3c6ef73f1dac107f67ad2cd96, 0x0);
  (0, 0xedf7993ee9c2be8fafd92fcffa173496a780d3a74810943166d952f7fe501e3a, 0x0);
  (1, 0x81896ce2bfda5fc41d308ef0cedb6712c5dfeb9923026d4547150551e237781f, 0xf213912ae55781b33b89c12a2c77883a0de26a46418e31f6462284ad05e9f462);
  (0, 0x9e853f2116c5b88d9c4374e63a22416f1d47121b52b8088deb8497a8ba1154d9, 0x0);
  (0, 0x1346f47baa483e054364732b2b12a17f85d803bcaeeb45333d4113e637092fc3, 0x0);
  (0, 0xc2880010a102446debf820d8c33ddcdc2e42600620ba22251c92f219e7987eb9, 0x0);
  (0, 0x82bde2426635bd4de114a780cea0ea1aec8eb70f18808d189c398501844d78d8, 0x0);
  (1, 0xd2bcad17f865f4fb465bdc82083070762cfe78f2bc4a70ff3e8250614d47ddd9, 0x7a6b9842dfefe549bc96d2883f5edb010101357b59678bfc8abb172e3ea1ef5a);
  (0, 0x445717e4c97c7a1c61a2df10462282cbd0c0a7ab3d260764e114540932932de9, 0x0);
  (0, 0xc80ee1990b8d67f88990691b55aec0f9b899fc4b46fd381d43c4883f75002417, 0x0);
  (0, 0xb0699ce7f90136518baf905c981b3a1075918b8093d41e7f095559c96491bd5d, 0x0);
  (-1, 0xbfa90ece7cd1852e71339e8e66c8bf15ea074478223a0ca8d6f7cef603716144, 0x5e3c97cd91a5a06f4eab08e2a0fc0a2ddbc98cd1f4a6f008f925012abbc53cc);
  (0, 0xc05b440c15dc7300e85268110271a7361514ea46d7199e11e8569d85b67478ba, 0x0);
  (0, 0xa3b615afb629d799ce3c1f4affcd4b3fca3f78a239fcb8ef50d9cfedaf74bda4, 0x0);
  (0, 0x16c77c5e4a68f962b526433416cbe6b15152f6391a8e02741b3b28d58fbea120, 0x0);
  (1, 0x313c0ac58627af86d05ad10998f7efdae6b781b2bd0a3b295f89a520f5bf5132, 0x2c6246e631eb1b75ef4a399db54768f6add9e4c0667b1dfe2714fb7743332b2b);
  (0, 0xd257290278006fa7b13ad5878492024f92a271ed0110367bf7dc4a53102f6163, 0x0);
  (0, 0xef04b7c23d44d250a69380247288c8ee787d274495dc22017b381783fec9b252, 0x0);
  (1, 0x90d5df1c1e0e3fa798015ee6f37572120f940666713615529ce24f2a0e9c2c86, 0x35270bdf0f8bacac821d517de3668b9562b7f564e34b8735fd12ceec9fa898f1);
  (0, 0xec443299acf3ad60de85c7b522501803a13dc255fcb7d92ca4622eed7115b515, 0x0);
  (0, 0x993431cabb8673629849eb844993c16879f7e847158e29e676165275636f874b, 0x0);
  (1, 0x564d7972576a86758b05445c30cc6c1eea0227d0fa673db873ac5defafc35b28, 0x7cbd9d6a8d95eccae52cf95c2bdf465e0703a920038a46dcbdf102be36ef2c24);
  (0, 0x42faaa7857bfa0c077ba293ad23bbe98e48bf761ba683d910a4551acf9071edc, 0x0);
  (0, 0xea25cd5980aaecb6bb634001e4089fccf8e1cd3de93e2af612a2d4e26574fb49, 0x0);
  (-1, 0x11ef70d06ad1cf3a891fc2a5f70430dfcf589a456c01cd76146e421e90aa64fa, 0x9bb8618c126690f8288f648e1ca7f0665d4b19fe396ed99aba64c806ec681b34);
  (0, 0xfc61efc0ccc6faed617c209186fa59043bc992fc40774f5bb008ee9c262b980c, 0x0);
  (1, 0xad25a1ae62872f340126a0330f68b78240b070d92fa27b38607e8efedbe0f557, 0x1ff9c0e6260b37e08b7bf8ec2048d52d368fda24ade1f3a3b3e32eb0b17fc49a);
  (0, 0x1d98fe644d36b47d83f9110f4e2e0e357271eed347012e0f4192fdf191d8be6a, 0x0);
  (0, 0x7b6c01f8dfece18adb3c6bb1c3120049e87113a62601029f2dfd431b8623d496, 0x0);
  (0, 0xf35ce62e467d8a53b2a69ceee70636551c06a8a6e45337f8846610f770a29c4c, 0x0);
  (0, 0x763145f20727406f8219f6e4ee2efc77019b0838b4bc193050bf8b8f87ad6b0, 0x0);
  (0, 0x5a1d20fb09af175337bc64fbcc698f827d79f714542eea5e5eed208456a4c122, 0x0);
  (1, 0xc1d300aee7169862559c8febc4add51448922ac0077f28398c6e574cc427c5d1, 0x32dd35412d6615e8421a73dd1c47398408b3fbd63413b57f6766e552f46c8f76);
  (0, 0xfd44044ba513e0888da8406c85a378bc47d287d390356a48a1108a0aeb808313, 0x0);
  (-1, 0xcc066244ae07980ecc89671176bf1ebce1cee367a8568367056cb06f0a5f5c91, 0xac4658279aa2f47f4e84e5b4494a6f2c8bdef4246f545f4e5fa850ab916ce0ed);
  (0, 0x82e13b2fb4c97a637792f2fbeabf5486e0d7c8e207e4b9da5913f7f19f24a3d, 0x0);
  (-1, 0xd900516365d6d706e873e498024981733dd1b17329c02fd71f3f5717f5573669, 0x9b71300c77bafc5538d798f6166564188e47be6a76d7f094df874c759333af7d);
  (0, 0xfe0d7149a4b4bbe288ae41b00452c50c18b16694680b7611578909214ed541df, 0x0);
  (1, 0xb7fe179834d6df14413e42789d0028771e40f3c8826fcb9437606adc0044f645, 0xf3e3cb5623bab9024e6957cf9c9b3339c542cf6ab937ec5857c3d07a700086cf);
  (0, 0x4bfb7fa928834a613380fd4168e6a76a49392c4e58e8313f9f52c0024dfe2f07, 0x0);
  (-1, 0x4676ddda7fc7215a8969132ea1493f001254d4564070c186c5527ead5a6b2b30, 0x7d16b841fdf45bf4c2f67a146d95eb5cd0a0b95434190d018e2f664c23c2c259);
  (0, 0x876bafbfb7d8ce21d4f511170324dbe8bf930edada4b84fd60c1101d832d512c, 0x0);
  (0, 0xf644e049ebc2df59cf81282abd49f53d7a97aa160f1ed8711e0d47a88372e95, 0x0);
  (-1, 0xed5f40c53cbd3239859a1db175fa7e434b9c38e2b8389eab82509bae0f1b9f7c, 0x349ab673071e33e501810364a9226af3de69acb13f2d33809fc6172962266744);
  (0, 0x41f54a476f672bcee9fcc2284e7a2c12d4d3fb10481dbf5f73bd9c2bf9ecdbeb, 0x0);
  (0, 0x68d10d8ed2731ebcce9ecd57b08a7d3296308de716d80301e589d385f1518af1, 0x0);
  (1, 0x3e42d7c68b93888e59ea32c7050cb46dfc512714bba816f1162d5f32b690e23d, 0x73593b43a835a786203e07ba938608973b6058c0e143064f1c5e4d094fbc9d48);
  (0, 0x76d303e1389cbcc5559624cdbc6e65f426dc6a4b570e7758df968660c460f434, 0x0);
  (-1, 0x387d9287da528ea620d0b8836203729d56d1dcd3e5a0d4ddc38651ea9ed0fc97, 0x7f75f6e86b50186601ea513ccc317cb95a28fc447f525622508fe57c9798e80f);
  (0, 0x25799685a0afaa8c92198eea8dcf6cc77a9ca2cec228a7755b5bfd66889f97b2, 0x0);
  (0, 0x8ae524c7f3b462134fb63be97c746f59b136e62401a6097d9e4e60c3cfe6f807, 0x0);
  (0, 0x1cc857f4591552fb94b5869e1cf1ef42b0e4bfb802d0938e9cf069febcc6299, 0x0);
  (-1, 0x54287acd51abe7073b29243751d2180ae59c81bc5647124dee299df01b4b117f, 0x98a6dc0b2105f43353462ca77beee2c524dbf397663ca735bbc812f4217d7932);
  (0, 0x1a2293542e04fa80fb5a23982a8b3eca40e08924c120d526766f2b5d7df9c8e1, 0x0);
  (-1, 0xdb56b80d944a3ce095e6ca0ce0ddba9a766191fc90c7c978c9d8f3e39aafc410, 0x1d252880794731d5a7c342368129a9874f9c36ae7180129cb0590cc7b48f560b);
  (0, 0x1a3672d216ef38d125af6a1c09c43c9fac9d2fd08fa8502778a615e6c4ac85b0, 0x0);
  (1, 0x2abda8f7faa7c809da70c448957016fb86ffd8190e1a84901968709088fcb99d, 0x482bf098cf15ae6f5e1fd20b495a51d8da09b3270a7cee58f81255e6e4a2475c);
  (0, 0x911452dd33674750fccd89cc3f0c455e9cce882b7f080d30b4c34d7097c554ee, 0x0);
  (-1, 0x63c663b4a7c2b1e912b78d4b8f9d2f9ba39c6e5cda383b60e614205b40071e6a, 0x20e78aa93bf5add29df525c5dcd80f114b8e882b506cf84fcb97c7d4e068af8b);
  (0, 0xa0e05108350fd15bc3cd3414898415b7e9810366cd2eaf692682dc7e7a891f31, 0x0);
  (1, 0x3bbd5057cfdb84150157957526a5dd123d7b943ce803662e8821ab9ad1dd49e5, 0x327f6e5e69ef15bd4cc52246d7cdeb7fe284707ec6adca7a09b3d49c8c426221);
  (0, 0x23430ec50c582c2a15dc580e88ff92e178539b0a9e9eecb46e1e084e7ef215dd, 0x0);
  (0, 0xee13b11dbef32ac10444fe3bda9309eead5556118fcca5fe9b5ef60362637a0f, 0x0);
  (1, 0x8ac8e0a6d6052f33ce8f41f831c835a21dc78578c99a5d3c12e988fc864a7ed0, 0x345b5dcea4e8a860d69426457d32333092057d9e85be917bfca119b092918293);
  (0, 0x62930f2470f5549eb8a5cbcf440ca3969aa8387ed7b1a71e109d59587a11bb47, 0x0);
  (-1, 0xd604f9779109bb25e953edde21ddf56fbb41fe52a8883d1c22bd0c656f3d254, 0x77f3924f162e51c4bbd0adb7aab9b5fa837857782fe5141899dfa71bad52d2d);
  (0, 0xd6b46863e2f4efdf93da13ee38a2705252c7a76db11107773b4586f48f0c6f67, 0x0);
  (0, 0x8b5a1c81b0c45fc7d2173261338f4f98a91d3942f5633f7227624a4b7e3dcbfb, 0x0);
  (1, 0x5ce9e27c77824b2cdf2f26016c4871f4ca5adc76cc02e73e61528136d31ba1f3, 0xd7e3058f07c968dfac7a81082ea148d8957bf66c13b5d45b09f4419310ceaae4);
  (0, 0x6f2b987eb88686e1d5118771e3ad0cd01393c6ff9e6b58a4b0a4c6d2969c1d10, 0x0);
  (-1, 0xea8132c191656b00f3b31bed8cb807b09e973102ade948b9d5244e5d0fb6067c, 0x8e38382b0f524b0973f3031dd87f11bc39aa82a02fd7c1629f926716cac335bb);
  (0, 0x9899e1e5af69dc0fc0d691e6828a05433032bd136a83c07196815cc52abf283d, 0x0);
  (1, 0x54f116ba7f158cb432c714a272ef24c42c887a562ff6f0fe65092310db15cdda, 0x13daf6eebb90f8758be45c92e39aaef2fa491b2c83b4871de70a66041de2e9c5);
  (0, 0x15ecfe9a86c70db46bbba73aa7f8438ddd8c7224fd5d3874508612687dab1c99, 0x0);
  (0, 0x43cc6f437146edbed3b436d037004e46085fc72e8723fe4f78381a3e57eb45e, 0x0);
  (0, 0x6fbebd910a965e53b383647971e5eb46f71d653861b3e5e2db61e8942de92c39, 0x0);
  (0, 0x21da0394927473fa91608b0f8d6db4c3b6a821f4f0c1fb942b8a9ce0aa1ea773, 0x0);
  (0, 0x5e975777d6d3816bd0b354b9bc2c69890985c27d7bc89f8c41596ee74b3636d0, 0x0);
  (0, 0x4fcc8ac784985296ba3966e639b3a731054fb16dd00403f698dc8e57e381e652, 0x0);
  (1, 0xad5ccca29a4de1c37e73125d900f979f1846fcac012db9681b0de37c17bb646f, 0xc8f5d15710c5e68545afdd6c9cba42c4973236788da0608283e67a7cd72370d5);
  (0, 0xf1cfdddb892b3141c0db730f94371632f53deebae29d5732e7416a99c8c4f277, 0x0);
  (0, 0xe37e79e0bcb0e335e1053aa520f0b3498ac29f7710db7839e2f11abe05b462c5, 0x0);
  (-1, 0x271434d63192c2ff2465bd52788b04eafa6aec2011b14105410e9b74d180985, 0x4c33f54d4f7697a63ed4e7683f35078acc95201dfe11143108e361b7087cdece);
  (0, 0x41b05b8ba8836b04a7b7dd12f7dc3953faa1014d144ba6c60d84bb7dd9d50b70, 0x0);
  (0, 0x510425162ef9e6b0abab53b52b48d51e7b5c5c1e485481a9d4d7ffd86e58124c, 0x0);
  (-1, 0x98883a1e7d774b69a47b8faeaec18832c97b27c6f86b3e7f6a4781efd8997c1a, 0x8976a042edeb2c0dbe544ff6c48f279e21e3bc7fc0731cf74d41f78ebaff7050);
  (0, 0xfa2697585c5c0d277404007b256795d433989fb86fb9532b34f255becee02ea8, 0x0);
  (-1, 0xf705c56a73b7b2a3408c8534a917ba5ca9e14d78ed2819021bc486a7760e071, 0x3d7c0ba593c54c5202bf96d6308b1c2513916c7cb89048e63bcfac9c93fbd927);
  (0, 0x638c696acaa0d6e2b42c08345370457450de1c44cda2268c6be9667d154a1cf7, 0x0);
  (-1, 0x6516461423c4953be6726def23f953067b83492c53b8bec04910e79ebdfc1851, 0x50c29eb3f1da6380f2371888e93dbe6d491ad24ac22521bd20a42c0e9d610f67);
  (0, 0x2f1ec0b81ce1d8fba469954b8a6eaafbd17b788b4fd7b552ac6dcb2ff0291dc6, 0x0);
  (0, 0xb3089946195b0ae66dfc63621ab7e5fe40970f49a5016fc578d53ee1b689fbb8, 0x0);
  (-1, 0xb7a4910961b775c411187fcfe1a40ac24b23afa6722b4c7b27ec5a95cb583d42, 0x6ce8acc8f7c30146b857dc6e6e688b61b94e1c6a5ad0cdacb224b1ff6ee4c81);
  (0, 0xda57a02ba8a81d51da65809b885617ac76098e57a01a8c32716f9adb97bbb4ec, 0x0);
  (0, 0xc3316d1642f610988379bfcc981ae13bc6ad5782eb3e622ac35a81eec0d7c5f0, 0x0);
  (0, 0x40bce4a8fe1786988c953fc29f1ebac0900ec2336b311eda9b9bb406f004ea02, 0x0);
  (-1, 0x7da38bc067ae0351737f4f6ac4f0553dc5bfd8cd458158d592f587c990368752, 0xd89ee8708af3cecdd117af18c886d81f080c396c7dbd00801bcb4017d91bb317);
  (0, 0x33bf83a63558853f748ee41f9b844b5fc893daef33bd174d223f70fec42eb200, 0x0);
  (-1, 0xf6fdbd37b7bcc6d2ee352ab529b3eb45d946c75fb0bc497ab3bb481bfb14a512, 0x664312906e32f9b073d9039b540e8b5fa5d690c0e103a7ad4f2738513b00cbba);
  (0, 0x55a34d34abc7cef3041426f83869d0de7d4305263188a76254bbcdf690686565, 0x0);
  (0, 0xe92fe712763c56f34a66cd74ef87fb4ca69b1b4a737722220057fbcadc1acd09, 0x0);
  (0, 0x935e15c72556f87f6323793c837e73ed3cb5a56421fa12a45e966d14e3b97d8f, 0x0);
  (0, 0x8e4acf2d1df3714b686c81f60d18932416bd559ec17dde02ab833e66b29f25d1, 0x0);
  (0, 0x9dca0730233e3a10a5488be732eb2118b550853cd32848522eead5eb4f634aa2, 0x0);
  (-1, 0xcec757de5d26885afab2fdd1f0329dcfb0ca821a94f9ae5278cf5d69834f7ce2, 0x21035fd1b49bc472f9fba12c09597f7b7730a8c205b54749a8ebab987ab6fa41)
].
Definition chain_pk : list (Z * Z * Z) := [
  (0, 0xa249bcb3191802d3cb56fc75a8731f848e7b2caf080f3477a4e4d904a671af9d, 0x0);
  (-1, 0xc2489a9eef61dfa06d3741ff3b405300988bd0db42a937859069b9cefb576e35, 0xc43b59aa5e07eece8d1178caa23df1d4a345f07fec8a4edd40df51f680a162b2);
  (0, 0xcffdb37b9cade05fdb719f4ad73b00878ccbbf536584dc9d3ea8a8ba9b0101fa, 0x0);
  (0, 0xab40f035841123b3c17483cd304400824d7bb41358162d7ebd135cc10cca8974, 0x0);
  (1, 0x1f6df16d7d668c1461a62603a25c5ecf812d0db7b105567aab06f20166315ff2, 0xc95e96ff2f498b5e550696d78cd45235c6d8819569ee99cc7be1a41508948616);
  (0, 0xb4000aca7f93134d40aba3522871b6448a205481a8f7d0c737ad34fa2fe2a296, 0x0);
  (1, 0x7580362744c9283aef2bcd53e1fbbe80352aeee569fc4926e460c3dc12e43a85, 0x9a728564047c4401dfa0caa0ede89a3cb505ee56afa0f367bac7844f8b92243a);
  (0, 0x77df087e51842e30eae52e258670e1b7be4be325eb257b3ac2f05008dbda0812, 0x0);
  (0, 0xca7a149ec4e9a6e9dbe25617ce15cd5eb63d01c0b12f63647ccb20c7cdb7a046, 0x0);
  (-1, 0x2de3bb618be3a5db6b50d26358325e9043ab43b22d94318d62b9d4c5dd46a991, 0x45427670efcc1b9f858de046afd56f2f4b03c8d352b805fc59a00975d3a56b05);
  (0, 0x3346f252f260c10800b5dc4679d232fae9dc0c0623a4c604b5034ae1f906fa7b, 0x0);
  (-1, 0xc13d99f5b4ce4af7503b3ebbed31f88b7b572795441957535c7e8f4aec13d1f9, 0x7081d74479318298f8706942acc32d60bcadcbe98e8cd44326a94b9a5a2dc914);
  (0, 0x748a3ef080a0e54f7b211a3ee983aba01edfc2201d405cab5b920db50d3ebb1c, 0x0);
  (0, 0x6f0323fb9fa20cbcfe028ada85871c298b932caa3d7fa0e5c9138efa48a5d7c1, 0x0);
  (0, 0x4e95476bc230281627b934e0ec0f0312a440fb9cbaa29733d71db06d2d3f8dbd, 0x0);
  (0, 0x5107fa2c3878902bda5c7d263491f675f1045a810d1677ed8c97519179726af, 0x0);
  (-1, 0x103a6d2dc5807b9c65bddb2336c0cc3ea2e107a1d9b3012fc42d7dd7dee11a6b, 0xd6242855eecf73455af612f04ecd5d7589daa36ba17c93bb9fcf9a871fdda281);
  (0, 0xf9618d7505d46681255e11ad7e687b176130d9eedead56d015776b01abdae543, 0x0);
  (1, 0xf22e6ac6656f80c9fae17d8662414d2463e16831a368d2cc34e44a140adc253a, 0x157f6b57e361fa9dd8b596e2575d70464ab804173accae4eb7562b6e76375ce);
  (0, 0x5660bd2bf3f6056bf2e275079d4e9aaf97fe6ab6bbce8ddadee923dc68d0882f, 0x0);
  (1, 0x93f4739f89ffdc79aff4c808067d08232188a60231439ae84a60cc272b94e1ba, 0x1cdd1e9140a3f60921004a3af8cb37b18e6239655ad58eb9bd7d8cd42e833976);
  (0, 0x43f42f85e31192c10fba4ab24236bb0f918a29ea8255b4c41cc6185333db8dd7, 0x0);
  (1, 0x1f53fe4218fb5e1f49d9d6b65cb7d9b0f367adddeb12642673cd2725cc698cb, 0x13092f77a96feffe81206d86e6ebd648e680bfb3041868f4d323dd66b7ee7895);
  (0, 0x351aaf2e57029e10675fe2a0cd2c7050ddfe93515836e874fd665092da06b377, 0x0);
  (0, 0x92cb59d6398be67ee9b7b2739f4c794a7c5680eacbbae5564f6339b5655e6c30, 0x0);
  (0, 0x8881bc566017c98d445278efbf7cc431881336dd0135e3ebeeda200810fcd925, 0x0);
  (-1, 0x2ad605cbc20f08cfcfa92d3a4efec3f653d9f534056c857eaeab152e082f512b, 0x742fd74c13fa74eba7f05ec89adbb2e3a6e8abd61f42d9106bd8d48164290a62);
  (0, 0x342ac5931bf7a74ecf4962777b055b1b5e3f2e550c6e295d87587425a97c1f71, 0x0);
  (-1, 0xde64086f82c72ee4bab179c702fe9dc0afd8f8f207a0269bbd0a5f29db620ec4, 0x3cce84b3f0430b84a4427b8616e64cdd1d79905d513c770cc1016aec8a3f0bad);
  (0, 0x8d1beec88349789e3f4b40b4d39af16c7591f3e444baa9753e0ceaa2dfe482d7, 0x0);
  (0, 0xd3f4cce961ffe549a1bde06dae8bcd25a1ad966f12de4abbd3533ef9fd11057b, 0x0);
  (0, 0xbbb8ad386e7bf7d22319f4b1854b5b7d7c6e733a47fef70d9910239ff388dccb, 0x0);
  (0, 0xfbadfc68413c1c0e022664b3338a4037c4515bc4787fa26b0ade103a190a04f4, 0x0);
  (1, 0xef7374647b2d8a3a1bd5d79be0932b7b6c76aec042491189d60dc4cf9dcd8b6, 0x6603582141da7e41366854e6f5a189cc85b4ae2497d17a6ed0fa69ccef3f921e);
  (0, 0x92428b52c3a09bc482f8de6c9bb2ac171d6b54d806968491dfee75911e3eb0dd, 0x0);
  (0, 0xe2b3a6918d7c6814b65092de18bf4136e8a367fd946059dbf17750b37043bf07, 0x0);
  (1, 0x1d2b21dc92cd7f71ac48377e0f466f0d115d5832ea3489f544874b778cda65f3, 0x3e786d576e78e91f6dc67d9908b0ea0da3accfb5fd92f2d7abd492f512d050d1);
  (0, 0x8aa28ab988dcb683834ff4748ecfced7efdb2c6b9a3b6066cb5ab70b624b2b1b, 0x0);
  (-1, 0xa38ce7b0d37e4977bb23f2150caf57369b12d175ef38c6e959ebc3ec4988b924, 0x280af999521d3bae7713279996469829f420087b4c097c2b946f8e971ed4fe04);
  (0, 0x845b635882991a6f98cd1e769731c9e7e638cc6f974045a59b698108757a09fe, 0x0);
  (0, 0xf6a10d7034d91e9aaefa6228f4c8bb3ec635717ac8cc5618b8b9f292b514a61b, 0x0);
  (-1, 0x1a777f6c952b6bdca53f6322ac33619ff5716558652a0ce4e2c19d3934a2599, 0xbc962630afd3a3df4716e3496997187b2858e23bf5921af929666bde4e7b6c00);
  (0, 0xd89a08c6588eea9022f5924d96d6b934b95fb6d83a2094622aea21e5ce460071, 0x0);
  (0, 0x6d6b992cf9ca0ffd8cca0e84138a198e4b6d121122cf6557bd7e5ef4632d8819, 0x0);
  (-1, 0xecd0d8ae325da4dff548defb9269a4a7291790441567beeeddfb1dbdc4903d11, 0x3cf872b0b0e168a934393a0e12a97ccc17d330bb5a65d526e09edaa123db19e1);
  (0, 0x82d150de8dbd858ad01f148428302d799859f06365c299ed55eee69e111c6280, 0x0);
  (1, 0xd74db040abcda0d71508329037a49e052bf8d6157140f730f2f0cdaffcb8c6c3, 0xbd51b6e21ff1d19cbb76dc85a0674dba922fafedd5a75e4694c8e2e7335660ff);
  (0, 0x890f57305c82a7c7db1a68fcebd4325d5b18966029db6eac016f1deb195d4b1e, 0x0);
  (1, 0x370245bea4898ec2c66cc0104304f2ae9cae4d02bfe590d661e4ec6ad11a6ed2, 0x65ebd4806129ddfe3a623b02674efa9cebd4b62f67d20afe37025a0609daeb24);
  (0, 0x13dfa061d14b8e2c854d16130a97a0a4958cd336d0d4fbd5671b1ce7016880b9, 0x0);
  (0, 0xb9948ff7c18099e7e17354e68b3ef2a32eb7cd1063c5efde27a5837286c82997, 0x0);
  (-1, 0x6b51257a1b76b160b6a4289965067bc68d0d5f83c92d40caa5b172744e65ffc8, 0x2f72bdf186fa49d6a05505d08f3fbac87e3abc2ed66952128a8d9cd9c82fe66a);
  (0, 0xc01ab8c1de618c97c47edd4cdeca37f8492f9d953df032f996958d407eb3517b, 0x0);
  (1, 0xbf34dd1b2a6905cf52d8695952b3efa61720fabc2903b303f9b75e26f5ec89c0, 0x2fe69fc2ee20b6ecc6e6e9dff08e866dfd2a84b5a1d7eb91b39f39cf80a42450);
  (0, 0xdadaba7c32a9f852a7a8fc7e11e8d6b966dee78b6368831ddc7f776cc0dbd303, 0x0);
  (1, 0xa26625a8b3b8aec810933a69ae4cc87e622eba1c6928aa195255ccf51b4bae37, 0xdfc1624d8b32af4c78221d5c80647399c02584876fb563a3ab2ffcc2eae2973b);
  (0, 0x6384dd1ef6c463554450357f8be069f11113b2f316cd33d4ca419a3cbd486fd7, 0x0);
  (0, 0xb45592591e2dffdf5b176d5749c471518f60ce98b204ab44b7153680f279242c, 0x0);
  (1, 0x321dc2eca1f2789931b6ccdf15054fe924eb1e405ad21aac9bdff6ee69dc05ec, 0x8b21da1b7a05997a3ffc356b34ee3727199d8b74bebcb062bf624669a1c71e0b);
  (0, 0xf70df28b728b3e69a12868770a43c96f40cf9d36d7e4aa97e6c56c96a567f44a, 0x0);
  (-1, 0xd1c1c19ec462cf9b7892e222d37d6b18726ef6e766fe931b22a0ef6d78609d91, 0x172b19dc6a7c7bf86287649de191a21827d01880bf3761a1b852091eb352be63);
  (0, 0xd0e03cbc23547f8f3df296f0e73f899681cd29b66cf9a36ed481c06b3e9146b2, 0x0);
  (-1, 0x5834ae5a117fb47e168cb7d79e5c558009ccf5ed204f14b0c24dec605e8380, 0xd614d9da096ab4e054f95cc2f0e47555ed9da091a15280e0d3316fbd318fb6b);
  (0, 0xc98d9ebbcfa1916fffa43f542584883ca350e6649c455790ebd0189d7a082622, 0x0);
  (1, 0xa4f669decabec29710644e92e3a14ede2740c3257a74a0f60e931a34e13dd83d, 0x90ad340b6d508adb805cc593a6bdc728e71c1ce9dd57360eca6647c2d62d86a8);
  (0, 0x97db18fb24be89a79614d6efb0828187410a470a85450e92a9b43ac547033ce9, 0x0);
  (0, 0x41be3abe218456d85120744eababb1b97a396fc0f4638b47b8e48211a88d9bb9, 0x0);
  (-1, 0x1bcb273cf2eb2d65cf2b23160ca0afff2b16eeee8e0c1ee9aa531efea6ed9839, 0xcf7f18fe6ffbe6a07470b9d2cf25fc30284e0d8ca865c2c061fb3d6b8e79d151);
  (0, 0x7707e54177921b960bbe9a0914fc634a4100a5127c45ebfc00499d8af7538238, 0x0);
  (-1, 0x49279b0a50054e5b9436ce220430ba1f65bec6a5d381abb37554f48369622356, 0xb3d36aa52c50b14c1fdc0cf5d6f5956294512163d472252b149072bcebc4fa70);
  (0, 0xe9d302a2aa2986ef3a70e66632e6c90b5884f65bfd764b4d425a5ee9f54fc322, 0x0);
  (0, 0x90632d3c60bce18bcfdd520ad5a6c9339fead0273d3d710f791ffde4c07a7cfe, 0x0);
  (-1, 0x25ca2527442a451d3a48c2d5c1e5935ec0f0ffbf15ec92133d69e924c2d881aa, 0x2c4e7b061b0e663ebee078dd9ff2991e980a48c3847daadaa1a9c17660e7f8af);
  (0, 0x27ae37acb1edc5ecaa56c349ef415271f232bcc995a9f639c7a4b6957a03cd92, 0x0);
  (-1, 0x36acb4e38280f0536ca518d06d8263d71569cf84b5fd4e1eec1ce9d0d4bd3ac, 0xa350395227d2ff22c0e6d449f502d9612c0714a51bbc3842e8e5b9cbf25c01be);
  (0, 0x82f31b8070ec0906d988fd1637685d708467c7066c06e2e739ae3f59ca8a4db9, 0x0);
  (0, 0x12c78d92670e14245d822adb1b4f4ef7fa2653e69600706a7dfa6aa6828f3d86, 0x0);
  (-1, 0xf40c204eba4476b73d6129f63be6724a62af81040ad686f9ee74483821bb7204, 0xe5b34858569c77b7fadafffbc0831be6df39b4ac03b057be836a7ebedd941646);
  (0, 0x34fa52e4cf01e7eeac71447d80e369b56284ceac6266ceafd4e01366680faf59, 0x0);
  (0, 0x982edcb276ec4c1bc61cb10f8f6cc512b4d315854536e62a6ec64d30a37f8723, 0x0);
  (0, 0xabcfec8a6331b7a811145682bfbd1f2fc0e3c663be4bc69bce27a82fa8f1beb1, 0x0);
  (0, 0xee6912ccb3beb3b4e999aedbee2f69de8ccabbe40efb6b9af5ff293463530831, 0x0);
  (1, 0x2085b2fad0b04d869d770a3ae3aba37fccba924e76ec42532f687d0b73d48049, 0x750392444b03197bc6b5fa42ccac0c4b4866f5433c4cb629c18d90edba2d150a);
  (0, 0x987dd30d8a085342e5be616812c14ece058f6dd84cf93a7c1fcf90aedec08a00, 0x0);
  (0, 0x50bc9c59867b6ea9035031d9d256450752ed5ba6b35cad30d524fc8a7d08b15d, 0x0);
  (0, 0x535fcc81862cfabc5eb4f63a180e4bf28bca0c06cc7093c8b5a0914a26ac21f1, 0x0);
  (1, 0xa774fb0c714a473610ecfb2547f54b08fe605761fc6cd2f45762241ac1850ce, 0xed8fbd96b940056d4c1729aebe16b04c96bbfa24223643970ba29421b83968c9);
  (0, 0x32c6588a8284ee27c691b1347edc8eb8fca8d5419f163e6d81610c8e60ef6ae, 0x0);
  (-1, 0x438c1a8b76881ea9e6aa9c938663708bb7086731f1fc71b0521208f78ba0de27, 0x6249e5f90e4c3a6065f24efe5ae0944805860b8178d008b039e972cb2ebe09ff);
  (0, 0xb1da2052a5896ad4cd246d23f936dad970cc9fc7198c7f7b956e6719e2aed831, 0x0);
  (-1, 0x487d17a489b354884b5d283eb36de2660e5837f1e900c73f20c9b984ab9e4a0, 0x7a7a7909bd3c6b880745f2ba349c813d4083c67de7f338478ecf5c9f87d6cca7);
  (0, 0xf7f059658eaea4c7d26812ec2a26fcd8cde23c963665aec0ca474d49d7acf3c2, 0x0);
  (-1, 0xa1d8162069b0474b732f78b6eee075617aeb06f2bf611ca86f8118ee8f5f6991, 0xb8180c52af1ee178888abab28a03212212cfd955284f465d17146549dbce46d5);
  (0, 0x2fe65cb655ba7b90b86bf7a64fe1a590ec400d040904708913a3e741dd33930b, 0x0);
  (0, 0xf8f5555999a9fdae221715c968df16e95069aab79d6e07fbd224d3366cbb2c2d, 0x0);
  (0, 0x686f5ea87646727541650a6ad4aa4e3c9704ecce8057eb998694115fd961672f, 0x0);
  (-1, 0x40690fd68f1e0bf6e51655736ba8ff6798ad085fcbbc591d64548a24a400c022, 0x32cbe1f0054b509d71f3ee751a955124a1a62b8d4179c31835c3957c7116fcda);
  (0, 0xee76ce6669086556fe74727493f800e77d8d7f1daec976d0d3bc2674e17d245f, 0x0);
  (-1, 0xba719f69b904ff47d4288add3443be35f045f832fb3225f966965e1828c726e1, 0x41761ad65931e30b3929811a1dd6b8d7f65b7a40d9619c20b3ce18567d50e95a);
  (0, 0x9e88199a6c864ccfb4cea52eead35cd7e92f783d4054e13ab90b56955b1d0924, 0x0);
  (1, 0xdf762e0658bce904d7b4e603a4dcc6507eec7a35515bbd6ef105bbd5d5f49df, 0x1c88d924aa9a9195bf04502d7c21548584f1f166aa8ba346a842733558156c9a);
  (0, 0xf58fd766f11ed04bf1bfab80a310598a97a844ef15b60aa22ad87f33bff0b4bb, 0x0);
  (0, 0x38f68ce9f9ab6703474b88a038a3cbcfe41d868efc6ec0863fe9de981de30e4c, 0x0);
  (0, 0x8ef62c630ccc7cee0d2a71e383e87cf7033a463b0103e5e46b5e95568e71f9d7, 0x0);
  (0, 0xe3b55c9d383e23324708470abb2c94ceb0742e72bbed74b6b1981ef4241fc3df, 0x0);
  (-1, 0xcb90219b008ca2b9fc7a782972527eca35dde859b41f30f7e71481fc128f9f2e, 0x9cb19c10be96ffe4b3b9ae0e624e5066c5d5a3104057f754d19c697d1cf746d4);
  (0, 0x9e68b0127c48e12861b6cd749aaa129efc41e5aa5092a2da0874aceb1e3eb0ab, 0x0);
  (-1, 0x2652cdc65c748612380ddc7f03cff9eec21f957a4e353349851e97d5d29d33f0, 0x4d8ffb9e1cc065a11c3579d119b4745b0307b78041bbf42235eb98d8cbf8069f);
  (0, 0x29014acde43e7472a610c714e55c861b2e1fe2c52780815f0036d31f4cd70f84, 0x0);
  (0, 0x4af26313be662ef346749f27192ab37330add14d5693507063152d1ceb96877a, 0x0);
  (1, 0x4458f7411c0ab0e68961b4792522b701858b6901f6b70a1c4f7e94adc9a00b5c, 0x471aabfc4939ae5abcc026cf0e89e8b79ece04fa1e92b300339436495b660999);
  (0, 0x246ce4c010207afd77ffe3b37783301f38f7403a77f3f6dbdf416c09f51c4450, 0x0);
  (0, 0xb0f0b115581171f97409bc3b078a8551272b79b24a477976ad67e378e1d6e316, 0x0);
  (0, 0x9b1017cbf4b1e288b9cea41142f00d20b0bdb3b44cbe44f6c07d407fcf798553, 0x0);
  (-1, 0x7544ffdeff968e9b700c51fe154786f48f6afca08ceed4f353f44869f3881a8c, 0x4b1a9a3a411faacbf54ccecd14c1436d0e972d91574a65d24a007cc43d3bae03);
  (0, 0xce6a1b9ae85804bd47edcce5a6255d18e10e66c605f6b12f43af1365f624276e, 0x0);
  (-1, 0xeb06e7beebd782cac728a337550dfbb612189ee18ffa08405848fee29b3ca84e, 0x2b0637ed1a77d266b24034a6eb3bfc907c9f509d28148e1df16b36a259efe953);
  (0, 0x7ab7774c75af1c3f43880040594129c094837013a53b39c4b887919fa9225401, 0x0);
  (-1, 0x7daecba09df2bf5bac33cf3609ac5427a12302afde7aaa4a21a4d6dc90f8edbf, 0x574364b185684e7d065c8d11779004bf34a3b7d10738c660ba13fdd1a28b221e);
  (0, 0xbcc4abe39ad336f95f8be19fd9e5a2001ac6c6454ea32c2ea5c3389a60e0fff9, 0x0);
  (1, 0xd06c683e1d2f56d6ce80981537cf91bda433d86d259df147cd7cca74e9f8563b, 0x505ad7c695c16b38c6cdea3f7732ce4cf43bdc46e8c4586e4a6db015f0d6cb15);
  (0, 0x5ba8ba8c333aa9370b6d16c5683dc45834c1d01ba51c44ddaadf1845c0cbb9af, 0x0);
  (0, 0xfe66b48706dbf98aafcb18213845e477f3b71745b3dc2a49c9d2ae2196c12033, 0x0);
  (1, 0x57a57cbe4036529b12bdec0d9c6d9383be529ef21c7d2b2c4ec5b7220751e2d5, 0x82fe4ef0b70558b630f7433db3c69c8068a87644a4177746665b5321f1f2be06);
  (0, 0xb9832032eefb44b74adb315da53a7312d60d6d2ad49c325ff0e329e20ab0c29a, 0x0);
  (1, 0xd80ec55c35d22cd07749e6a810b1c2b4a5044cafd773b0d45ed66d94b0b25ceb, 0x78f67f8ee9f3bba90ee11833087381c51941ee5fccbba8a72f0c529921bf8434);
  (0, 0x956695b3c145054ce9624b90c540f115e3ee006c290e469a51271ee30524fb25, 0x0);
  (-1, 0x91181167749a9aa6fb2dc5dd5a2ee61ad04d766b35c2c9616fd9ca1bcd5ae3db, 0xf6bf1d24ee05f258815ace8df32757beaf66fab60f8a25df93ef9ce787cf3f9c);
  (0, 0x3996fa9d671e36f8176654fb1bd6b4d24047c294882b7525db2840dad1dadb67, 0x0);
  (1, 0xa41e95384209f80d27aaa65e4215bb9c253901f5ca1aab2436c5a65af28f4763, 0xf27bd8b9c1d0fcdfead16148681d267d39de84c501bc57f0c26bc7866d74898);
  (0, 0xe4759524e427631c211513816bf44f67288d8466ce4a8295fe2bb76824edb196, 0x0);
  (1, 0x12fa29abbac123390ca20f82cdb00abdae6a6211a02d5438335880523676f9fd, 0x3f6698a1b106e1f4d9a7c98e920808d9819558a1abf827d31e2e7b9f14a22190);
  (0, 0xc61b5160db1e93328e8df4fdece65910fa4582ff6aa728e7f1363c99e34beea1, 0x0);
  (0, 0xf4cec02711fc0d719526b6957626031db4d5edb3dea4e8967b44e2a85ce28b26, 0x0);
  (-1, 0xfd615cff0f76ba7136ad829a900b7f3acaefd6889e7d1296f7ccecfebecee2a6, 0xdacb6637b00a10ed2cb9112d4ba1ee39318641c9b7b53264c2e8964d6942a6d1);
  (0, 0x5c4bcd5a599e0352242628798d8c3f5473ff18392b9979824c5125739120bc66, 0x0);
  (0, 0x427883d378596e99382455b90d773aca0e702bcc1bfe7ec7d7103a990320e622, 0x0);
  (1, 0xc785df24a1aa95272b47528b19a9a27280f619682a94616b5162ba7d10925c14, 0x78127210d4d38dba56c1f769a834b2312e0f5f97292b40c7aae7ed5c764279ca);
  (0, 0xcdb64075858a245d879c9fc71c86ff503ea9b30202a088ec38ffd467d6397183, 0x0);
  (1, 0x8ea1dd501cbf82213448ca628ac0d74e7c78ba35d7cb2e8f843480faaf1fbe83, 0xc1e5eff2794adbacca36f8c91e2c640ccb9e7529b5db420fe28f9e2b803e8844);
  (0, 0x2d893cba24f6f272c4e811075b4f65b9b95d377ea2470c356a5e95f3f2760dcc, 0x0);
  (0, 0x923b75fee7d1a869b6bd2cd13f3201ddbd6bf792f03c0a465f6e25cf866d19c5, 0x0);
  (0, 0xb7297b39fa944e21cfb466768fa8930b0e060b901ea0de5714622278ad9be56d, 0x0);
  (1, 0x97767c0f22724bd7faf946743b40c7c7052198add6210906da5e86e2d2dc2fca, 0x5dbe1767097c807edd7c3124679f1ebef911fd7e627c6cc991430b2eccd7d385);
  (0, 0xe09f5181db7ef66d67093ce0f2cdeb6c44f55a88be470f862dfa80e00bfacfff, 0x0);
  (-1, 0x6d9e07df67091614601fc1a56ae8b8af100e50a6033df917100ed0990d01538, 0x90206dd8ee34e78db9b67f0bc6ceb4c68e2e8a7db61e30e83dd16ab492dc3bc7);
  (0, 0xfb43aecf79339b971182525f6b077eaa139eb8ae8580c02ea07382c694bf715c, 0x0);
  (0, 0xf1659c810b13c4c69db092cdc113b201e38d46d553fb261be2fed7862775554a, 0x0);
  (0, 0x2879d43bfc1064cfdc5ba2d2085d8223287750c1f6c841386e96338dd826039f, 0x0);
  (1, 0x3dd254723292898629f908f8f6b3f24602c1eab825944da7588a9d7ad1614108, 0xb555155bd75c7945c1a3216f2c7fd125c3d22ee2bb3b2d0436b822638143e786);
  (0, 0x88a60a4212abd689ce05d7240bb15ff73079cb1a2e051aa43808d5e7f77a4a18, 0x0);
  (0, 0xfbdd34dd6a106e37ea6da840d712ef860459354c5aeb8e91ec65d7d469690d7d, 0x0);
  (0, 0xb861d5ce81889407d89b066116ea68d70b8cfff4333935111041120b01497dcb, 0x0);
  (0, 0x88538cab615648753e955f0b46f6a1500c887b1883408d8a52cb601940548a85, 0x0);
  (-1, 0xd6bc39a8a27fd1505760dcfbf79af79d18d4f8ab9a027a4437b5688c914158c9, 0x5c2db54dc0aa27050f7d346eddcb7de2f2f7b902179816a1c4f9646e6f67846d);
  (0, 0x35ec6ceea33737ec063df013dad0f5c9c3e5f92132e61da8f04bbeb8cb581111, 0x0);
  (0, 0xeab85295dcba439a58d5d7d1108253fd0c1d6514d58033c67742ea290200d348, 0x0);
  (-1, 0xd25b1ec913fcd3bd2c41757eee7426184f5a3d117af9d90465f8886847015d08, 0x9442f3d86a9a6a3186f788f4cc4b8b0921ec79c32109220d68e7052a2a325e81);
  (0, 0xc1e8c95ef8d44d6a98b6ff404e483567cf31b9f3d878f9d6cd9552db83683e0f, 0x0);
  (-1, 0x2f631dd666a279f798c1422f0c917b3ed60ba20c352aa0072248fe00e63b4a7e, 0xc9993a377bec83ef0fb05390ec09b1e9bac7de8fdb568477a11a0d5242cefa63);
  (0, 0x83aa4cd70bfb556c4c0e60cb010a6890e220591fd89050ff49d98e3ef0d0cd8b, 0x0);
  (1, 0x69b5076a336421bc53459ca8b519535bcff5810f79fece207f4e4d47989ce390, 0xc04b41b60c2442ada6e1e49ffa2492663d5a2f643a5c46ca3d58cd5bc94c577f);
  (0, 0x27eb987d4d7a099becaa76d788256a8777c32213eacf860c499e3dea0fe2c9b6, 0x0);
  (0, 0x243f17a1fabeb88b015d456e5f883c5b6e6ec60d7a88bbc215ee3709bbd6e068, 0x0);
  (-1, 0xa0486df12ac70d2f99888956e772822f1782883d96498ecd7d6b577f125bd62, 0x83f6415c854e0b1659880ebfe09cf96c3748f8381c9ccb9eb6cb2930126ba019);
  (0, 0x70ac678d853bc35a4b5117c6b4745d4cfdedaf840d486aa43ab32de653204013, 0x0);
  (0, 0x6bb778c605b0f7c933e8663ad656090c1c66163e333512134b3a9e41785adc56, 0x0);
  (-1, 0x28d79b52f04e61876bd5927f1fb9f080cda9ff37ce900ac86373a0a64c9f5ebf, 0x3451bbb4497332f06a7f0ac83e9d27ad216ce2e43edaea6e7bb8ce08b2ad2ffb);
  (0, 0xfdccfe830777e41efefdd9611189d93b975e39ad570be3d1c19efa6b1aedfd57, 0x0);
  (0, 0x2c77badc146463967f962fa8c3ebd8783123414779c0d96c92a1f5678b754a14, 0x0);
  (-1, 0x731abbb5d76546df2e28d6ddeec55e6dfba1419bb66deeaf03756fff0779ea13, 0x775cbda909caf0eb491856ddd703ccee82f4a19cde94a2e911af339b5adc3bec);
  (0, 0x296936d0a3e7ede889b46a90e46c467ae53f4af3d52df0aecd5f002ab34f27b2, 0x0);
  (1, 0x6795ba05799d6dae9add61d578a37f8ee9f078b583eafdfdd40c8cf37a76396, 0x4f202aadc025d5c99bb281c77cadf0da0eb7cc43e92b8980ada338b01b7df746);
  (0, 0x20ba977ce63461488ba0580c0c3b9532fc738bdca2bf6db1af0cc7cb54ff3c52, 0x0);
  (0, 0xff5f4d36d70076df2b4dfe51eca809da3a1d13161f8443cab5e30e0b75989cae, 0x0);
  (0, 0xe308fea40259cd3f9af8dd216a7678c90a589651fe250a98d8fd1abd95af1995, 0x0);
  (1, 0xcaf6488013985eb18770720bd292921798118c6e96cb357ae64f8ff66c54ce40, 0x50f5ca066e3ea959b09d643dd29eb1c90171e40849befcb05d38b9a69d4cb9d9);
  (0, 0xd48af78f64336cdda367e041b9b75ccfaf3050f61d28a9b3d9975bb664af27a2, 0x0);
  (1, 0xe1849d5fbf91ab0e3a22fa2902ee38cb4e7d02d309f4fb80dc02407dbef4ab6d, 0xe7cbe4fa5072515e87208a76d92cd38b8c262e10e0fdc181ce486c39ca48f818);
  (0, 0xa120c95f598799403f9688d2ce86fb6847131bef0d9e7b24e58b4baf8779817b, 0x0);
  (0, 0xc41b340f07f1c1139efaf5bf0663763ca8b65d2bc5366528ee9bb5481769ec31, 0x0);
  (-1, 0xdc928f41f32cdd1eb40a5d09095c0e1f3da20629aeb5347bf212b305c30b81b6, 0xbe7eb3213c4f55d688d9f38ce344ff8908e60797c66342875506a13258c7295d);
  (0, 0x44565dc7a0606205c3a6e0731d3851741314982762b8c51e2ab34968ed6c936f, 0x0);
  (-1, 0xdff9ec34db80299cfc274d8a787d9a192a413d8f9002f7f1612c031e1c17dfa0, 0x111f6f90ed64aa0e55c90870d590d2c1537e66b3714a89bcf9236c65e0716d99);
  (0, 0x693819a3664ad3117d79904ae0874be946912e8d1d3255df4fe74b2153a124b7, 0x0);
  (0, 0x5e4014f29592f6df686fe8f87334773ec59e612706bc62ba5e5bb84a7385631d, 0x0);
  (0, 0xffd683c6c68e11ba26623eed2278a974ecdee090141541d41bf3c09f506cfc7c, 0x0);
  (1, 0x8b1e46b0057af7787933da7abc993886458d52cb25897bb76747182b57024a7d, 0x23afdfe4ea48aaa61082b9e3be8b579b30916c86ed6ec339eff75be6cc7be067);
  (0, 0x1d971d262b5502521d871d0c90b96ae3f6334af6f2e544b91b1a9c759ce34aee, 0x0);
  (0, 0x1a91aa3f537ae8043539842a320200a99565140d4fd16a5b82a399d3f149d5ee, 0x0);
  (1, 0x70f779e36830797e9f816335743def25c223fac9d2cc78490edf47a26d9afd4d, 0xfb6796ed7fbb42d223a3f9c4f434b69e5d4077a57b8b945f87e0bd119ddef4d4);
  (0, 0x7ae361a0e65098d7b082a3054f450c9fef2b2c54ddc5eae1a66148b5083d4056, 0x0);
  (1, 0xb6ec1f852bcb5058bcc60a30442b8ed73d5bb0f62ffa60938ac89f446a4160ec, 0x1732db4a1701d597822428cf4b14ddb11dd1522578753fec55e899ac6cfd5fe);
  (0, 0xb3e67d721c67a596900ee5a1888381271337c0d35842bb1f962fb1d784787386, 0x0);
  (0, 0xa1c84247173fa911a75da91762adcb0cfe6bd8edbb7e667160421fed6030203d, 0x0);
  (0, 0x78e6b983cc7b77e54295b7ecf963bc713b7ea9570b3671738e0e309f14001d9c, 0x0);
  (0, 0x44e5a97d62b6d8a21357de3043d130e2c5c49f0d4562560db848c1456b45c2c1, 0x0);
  (-1, 0x2138f5c6889e0a78bf571e6e655e00739a78395c2e4346a27e8e49b6dc835f3c, 0x4169836402213124ea241c58912a6df81eddb839f163d9f0abf04f0d3b2cd91);
  (0, 0x643d9fbf5b9bd7ad9ee64e2e9a3200490ca8dfd65d4e950ba4e54072721410e9, 0x0);
  (0, 0x4c8deb50712999c7ac4db7d288353050de9013ad975cec9ceef91ef69ae5634b, 0x0);
  (-1, 0x876e2d46ac04072237cbf8784ad497c672682e1443c60cd0f5cd067f69ffcf2d, 0xfeba32722343516c04d69a87482aea835755ee53f88ad9c2a858c7a3904e4ade);
  (0, 0xe3603ff14cae06f6049791d429d1d4c615f85bfccf12a4c4c4c0ef3f7ba21203, 0x0);
  (0, 0x837720805f1d8c75a873f2323b079a2c99b2647a3ec5ce86baf4d8ccc47e4748, 0x0);
  (0, 0x6200800e8e8a4aca679168b4a053e06ac3c01dabc98c7ae28a039fba24d6c61b, 0x0);
  (1, 0xe951945ff2835a6bc42e7864ce6a337905992c4bf6519939b5a44a44b49e03ac, 0xa8da44a7a11114e8d7894b8f7a8613e18961c738c7de86ed51953eb13122294e);
  (0, 0xfb26c4db4d08891f20c66fc55c89b59c8786104c27e361ec4d308532d13df8ae, 0x0);
  (1, 0xda36383ea7ab1e3bbd35706e9ac4a751608274a5577e70c0cf04ab17ee2d0832, 0x1e36cc3ec82795238c880f9ccf0144280bb243695b8de4b96a603a4a2a5d1cea);
  (0, 0x75f5788ab31117334168f676da1696dd601abb49a6a65fcda829651a4243c66b, 0x0);
  (1, 0x8ff2ec98f4c16f37cbe81d1c6f260ee2f15f1853a4581dc0e2cc05477633dd0b, 0xc53bab9ccfe43813bb5455da163286d321ae7ef5aa0ab97dd8614591ef135686);
  (0, 0x341db1341df556e3447fba2590c831e4c49107451e1630cc2f95c518086630fd, 0x0);
  (-1, 0xeedde9616db404375c7b690f81b383a8ea2473543c9bb81e1540d3c2349962fe, 0x2e1f9d12997e9123e2d973f233b63559c3836100a74770f50bfadc5b7d0dd12e);
  (0, 0xca91e4bbd566ed8113a6241c25f0fff671c71459a12ecd52502f15242f446a4b, 0x0);
  (0, 0x22155cd61fabce636a858c8228a12e8d325c07aa934ceba737e39668f315e8e4, 0x0);
  (0, 0x38ae5c1af24b594401c491add047b4bc81ebe0e173e2e734e0bada371cfa66ae, 0x0);
  (1, 0xecfebecdd470c0ed899c76a26978cbae2be788f3479672ac6bc5ce010a2c1dbc, 0x75ff76139f2497a17c049be53d976fa7c2a0ded97f909b309b52b249c4d28f19);
  (0, 0x74c203332c1b4118e503868cf873c7450ead14149204ea8835065211eb47ba2c, 0x0);
  (0, 0x8dac750f3ae8fd7b5354a886b02b4776e5c09787f19818b05f0a7f4050ad28c7, 0x0);
  (1, 0x8e26e2931873f76ca2e8450d264d2fa88fb38fe2d937338465de6ca6e9b268fa, 0xcc935a2ee7925d0608b70de81f131ac445b28041c54d04815d636840f7ab3674);
  (0, 0x27052cbf0d0ee508dc0257743798b6a0efdccc1ec448dd70f35a4e14942ba902, 0x0);
  (-1, 0xa2593e079e6b452cc5d616b5eded3512e1b1e841d559c6ab09dbd367b74dbf55, 0xa9ff3b1c35f7e6193b87f7d27464a2c765ba4273559f6d5383ede6f52b2c5b30);
  (0, 0x1aa74f279b7c28d52e9c96e7444b094a64b6d019e456038bbb2a0428db46378f, 0x0);
  (-1, 0x310df179d53ff83c05712a00cef865f885b019c4af468b55263536a03f1b3986, 0x3c6f23b77b70e6cc151b1afa537c4b81c46d6ab22908c95f4914e618d81c43f1);
  (0, 0x685967314c51fb3d76b480d42d7240d3d3e02b6d6a58a40e6f2d1b10e2a86b60, 0x0);
  (-1, 0xf82b76ed86a6147913cb8d12ce02775dff977844bd7df004efe9e6a5f470feeb, 0x60b6ed86331204a0189f910bcd347af219eb245e2ed849362fa17bcff0e5fec0);
  (0, 0x3c60bce5e097c16b061794f9f064a054b074cc912cbea9ca320bb39c294d1d22, 0x0);
  (0, 0x803b988aa3411529cc9777177b33577d940b94b8de037b6cd96b38165cf088cc, 0x0);
  (0, 0xd0d99f3896b9a7c3008bbe4b32e1ee9eacc475f5fd1292c1b7ef75e947b5b99b, 0x0);
  (1, 0x778d288e5c5d8cc772b762d9500d7e0aceb651e963da246955574b595994311f, 0xe55287268e7031c3a88d838e262874e986ff0ca7796cdcbc1396b5d24fdbe318);
  (0, 0x167bcfac76490fb3cdd37b89f0e5d28d51f5b3b71748bca71f975f1396790d6d, 0x0);
  (0, 0x8712894b827e7ea5f20ebf0cf5e2e289ef9c2b668f852d82fcf99a1faf401f3e, 0x0);
  (1, 0xa36bc2629ee82bbf41106eb9df49f2cddb1384ea0c11ddcb13cdd6b8b37bd119, 0x738ecfe64401fd660cb0ebbff5b831949cd9e35b0b4d25a5901b4203021ea567);
  (0, 0xafa16992811a94d2d7980526d320634e4995db3ac7ff758bdc38cfe6ca3bf629, 0x0);
  (0, 0x86b6461535155afc36affef26adca6a9d3fac9cd93f989408e1723ff17df15a5, 0x0);
  (0, 0x4ac3f9a9dadee970d255446e0cdf58f9508447ce42391adda062709696e16129, 0x0);
  (0, 0xebc46e3aa42fd14474d4e803ccb9726a2068e97d144c80bf8c07d77683f06f6, 0x0);
  (1, 0x2450fe63adc6befd98393f9ce81c3043ff82fcafb1f2ebec0b2ca11ce800b8d6, 0x60f5c88e2cc44fa01abf0e1990cca2fc5c0f91cc8320e0980207c42b903bc0b5);
  (0, 0xb574860ce1db4cac1acfe1b2997010f5f298c44c556767d37ffac3c5035e20b3, 0x0);
  (0, 0x9e3ab03489a6b16466548dbd84b2f327103c9c9d65d45e03224dee5d600222ee, 0x0);
  (0, 0x6efefe07ce158f82bb44893e154a2d86977efbf631b15e1f7089ce095009cb2d, 0x0);
  (0, 0x271f26f213dce0d5713d2f75e5d9a6e000efb844fbbfbe4791316e0adbe2b0b6, 0x0);
  (-1, 0x31f73f8c8ba1c52ee01028117570ddaae4c20966b9e26d140ef15b24ee8c87f4, 0xe4ebeebd66d9c6d09b8de5ca43922af4b2984fde805943f6325529aeed64b962);
  (0, 0xc28641e31c7a259757d6fb650843a3b5ec910c280ab5588034792a875c3dc0ea, 0x0);
  (-1, 0x896eed2598b9d07ffd3a7ed88754a6bebf19107e2f689add83ffac9c896210d8, 0xb8a4983d21746cd8872c5890a7a6135624fdc08a7ae5fb06bbd88b2dbdbfb7f9);
  (0, 0xa78588b0353e97f3e3e9e482c5d1e282a9bd54a349a9dafa738c3b9601c67a04, 0x0);
  (1, 0x82af06de0e87257f6053f50d21d8829b84cc67ca7eb84427f065368ad2a36c8d, 0xcb0a90723ade177c049aec7b78c84d856c8ed13d6688e56f5099c2792dfbdc71);
  (0, 0x8356d9b6d3a52808cd44011fa2e3e2a138a769e66b707cfc484e4a77f8dd833d, 0x0);
  (0, 0x8371564d683bd205ae8695cc0733f855178360f3d709147a1e75ca7706cd92cc, 0x0);
  (-1, 0x4b1d09992304e38cae6c9d01dda23aa125843c6193df81b18899215decbd58d0, 0x139955143b872596705f5cbe9ebe4a1604b5aa7945dd163413c1516c17a4751);
  (0, 0xe05adf1e4dea51433af8f556faf19ee2cb7217739a7b6d36718cf868580e1bc1, 0x0);
  (0, 0xe0cd2126740a3cf3fcda3d349e9c47e4f62b8785318cf81122c85c6d2ca86790, 0x0);
  (1, 0xbfb99ccf919a4a01ec7ecbce26c814fac14e954c6b7c9a4d18c4515571691d7b, 0x23fc650fe6426ef78b5c44d0a7e6cd1a3e345f00cfea6e04aa4615f7e57b5e28);
  (0, 0x135ce895096d81622392e986dec1cc4171f2679909cbcc31f8fe01c3d6118590, 0x0);
  (0, 0x17028f9c345e02a431ed1c46863d82a23fe184e3ae356176c433d2276fceaaa6, 0x0);
  (0, 0x19d9e1c632168b7989153d17c5effd71b1744c38ecbbad3591cac6d89b4403a, 0x0);
  (0, 0x2045ee638e9a338d1d5c7e0edfcc8dfb7203cf9b1d33a67aa92d13c1f331a5d4, 0x0);
  (1, 0x76bfd86674038b93fd79b72cb2f257211182a37accf57bc3b4dcd3ad51930317, 0x62b7a944b165206765cad1f911cba22597d4b765f25e57770ba6f8579f9e6d8a)
].
