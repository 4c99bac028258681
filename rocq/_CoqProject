-Q theories Verif
theories/Base.v
theories/BaseLemmas.v
theories/AllocModel.v
theories/AllocSpec.v
theories/AllocExec.v
theories/AllocProof.v
theories/AllocProof2.v
theories/AllocProof3.v
theories/AllocProof4.v
theories/AllocRefute.v
theories/AllocProps.v
theories/Arr.v
theories/ArrLemmas.v
theories/Finite.v
theories/TokModel.v
theories/TokSpec.v
theories/TokProof.v
theories/TokProof2.v
theories/TokProps.v
theories/Utf8Model.v
theories/Utf8Spec.v
theories/Utf8Proof.v
theories/Utf8Props.v
theories/EditModel.v
theories/EditSpec.v
theories/EditKeys.v
theories/EditProof.v
theories/EditProof2.v
theories/EditProps.v
theories/GetoptModel.v
theories/GetoptSpec.v
theories/GetoptProof.v
theories/GetoptProof2.v
theories/GetoptProps.v
theories/DotwModel.v
theories/DotwSpec.v
theories/DotwProof.v
theories/DotwProps.v
theories/CrcModel.v
theories/CrcSpec.v
theories/CrcProof.v
theories/CrcProof2.v
theories/CrcProps.v
theories/ZmModel.v
theories/ZmSpec.v
theories/ZmProof.v
theories/ZmProof2.v
theories/ZmProof3.v
theories/ZmProof4.v
theories/ZmProps.v
theories/LoadModel.v
theories/LoadSpec.v
theories/LoadProof.v
theories/LoadProof2.v
theories/LoadProof3.v
theories/LoadProps.v
theories/ExecModel.v
theories/ExecSpec.v
theories/ExecProof.v
theories/ExecProof2.v
theories/ExecProps.v
theories/ShellModel.v
theories/ShellSpec.v
theories/ShellProof.v
theories/ShellProps.v
theories/DirModel.v
theories/DirSpec.v
theories/DirProof.v
theories/DirProof2.v
theories/DirProof3.v
theories/DirProof4.v
theories/DirProps.v
theories/CatModel.v
theories/CatSpec.v
theories/CatProof.v
theories/CatProps.v
theories/DiskModel.v
theories/DiskSpec.v
theories/DiskProof.v
theories/DiskProps.v
theories/SdModel.v
theories/SdSpec.v
theories/SdProof.v
theories/SdProof2.v
theories/SdProof3.v
theories/SdProps.v
theories/FutfModel.v
theories/FutfSpec.v
theories/FutfProof.v
theories/FutfProps.v
theories/FpatModel.v
theories/FpatSpec.v
theories/FpatProof.v
theories/FpatProps.v
theories/LockModel.v
theories/LockSpec.v
theories/LockProof.v
theories/LockProps.v
theories/FatModel.v
theories/FatSpec.v
theories/FatProof.v
theories/FatProof2.v
theories/FatProof3.v
theories/FatProof4.v
theories/FatProof5.v
theories/FatProof6.v
theories/FatExample.v
theories/FatProps.v
theories/FileModel.v
theories/FileSpec.v
theories/FileProof.v
theories/FileProof2.v
theories/FileProof3.v
theories/FileProof4.v
theories/FileProof5.v
theories/FileProof6.v
theories/FileProof7.v
theories/FileProof8.v
theories/FileExample.v
theories/FileProps.v
theories/LfnModel.v
theories/LfnSpec.v
theories/LfnProof.v
theories/LfnExample.v
theories/LfnProps.v
theories/FdirModel.v
theories/FdirSpec.v
theories/FdirProof.v
theories/FdirProof2.v
theories/FdirProof3.v
theories/FdirExample.v
theories/FdirProps.v
theories/FnameModel.v
theories/FnameSpec.v
theories/FnameProof.v
theories/FnameProof2.v
theories/FnameProof3.v
theories/FnameProof4.v
theories/FnameProof5.v
theories/FnameProof6.v
theories/FnameExample.v
theories/FnameProps.v
theories/PltModel.v
theories/PltSpec.v
theories/PltProof.v
theories/PltProof2.v
theories/PltProps.v
theories/Uf2Model.v
theories/Uf2Spec.v
theories/Uf2Proof.v
theories/Uf2Proof2.v
theories/Uf2Props.v
theories/FpathModel.v
theories/FpathSpec.v
theories/FpathProof.v
theories/FpathProof2.v
theories/FpathProof3.v
theories/FpathProof4.v
theories/FpathProof5.v
theories/FpathProof6.v
theories/FpathProof7.v
theories/FpathProof8.v
theories/FpathProof9.v
theories/FpathProof10.v
theories/FpathProof11.v
theories/FpathProof12.v
theories/FpathProof13.v
theories/FpathProof14.v
theories/FpathProof15.v
theories/FpathProof16.v
theories/FpathProof17.v
theories/FpathExample.v
theories/FpathProps.v
theories/CaseSpec.v
theories/CaseProof.v
theories/CaseProps.v
theories/MkfsModel.v
theories/MountModel.v
theories/MkfsSpec.v
theories/MkfsProof.v
theories/MkfsProof2.v
theories/MkfsProof3.v
theories/MkfsProof4.v
theories/MkfsProof5.v
theories/MkfsProof6.v
theories/MkfsProof7.v
theories/MkfsProof8.v
theories/MkfsProof9.v
theories/MkfsProof10.v
theories/MkfsProof11.v
theories/MkfsProof12.v
theories/MkfsProof13.v
theories/MkfsProof14.v
theories/MkfsExample.v
theories/MkfsProps.v
theories/RmModel.v
theories/RmSpec.v
theories/RmProof.v
theories/RmProof2.v
theories/RmProof3.v
theories/RmProof4.v
theories/RmProof5.v
theories/RmProof6.v
theories/RmExample.v
theories/RmProps.v
theories/FindModel.v
theories/FindSpec.v
theories/FindProof.v
theories/FindExample.v
theories/FindProps.v
theories/PrintfModel.v
theories/PrintfSpec.v
theories/PrintfProof.v
theories/PrintfProof2.v
theories/PrintfProof3.v
theories/PrintfProof4.v
theories/PrintfExample.v
theories/PrintfProps.v
theories/FtoaModel.v
theories/PutModel.v
theories/PutSpec.v
theories/PutProof.v
theories/PutProof2.v
theories/PutProof3.v
theories/PutExample.v
theories/PutProps.v
theories/ExpandModel.v
theories/ExpandSpec.v
theories/ExpandProof.v
theories/ExpandProof2.v
theories/ExpandExample.v
theories/ExpandProps.v
theories/FastModel.v
theories/FastSpec.v
theories/FastProof.v
theories/FastProof2.v
theories/FastProof3.v
theories/FastExample.v
theories/FastProps.v
theories/VolModel.v
theories/VolSpec.v
theories/VolProof.v
theories/VolProof2.v
theories/VolExample.v
theories/VolProps.v
theories/SerialModel.v
theories/SerialProof.v
theories/SerialProps.v
theories/ClockModel.v
theories/ClockSpec.v
theories/ClockProof.v
theories/ClockExample.v
theories/ClockProps.v
theories/CopyModel.v
theories/CopySpec.v
theories/CopyProof.v
theories/CopyProof2.v
theories/CopyProof3.v
theories/CopyProof4.v
theories/CopyExample.v
theories/CopyProps.v
theories/CliModel.v
theories/CliSpec.v
theories/CliProof.v
theories/GpioModel.v
theories/GpioSpec.v
theories/GpioProof.v
theories/GpioProof2.v
theories/GpioExample.v
theories/GpioProps.v
theories/DriveModel.v
theories/DriveSpec.v
theories/DriveProof.v
theories/DriveProof2.v
theories/DriveExample.v
theories/DriveProps.v
theories/XfatModel.v
theories/XfatSpec.v
theories/XfatProof.v
theories/XfatProof2.v
theories/XfatProof3.v
theories/XfatExample.v
theories/XfatProps.v
theories/XfatRun.v
theories/XfatProof4.v
theories/XfatProof5.v
theories/XfatProof6.v
theories/XfatProof7.v
theories/XfatProof8.v
theories/XfatExample2.v
theories/XfatProps2.v
theories/XdirModel.v
theories/XdirSpec.v
theories/XdirProof.v
theories/XdirProof2.v
theories/XdirProof3.v
theories/XdirProof4.v
theories/XdirProof5.v
theories/XdirProof6.v
theories/XdirProof7.v
theories/XdirProof8.v
theories/XdirProof9.v
theories/XdirExample.v
theories/XdirExample2.v
theories/XdirProps.v
