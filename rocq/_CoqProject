-Q theories Verif
theories/Base.v
theories/M_aclw.v
theories/M_adv.v
theories/M_advrace.v
theories/M_advrep.v
theories/M_air.v
theories/M_attcli.v
theories/M_attdb.v
theories/M_attloop.v
theories/M_attsrv.v
theories/M_bond.v
theories/M_bufs.v
theories/M_cache.v
theories/M_cmd.v
theories/M_cmdtab.v
theories/M_coc.v
theories/M_connapi.v
theories/M_dev.v
theories/M_dual.v
theories/M_enc.v
theories/M_errtext.v
theories/M_gap.v
theories/M_gapconc.v
theories/M_gattcli.v
theories/M_gattlock.v
theories/M_h4.v
theories/M_hci.v
theories/M_hcicmd.v
theories/M_ind.v
theories/M_l2cap.v
theories/M_life.v
theories/M_open.v
theories/M_params.v
theories/M_pfind.v
theories/M_reqwait.v
theories/M_scan.v
theories/M_sig.v
theories/M_sigc.v
theories/M_smp.v
theories/M_sock.v
theories/M_srvloop.v
theories/M_store.v
theories/M_tomap.v
theories/M_uuid.v
theories/P_aclw.v
theories/P_aclw2.v
theories/P_aclw3.v
theories/P_aclw4.v
theories/P_aclw5.v
theories/P_aclw6.v
theories/P_aclw7.v
theories/P_aclw8.v
theories/P_adv.v
theories/P_adv2.v
theories/P_adv3.v
theories/P_advrace.v
theories/P_advrace2.v
theories/P_advrace3.v
theories/P_advrace4.v
theories/P_advrace5.v
theories/P_advrace6.v
theories/P_advrep.v
theories/P_advrep2.v
theories/P_air.v
theories/P_attcli.v
theories/P_attcli2.v
theories/P_attdb.v
theories/P_attdb2.v
theories/P_attloop.v
theories/P_attsrv.v
theories/P_attsrv2.v
theories/P_attsrv3.v
theories/P_attsrv4.v
theories/P_attsrv5.v
theories/P_attsrv6.v
theories/P_attsrv7.v
theories/P_attsrv8.v
theories/P_bond.v
theories/P_bond2.v
theories/P_bond3.v
theories/P_bufs.v
theories/P_cache.v
theories/P_cmd.v
theories/P_coc.v
theories/P_coc2.v
theories/P_coc3.v
theories/P_coc4.v
theories/P_coc5.v
theories/P_coc6.v
theories/P_coc7.v
theories/P_coc8.v
theories/P_connapi.v
theories/P_dev.v
theories/P_dev2.v
theories/P_dev3.v
theories/P_dev4.v
theories/P_dual.v
theories/P_dual2.v
theories/P_dual3.v
theories/P_e2e.v
theories/P_e2e2.v
theories/P_e2e3.v
theories/P_enc.v
theories/P_enc2.v
theories/P_enc3.v
theories/P_enc4.v
theories/P_enc5.v
theories/P_enc6.v
theories/P_enc7.v
theories/P_enc8.v
theories/P_gap.v
theories/P_gap2.v
theories/P_gap3.v
theories/P_gap4.v
theories/P_gap5.v
theories/P_gapconc.v
theories/P_gapconc2.v
theories/P_gapconc3.v
theories/P_gapconc4.v
theories/P_gattcli.v
theories/P_gattcli2.v
theories/P_gattcli3.v
theories/P_gattlock.v
theories/P_gattlock2.v
theories/P_gattlock3.v
theories/P_gattlock4.v
theories/P_h4.v
theories/P_hci.v
theories/P_hci2.v
theories/P_hci3.v
theories/P_hci4.v
theories/P_hci5.v
theories/P_hci6.v
theories/P_hci7.v
theories/P_hcicmd.v
theories/P_hcicmd2.v
theories/P_hcicmd3.v
theories/P_hcicmd4.v
theories/P_ind.v
theories/P_json.v
theories/P_l2cap.v
theories/P_l2cap2.v
theories/P_life.v
theories/P_link.v
theories/P_link2.v
theories/P_open.v
theories/P_open2.v
theories/P_open3.v
theories/P_scan.v
theories/P_scan2.v
theories/P_scan3.v
theories/P_scan4.v
theories/P_scan5.v
theories/P_scan6.v
theories/P_sig.v
theories/P_sig2.v
theories/P_sig3.v
theories/P_sig4.v
theories/P_sigc.v
theories/P_sigc2.v
theories/P_sigc3.v
theories/P_smp.v
theories/P_smp10.v
theories/P_smp11.v
theories/P_smp12.v
theories/P_smp13.v
theories/P_smp2.v
theories/P_smp3.v
theories/P_smp4.v
theories/P_smp5.v
theories/P_smp6.v
theories/P_smp7.v
theories/P_smp8.v
theories/P_smp9.v
theories/P_smpret.v
theories/P_smpw.v
theories/P_sock.v
theories/P_sock2.v
theories/P_srvloop.v
theories/P_srvloop2.v
theories/P_srvloop3.v
theories/P_srvloop4.v
theories/P_srvloop5.v
theories/P_srvloop6.v
theories/P_srvloop7.v
theories/P_srvloop8.v
theories/P_store.v
theories/P_tomap.v
theories/P_uuid.v
theories/Props_aclw.v
theories/Props_adv.v
theories/Props_advrace.v
theories/Props_advrep.v
theories/Props_air.v
theories/Props_attcli.v
theories/Props_attdb.v
theories/Props_attloop.v
theories/Props_attsrv.v
theories/Props_bufs.v
theories/Props_cmd.v
theories/Props_coc.v
theories/Props_connapi.v
theories/Props_dev.v
theories/Props_dual.v
theories/Props_e2e.v
theories/Props_e2esub.v
theories/Props_enc.v
theories/Props_errtext.v
theories/Props_gap.v
theories/Props_gapconc.v
theories/Props_gattcli.v
theories/Props_gattlock.v
theories/Props_h4.v
theories/Props_hci.v
theories/Props_hcicmd.v
theories/Props_l2cap.v
theories/Props_life.v
theories/Props_link.v
theories/Props_open.v
theories/Props_params.v
theories/Props_pfind.v
theories/Props_reqwait.v
theories/Props_scan.v
theories/Props_sig.v
theories/Props_sigc.v
theories/Props_smp.v
theories/Props_smpret.v
theories/Props_smpw.v
theories/Props_sock.v
theories/Props_srvloop.v
theories/Props_store.v
theories/Props_tomap.v
theories/Props_uuid.v
theories/S_aclw.v
theories/S_adv.v
theories/S_adv_api.v
theories/S_advrace.v
theories/S_advrep.v
theories/S_air.v
theories/S_attcli.v
theories/S_attdb.v
theories/S_attloop.v
theories/S_attsrv.v
theories/S_cmd.v
theories/S_coc.v
theories/S_connapi.v
theories/S_dev.v
theories/S_dual.v
theories/S_e2e.v
theories/S_enc.v
theories/S_errtext.v
theories/S_gap.v
theories/S_gapconc.v
theories/S_gattcli.v
theories/S_gattlock.v
theories/S_h4.v
theories/S_hci.v
theories/S_hcicmd.v
theories/S_l2cap.v
theories/S_life.v
theories/S_link.v
theories/S_open.v
theories/S_params.v
theories/S_pfind.v
theories/S_scan.v
theories/S_sig.v
theories/S_sigc.v
theories/S_smp.v
theories/S_smpret.v
theories/S_smpw.v
theories/S_sock.v
theories/S_srvloop.v
theories/S_store.v
theories/S_tomap.v
theories/S_uuid.v
